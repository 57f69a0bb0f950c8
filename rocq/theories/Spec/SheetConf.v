(** What a list of sheet configuration commands means. *)
From Coq Require Import List ZArith.
Import ListNotations.
From Verif.Base Require Import PyStr PyNum.
From Verif.Model Require Import Lib.

Definition all_space (s : str) : Prop := forall c, In c s -> is_ws c = true.
Definition a_word (s : str) : Prop := s <> [] /\ forall c, In c s -> is_ws c = false.
Definition ends_word (s : str) : Prop := match s with [] => True | c :: _ => is_ws c = true end.
(** [ws] are the words of [s] *)
Inductive words : str -> list str -> Prop :=
| words_none sp : all_space sp -> words sp []
| words_next sp w rest ws : all_space sp -> a_word w -> ends_word rest -> words rest ws ->
    words (sp ++ w ++ rest) (w :: ws).

(** [command item name arg]: the item is the command [name] (in any letter case)
    with one argument *)
Definition command (item name arg : str) : Prop := exists k, words item [k; arg] /\ lower k = name.
(** the command [name] without argument *)
Definition flag (item name : str) : Prop := exists k, words item [k] /\ lower k = name.

(** [last_of P l v]: [v] is what the last item of [l] that says something says *)
Inductive last_of {A} (P : str -> A -> Prop) (l : list str) : option A -> Prop :=
| last_none : (forall i a, In i l -> ~ P i a) -> last_of P l None
| last_some l1 i l2 a : l = l1 ++ i :: l2 -> P i a -> (forall j b, In j l2 -> ~ P j b) -> last_of P l (Some a).

Record conf_means (l : list str) (c : sheet_conf) : Prop := {
  cm_skip : last_of (fun i z => exists v n, command i (u "skiprows") v /\ parse_int v = Some n /\ z = Z.max n 0) l (sc_skip c);
  cm_header : last_of (fun i z => exists v n, command i (u "headerrows") v /\ parse_int v = Some n /\ z = Z.max n 1) l (sc_header c);
  cm_xmlroot : last_of (fun i v => command i (u "xmlroottag") v) l (sc_xmlroot c);
  cm_rootlist : last_of (fun i v => command i (u "rootlistpath") v) l (sc_rootlist c);
  cm_idname : last_of (fun i v => command i (u "idname") v) l (sc_idname c);
  cm_ignore : sc_ignore c = true <-> exists i, In i l /\ flag i (u "ignore");
  cm_hash : sc_hash c = true <-> exists i, In i l /\ (flag i (u "hashcomments") \/ flag i (u "hashcomment")) }.
