(** Places in the output and what the source maps should say about them. *)
From Verif.Base Require Import PyStr PyNum PyVal PyDict Outcome.
From Verif.Model Require Import Warn Convert Input SourceMap.
From Verif.Spec Require Import Source.

(** the value at a place, given by array positions and field names *)
Fixpoint value_at (n : vnode) (p : epath) : option vnode :=
  match p with
  | [] => Some n
  | PKey k :: p' => match n with VDict d => match sget k d with Some m => value_at m p' | None => None end | _ => None end
  | PIdx i :: p' => match n with VList l => match nth_error l (N.to_nat i) with Some d => value_at (VDict d) p' | None => None end | _ => None end
  end.
(** [leaf r p v]: the output [r] has the value [v] (not an object, not an array) at [p] *)
Definition leaf (r : list vdict) (p : epath) (v : cellval) : Prop := value_at (VList r) p = Some (VLeaf v).

(** paths as text: "main/0/a/b"; the first part is missing when the output is a bare list *)
Definition root_part (F : fancy) : list str := if f_root_is_list F then [] else [f_root_list_path F].
Definition part (s : pstep) : str := match s with PIdx i => N_str i | PKey k => k end.
Definition place_text (F : fancy) (p : epath) : str := join (u "/") (root_part F ++ map part p).
(** without array positions: "main/a/b" (a numeric root list path is left out too) *)
Definition root_heading (F : fancy) : list str := filter (fun x => match parse_int x with None => true | Some _ => false end) (root_part F).
Definition field_text (F : fancy) (p : epath) : str :=
  join (u "/") (root_heading F ++ flat_map (fun s => match s with PIdx _ => [] | PKey k => [k] end) p).

(** the cell tree behind the output *)
Fixpoint node_at (n : jnode) (p : epath) : option jnode :=
  match p with
  | [] => Some n
  | PKey k :: p' => match n with JDict d => match sget k d with Some m => node_at m p' | None => None end | _ => None end
  | PIdx i :: p' => match n with JList l => match nth_error l (N.to_nat i) with Some d => node_at (JDict d) p' | None => None end | _ => None end
  end.
(** [recorded tree p l]: [l] is one of the locations recorded for the cell at [p] *)
Definition recorded (tree : list jdict) (p : epath) (l : loc) : Prop :=
  exists c, node_at (JList tree) p = Some (JCell c) /\ In l (c_loc c :: map snd (c_sub c)).
(** [read_as O sheets l v]: [l] is the location of a cell of the input, and its
    value, converted, is (Python-)equal to [v] *)
Definition read_as (O : opts) (sheets : list sheet_in) (l : loc) (v : cellval) : Prop :=
  exists raw x, raw_at O sheets l raw /\ stored (o_conv O) (o_types O) (CV raw) x /\ (x = v \/ cv_eqb v x = true).

(** no element equal to an earlier one *)
Definition once {A} (eqb : A -> A -> bool) (l : list A) : Prop := ForallOrdPairs (fun a b => eqb b a = false) l.

(** ** The order of the entries *)
(** texts in the order of their code points, a text before its continuations *)
Inductive text_before : str -> str -> Prop :=
| tb_end c t : text_before [] (c :: t)
| tb_char a b s t : (a < b)%N -> text_before (a :: s) (b :: t)
| tb_same a s t : text_before s t -> text_before (a :: s) (a :: t).
(** places: array positions by number, fields by name, a place before those inside it *)
Inductive before : epath -> epath -> Prop :=
| bf_end a q : before [] (a :: q)
| bf_index i j p q : (i < j)%N -> before (PIdx i :: p) (PIdx j :: q)
| bf_field k l p q : text_before k l -> before (PKey k :: p) (PKey l :: q)
| bf_same a p q : before p q -> before (a :: p) (a :: q).
(** the different texts of a list, in the order in which they first occur *)
Fixpoint firsts (l : list str) : list str :=
  match l with [] => [] | x :: l' => x :: filter (fun y => negb (str_eqb x y)) (firsts l') end.
