(** The cells of a tree with the spot they sit at; where a cell came from;
    which warnings name it.  A spot is the sequence of field names and, for
    array items, the id of the item ([None] for an item without id). *)
From Verif.Base Require Import PyStr PyVal PyDict.
From Verif.Model Require Import Warn Input.
From Verif.Spec Require Import Ids.

Inductive step := Key (k : str) | Item (id : option kid).
Definition spot := list step.
Definition below {A} (s : step) (l : list (spot * A)) : list (spot * A) := map (fun pc => (s :: fst pc, snd pc)) l.

Section Cells.
  Variables (xml : bool) (id_name : str).

  (** the id of an object of the final cell tree *)
  Definition jid (d : jdict) : option scalar :=
    match sget id_name d with
    | Some (JCell c) => match c_val c with CV s => Some s | _ => None end
    | Some (JDict e) =>
      if xml then match sget text_key e with
                  | Some (JCell c) => match c_val c with CV s => Some s | _ => None end
                  | _ => None
                  end
      else None
    | _ => None
    end.

  (** cells of the final cell tree *)
  Fixpoint jcells (n : jnode) : list (spot * cell) :=
    match n with
    | JCell c => [([], c)]
    | JDict d => flat_map (fun kn => below (Key (fst kn)) (jcells (snd kn))) d
    | JList l => flat_map (fun d => below (Item (option_map kid_of (jid d)))
                                      (flat_map (fun kn => below (Key (fst kn)) (jcells (snd kn))) d)) l
    end.
  (** cells of an output: a list of objects *)
  Definition out_cells (out : list jdict) : list (spot * cell) := jcells (JList out).

  (** the same for the tree under construction *)
  Definition ilab (d : tdict) : step := Item (option_map kid_of (id_of xml id_name d)).
  Fixpoint tcells (n : tnode) : list (spot * cell) :=
    match n with
    | TCell c => [([], c)]
    | TDict d => flat_map (fun kn => below (Key (fst kn)) (tcells (snd kn))) d
    | TTemp data nk =>
      flat_map (fun kd => below (ilab (snd kd)) (flat_map (fun kn => below (Key (fst kn)) (tcells (snd kn))) (snd kd))) data
      ++ flat_map (fun d => below (ilab d) (flat_map (fun kn => below (Key (fst kn)) (tcells (snd kn))) d)) nk
    end.
  Definition tdcells (d : tdict) : list (spot * cell) :=
    flat_map (fun kn => below (Key (fst kn)) (tcells (snd kn))) d.
  (** cells of a list of objects *)
  Definition icells (d : tdict) : list (spot * cell) := below (ilab d) (tdcells d).
End Cells.

(** every spreadsheet location a cell of the output stands for *)
Definition cell_locs (c : cell) : list loc := c_loc c :: map snd (c_sub c).

(** output cell [c'] carries the input cell [c]: same (Python-equal) value, and
    [c]'s location is recorded *)
Definition carries (c' c : cell) : Prop :=
  In (c_loc c) (cell_locs c') /\ (c_val c' = c_val c \/ cv_eqb (c_val c') (c_val c) = true).

(** [c'] is [c] with possibly more recorded locations *)
Definition extends (c' c : cell) : Prop :=
  c_val c' = c_val c /\ c_loc c' = c_loc c /\ incl (c_sub c) (c_sub c').

(** a warning that names cell [c] at spot [p]: either its column is reported as
    ignored, or its field, value and the differing value kept are reported *)
Definition named_by (w : warning) (p : spot) (c : cell) : Prop :=
  match w with
  | WIgnored h _ => h = l_heading (c_loc c)
  | WDuplicate _ _ _ _ key _ old new =>
    last p (Item None) = Key key /\ new = c_val c /\ cv_eqb old new = false
  | _ => False
  end.

(** every array item on the way to [p] has an id (other than NaN) *)
Definition identified (p : spot) : Prop :=
  forall s, In s p -> match s with Key _ => True | Item (Some KNan) => False | Item (Some _) => True | Item None => False end.
