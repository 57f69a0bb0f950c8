(** What the headings of a row say: a heading is a path of field names and array
    positions; a row is a list of paths with values; what object such a list
    describes. *)
From Verif.Base Require Import PyStr PyNum PyVal PyDict Outcome.
From Verif.Model Require Import Warn Convert Input.
From Verif.Spec Require Import Columns.

Inductive hstep := HKey (k : str) | HPos (i : Z).
Definition hpath := list hstep.

(** a field name: not empty, not a number *)
Definition field_name (k : str) : Prop := k <> [] /\ parse_int k = None.
(** [spelled p l]: the parts [l] of a heading spell the path [p]: field names,
    each possibly followed by a position, ending with a field name *)
Inductive spelled : hpath -> list str -> Prop :=
| sp_leaf k : field_name k -> spelled [HKey k] [k]
| sp_in k p l : field_name k -> spelled p l -> spelled (HKey k :: p) (k :: l)
| sp_at k i t p l : field_name k -> parse_int t = Some i -> spelled p l -> spelled (HKey k :: HPos i :: p) (k :: t :: l).
(** the heading [h] is the text of the parts joined by "/"; each part may be
    followed by square brackets *)
Definition heading_of (h : scalar) (p : hpath) : Prop :=
  exists parts, h = SStr (join (u "/") parts) /\ (forall x, In x parts -> ~ In 47%N x) /\ spelled p (map (rstrip is_bracket) parts).

(** the text of a path: its field names joined by "/", without positions; schema
    types are looked up by it *)
Definition path_text (p : hpath) : str := join (u "/") (flat_map (fun s => match s with HKey k => [k] | HPos _ => [] end) p).
(** where the schema says that a field is an array, a heading may leave out the
    position: all columns that do so speak of one item, in position -1, that is
    before all items with a position in their headings *)
Fixpoint completed (types : str -> str) (seen p : hpath) : hpath :=
  match p with
  | [] => []
  | a :: p' =>
    match a, p' with
    | HKey _, HKey _ :: _ =>
      if str_eqb (types (path_text (seen ++ [a]))) (u "array") then a :: HPos (-1) :: completed types (seen ++ [a]) p'
      else a :: completed types (seen ++ [a]) p'
    | _, _ => a :: completed types (seen ++ [a]) p'
    end
  end.
Definition heading_says (types : str -> str) (h : scalar) (p : hpath) : Prop := exists q, heading_of h q /\ p = completed types [] q.
(** [fits types p]: the path agrees with the types the schema gives: a field
    followed by a field has no type or "object", a field followed by a position
    has no type or "array", the last field is neither object nor array *)
Definition fits (types : str -> str) (p : hpath) : Prop :=
  forall q k r, p = q ++ HKey k :: r ->
    let t := types (path_text (q ++ [HKey k])) in
    match r with
    | [] => t <> u "object" /\ t <> u "array"
    | HKey _ :: _ => t = [] \/ t = u "object"
    | HPos _ :: _ => t = [] \/ t = u "array"
    end.

(** [reads E types line C W]: [C] lists the headings, paths and (converted) values
    of the cells of the line that are not blank; a cell is converted to the type
    the schema gives for its path, and [W] lists the warnings
    of the conversion of each *)
Definition column := (scalar * (hpath * cellval))%type.
Inductive reads (E : conv_env) (types : str -> str) : list (scalar * scalar) -> list column -> list (list warning) -> Prop :=
| reads_nil : reads E types [] [] []
| reads_blank h v line C W : blank v = true -> reads E types line C W -> reads E types ((h, v) :: line) C W
| reads_cell h v p x w line C W : blank v = false -> heading_says types h p -> fits types p ->
    convert_type E (types (path_text p)) (CV v) = Ok x w -> cv_blank x = false ->
    reads E types line C W -> reads E types ((h, v) :: line) ((h, (p, x)) :: C) (w :: W).
Definition path_of (c : column) : hpath := fst (snd c).

(** two paths can both have a value: neither continues the other, and where they
    part both go on with a field name or both with a position *)
Definition same_kind (a b : hstep) : bool := match a, b with HKey _, HKey _ | HPos _, HPos _ => true | _, _ => false end.
Definition hstep_eqb (a b : hstep) : bool :=
  match a, b with HKey x, HKey y => str_eqb x y | HPos i, HPos j => (i =? j)%Z | _, _ => false end.
Fixpoint compatible (p q : hpath) : Prop :=
  match p, q with
  | a :: p', b :: q' => if hstep_eqb a b then compatible p' q' else same_kind a b = true
  | _, _ => False
  end.
Definition agree {A} (L : list (hpath * A)) : Prop := ForallOrdPairs (fun a b => compatible (fst a) (fst b)) L.

(** ** The object described by a list of paths with values *)
Section Shown.
  Context {A : Type}.
  (** the rest of the paths that begin with [s] *)
  Definition after (s : hstep) (L : list (hpath * A)) : list (hpath * A) :=
    flat_map (fun pv => match fst pv with a :: p => if hstep_eqb a s then [(p, snd pv)] else [] | [] => [] end) L.
  (** first steps, in order of first mention *)
  Fixpoint fields (L : list (hpath * A)) : list str :=
    match L with
    | [] => []
    | (HKey k :: _, _) :: L' => k :: filter (fun x => negb (str_eqb k x)) (fields L')
    | _ :: L' => fields L'
    end.
  Fixpoint positions (L : list (hpath * A)) : list Z :=
    match L with
    | [] => []
    | (HPos i :: _, _) :: L' => i :: filter (fun x => negb (i =? x)%Z) (positions L')
    | _ :: L' => positions L'
    end.
  Definition begin_with_field (L : list (hpath * A)) : Prop := forall p v, In (p, v) L -> exists k q, p = HKey k :: q.
  Definition begin_with_position (L : list (hpath * A)) : Prop := forall p v, In (p, v) L -> exists i q, p = HPos i :: q.
End Shown.

(** [shows order L n]: [n] has exactly the values of [L] at the paths of [L]: a
    value; an object with a field for every first step; an array with an item for
    every position, in the order given by [order] *)
Inductive shows (order : list (hpath * cellval) -> list Z) : list (hpath * cellval) -> vnode -> Prop :=
| sh_leaf v : shows order [([], v)] (VLeaf v)
| sh_object L d : begin_with_field L -> map fst d = fields L ->
    (forall k n, In (k, n) d -> shows order (after (HKey k) L) n) -> shows order L (VDict d)
| sh_array L items : L <> [] -> begin_with_position L -> Forall2 (fun i d => shows order (after (HPos i) L) (VDict d)) (order L) items ->
    shows order L (VList items).

(** positions in increasing order *)
Fixpoint insert_pos (i : Z) (l : list Z) : list Z :=
  match l with [] => [i] | j :: l' => if (i <=? j)%Z then i :: l else j :: insert_pos i l' end.
Definition increasing {A} (L : list (hpath * A)) : list Z := fold_right insert_pos [] (positions L).

(** the order of the items when some have ids: first those with an id *)
Definition is_id (id_name : str) (i : Z) (p : hpath) : bool :=
  match p with [HPos j; HKey k] => (i =? j)%Z && str_eqb k id_name | _ => false end.
Definition with_id {A} (id_name : str) (L : list (hpath * A)) (i : Z) : bool := existsb (fun pv => is_id id_name i (fst pv)) L.
Definition ids_first {A} (id_name : str) (L : list (hpath * A)) : list Z :=
  filter (with_id id_name L) (increasing L) ++ filter (fun i => negb (with_id id_name L i)) (increasing L).

(** the id is a value, not an object or an array *)
Definition id_ends (id_name : str) {A} (L : list (hpath * A)) : Prop :=
  forall p v q r, In (p, v) L -> p = q ++ HKey id_name :: r -> r = [].
(** the id is one value, not a list *)
Definition ids_plain (id_name : str) (L : list (hpath * cellval)) : Prop :=
  forall q x, In (q ++ [HKey id_name], x) L -> exists v, x = CV v /\ hashable x = true.
(** items of one array have different ids *)
Definition ids_distinct (id_name : str) (L : list (hpath * cellval)) : Prop :=
  forall q i j x y, In (q ++ [HPos i; HKey id_name], CV x) L -> In (q ++ [HPos j; HKey id_name], CV y) L -> i <> j -> py_eqb x y = false.
(** in every array all items have an id or none has *)
Definition ids_uniform (id_name : str) (L : list (hpath * cellval)) : Prop :=
  forall q i j p r v w, In (q ++ [HPos i; HKey id_name], v) L -> In (p, w) L -> p = q ++ HPos j :: r ->
    exists y, In (q ++ [HPos j; HKey id_name], y) L.

(** what a warning about the structure of a row names: the heading, or the path
    without positions *)
Definition column_named (x : warning) (h : scalar) (p : hpath) : Prop :=
  match x with
  | WColumnArray h' _ | WColumnObject h' _ => h' = h
  | WColumnValue t => t = path_text p
  | _ => False
  end.

(** [settled C W acc rej w]: the columns [C], whose conversions give the warnings
    [W], fall into those accepted and those rejected; [w] consists, column by
    column, of the warnings of the conversion of each accepted column and of one
    warning that names each rejected column *)
Inductive settled {A} : list (scalar * (hpath * A)) -> list (list warning) -> list (scalar * (hpath * A)) -> list (scalar * (hpath * A)) -> list warning -> Prop :=
| settled_nil : settled [] [] [] [] []
| settled_kept c wc C W acc rej w : settled C W acc rej w -> settled (c :: C) (wc :: W) (c :: acc) rej (wc ++ w)
| settled_refused c wc y C W acc rej w : column_named y (fst c) (fst (snd c)) -> settled C W acc rej w ->
    settled (c :: C) (wc :: W) acc (c :: rej) (y :: w).

(** a table of one line *)
Definition one_line (name : str) (hs : option (list scalar)) (line : list (scalar * scalar)) : sheet_in :=
  {| si_name := name; si_headings := hs; si_lines := [line] |}.
(** there is a heading for every cell of the line *)
Definition headed (hs : option (list scalar)) (line : list (scalar * scalar)) : Prop :=
  forall l, hs = Some l -> List.length line <= List.length l.
(** plain reading: no schema, not XML *)
Definition untyped (O : opts) : Prop := o_xml O = false /\ forall x, o_types O x = [].

(** the location of column [k] of line [j] of a sheet, both from 0 *)
Definition located (O : opts) (s : sheet_in) (j k : nat) (l : loc) : Prop :=
  l_sheet l = si_name s /\ l_row l = (N.of_nat j + 2)%N /\
  column_name (o_vertical O) (N.of_nat k + 1)%N (l_col l) /\
  match si_headings s with
  | None => exists line v, nth_error (si_lines s) j = Some line /\ nth_error line k = Some (l_heading l, v)
  | Some hs => nth_error hs k = Some (l_heading l)
  end.
(** a warning of a whole run that names the cell at [l] with heading [h], path
    [p] and value [x]: its column is said to be ignored, or its field and value
    are reported next to the differing value that is kept *)
Definition cell_reported (y : warning) (l : loc) (h : scalar) (p : hpath) (x : cellval) : Prop :=
  column_named y h p \/
  match y with
  | WIgnored h' _ => h' = l_heading l
  | WDuplicate _ _ _ _ key _ old new => last p (HPos 0) = HKey key /\ new = x /\ cv_eqb old new = false
  | _ => False
  end.

(** other positions in the same order: [f q i] is the new position for position
    [i] of the array at [q] *)
Fixpoint renumber (f : hpath -> Z -> Z) (q p : hpath) : hpath :=
  match p with
  | [] => []
  | HKey k :: p' => HKey k :: renumber f (q ++ [HKey k]) p'
  | HPos i :: p' => HPos (f q i) :: renumber f (q ++ [HPos i]) p'
  end.
Definition order_preserving (f : hpath -> Z -> Z) : Prop := forall q i j, (i < j)%Z -> (f q i < f q j)%Z.
