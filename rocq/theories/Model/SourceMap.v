(** Model of the source maps: fancy_unflatten, extract_list_to_error_path and
    extract_dict_to_error_path, input.py:517-603. *)
From Verif.Base Require Import PyStr PyNum PyVal PyDict Outcome.
From Verif.Model Require Import Warn Lib Convert Input.
Local Open Scope res_scope.

(** a path is a tuple of array positions (int) and keys (str) *)
Inductive pstep := PIdx (i : N) | PKey (k : str).
Definition epath := list pstep.
(** Python equality of tuples: an int is never equal to a str *)
Definition pstep_eqb (a b : pstep) : bool :=
  match a, b with PIdx i, PIdx j => (i =? j)%N | PKey k, PKey l => str_eqb k l | _, _ => false end.
Fixpoint epath_eqb (p q : epath) : bool :=
  match p, q with [], [] => true | a :: p', b :: q' => pstep_eqb a b && epath_eqb p' q' | _, _ => false end.
Definition emap := list (epath * list loc).
Definition pget {V} : epath -> list (epath * V) -> option V := aget epath_eqb.

(** input.py:571-575, 582-586, 587-591: the entries of [res] are added to
    [output]; AssertionError when one is there already *)
Fixpoint add_new (res output : emap) : R emap :=
  match res with
  | [] => ret output
  | (p, ls) :: res' =>
    match pget p output with
    | Some _ => Raise EAssertionError []
    | None => add_new res' (output ++ [(p, ls)])
    end
  end.

(** input.py:568-603.  A cell gives one entry; the loops over the entries of a
    dict and the items of a list add the maps of the parts. *)
Section Extract.
  Variable rec : epath -> jnode -> R emap.
  Fixpoint extract_entries (path : epath) (d : jdict) (output : emap) : R emap :=
    match d with
    | [] => ret output
    | (k, n) :: d' => res <- rec (path ++ [PKey k]) n ;; out <- add_new res output ;; extract_entries path d' out
    end.
  Fixpoint extract_items (path : epath) (i : N) (l : list jdict) (output : emap) : R emap :=
    match l with
    | [] => ret output
    | d :: l' =>
      res <- extract_entries (path ++ [PIdx i]) d [] ;; out <- add_new res output ;; extract_items path (i + 1)%N l' out
    end.
End Extract.
Fixpoint extract_node (path : epath) (n : jnode) : R emap :=
  match n with
  | JCell c =>                                                                   (* 592-599 *)
    if forallb (fun s => cv_eqb (fst s) (c_val c)) (c_sub c)
    then ret [(path, c_loc c :: map snd (c_sub c))]
    else Raise EAssertionError []
  | JDict d => extract_entries extract_node path d []
  | JList l => extract_items extract_node path 0 l []
  end.
Definition extract_list_to_error_path (path : epath) (l : list jdict) : R emap := extract_items extract_node path 0 l [].

(** ** [sorted(cell_source_map.items())], input.py:526 *)
Fixpoint str_cmp (a b : str) : comparison :=
  match a, b with
  | [], [] => Eq
  | [], _ => Lt
  | _, [] => Gt
  | x :: a', y :: b' => match (x ?= y)%N with Eq => str_cmp a' b' | c => c end
  end.
(** comparing an int with a str raises TypeError ([None]) *)
Definition pstep_cmp (a b : pstep) : option comparison :=
  match a, b with
  | PIdx i, PIdx j => Some (i ?= j)%N
  | PKey k, PKey l => Some (str_cmp k l)
  | _, _ => None
  end.
Fixpoint path_cmp (p q : epath) : option comparison :=
  match p, q with
  | [], [] => Some Eq
  | [], _ => Some Lt
  | _, [] => Some Gt
  | a :: p', b :: q' => match pstep_cmp a b with Some Eq => path_cmp p' q' | c => c end
  end.
Fixpoint insert_path {V} (x : epath * V) (l : list (epath * V)) : list (epath * V) :=
  match l with
  | [] => [x]
  | y :: l' => match path_cmp (fst x) (fst y) with Some Gt => y :: insert_path x l' | _ => x :: l end
  end.
Definition comparable (p q : epath) : bool := match path_cmp p q with Some _ => true | None => false end.
(** SIMPLIFICATION: TypeError is raised when any two paths cannot be compared
    (timsort does not compare all pairs).  Paths are distinct, so the second
    components of the items are never compared. *)
Definition sort_paths {V} (l : list (epath * V)) : R (list (epath * V)) :=
  if forallb (fun x => forallb (fun y => comparable (fst x) (fst y)) l) l
  then ret (fold_right insert_path [] l) else Raise ETypeError [].

(** ** input.py:517-565 *)
(** "/".join(str(x) for x in path) *)
Definition step_str (s : pstep) : str := match s with PIdx i => N_str i | PKey k => k end.
Definition path_str (p : epath) : str := join [slash] (map step_str p).
(** 537-543: the parts of the path that [int] rejects *)
Definition header_str (p : epath) : str :=
  join [slash] (map step_str (filter (fun s => match s with PIdx _ => false | PKey k => negb (isint k) end) p)).

Definition pair_eqb (a b : str * N) : bool := str_eqb (fst a) (fst b) && (snd a =? snd b)%N.
Definition hpair_eqb (a b : str * scalar) : bool := str_eqb (fst a) (fst b) && py_eqb (snd a) (snd b).
(** [if x not in l: l.append(x)] *)
Definition add_absent {A} (eqb : A -> A -> bool) (l : list A) (x : A) : list A := if existsb (eqb x) l then l else l ++ [x].
Definition rmap := list (str * list (str * N)).
Definition hmap := list (str * list (str * scalar)).
(** [if not key in m: m[key] = []], then the pairs of the cells are added *)
Definition bump {A} (eqb : A -> A -> bool) (key : str) (xs : list A) (m : list (str * list A)) : list (str * list A) :=
  let old := match sget key m with Some l => l | None => [] end in
  sset key (fold_left (add_absent eqb) xs old) m.
(** one turn of the loop 529-555 *)
Definition row_step (m : rmap) (x : epath * list loc) : rmap :=
  bump pair_eqb (path_str (removelast (fst x))) (map (fun l => (l_sheet l, l_row l)) (snd x)) m.
Definition heading_step (m : hmap) (x : epath * list loc) : hmap :=
  bump hpair_eqb (header_str (fst x)) (map (fun l => (l_sheet l, l_heading l)) (snd x)) m.

(** an entry of the cell source map: locations of cells, or of rows *)
Inductive entry := ECells (l : list loc) | ERows (l : list (str * N)).
Definition cmap := list (str * entry).
(** 556-564.  A dict: a later path with the same text would overwrite. *)
Definition cell_entries (l : emap) : cmap := fold_left (fun m x => sset (path_str (fst x)) (ECells (snd x)) m) l [].
Fixpoint add_rows (rows : rmap) (m : cmap) : R cmap :=
  match rows with
  | [] => ret m
  | (k, l) :: rows' => if shas k m then Raise EAssertionError [] else add_rows rows' (sset k (ERows l) m)
  end.

Record fancy := { f_root_is_list : bool; f_root_list_path : str; f_cells : bool; f_headings : bool }.
Definition fancy_unflatten (O : opts) (F : fancy) (sheets : list sheet_in) : R (list vdict * option cmap * option hmap) :=
  tree <- do_unflatten O sheets ;;
  let result := map dict_to_v tree in
  if f_cells F || f_headings F then
    m <- extract_list_to_error_path (if f_root_is_list F then [] else [PKey (f_root_list_path F)]) tree ;;
    items <- sort_paths m ;;
    let rows := fold_left row_step items [] in
    let headings := if f_headings F then fold_left heading_step items [] else [] in
    if f_cells F then
      c <- add_rows rows (cell_entries items) ;;
      ret (result, Some c, Some headings)
    else ret (result, None, Some headings)
  else ret (result, None, None).
