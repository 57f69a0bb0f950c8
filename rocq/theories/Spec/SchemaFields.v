(** What a JSON schema says about the fields of the data: which properties there
    are, of which type, which of them are columns, and which arrays of objects
    there are. *)
From Verif.Base Require Import PyStr PyNum PyVal PyDict Outcome.
From Verif.Model Require Import Flatten Titles Schema.
From Verif.Spec Require Import Headings.

(** ** Reading a schema *)
(** [v] is an object with [x] under the key [k] *)
Definition entry (k : str) (v x : sv) : Prop := exists r d, v = VO r d /\ sget k d = Some x.
Definition truthy (v : sv) : Prop :=
  match v with VS s => falsy s = false | VA l => l <> [] | VO _ d => d <> [] end.
(** the types listed under "type", which may be one type or a list *)
Definition types (v : sv) : list sv :=
  match v with
  | VO _ d => match sget (u "type") d with Some (VA l) => l | Some x => [x] | None => [] end
  | _ => []
  end.
Definition typed (t : str) (v : sv) : Prop := In (VS (SStr t)) (types v).
(** "deprecated", said by the property or by the reference to it *)
Definition is_deprecated (v : sv) : Prop :=
  exists x, truthy x /\ (entry (u "deprecated") v x \/ exists r d, v = VO (Some r) d /\ sget (u "deprecated") r = Some x).
(** the title, given by the reference or else by the property *)
Definition own_title (v : sv) : option sv :=
  match v with
  | VO (Some r) d => match sget (u "title") r with Some t => Some t | None => sget (u "title") d end
  | VO None d => sget (u "title") d
  | _ => None
  end.
Definition title_of (v : sv) : option str :=
  match own_title v with Some (VS (SStr [])) => None | Some (VS (SStr t)) => Some t | _ => None end.

(** [v] is the schema of the property [n] of objects with schema [S] *)
Definition property (O : sopts) (S : sv) (n : str) (v : sv) : Prop :=
  exists r d, entry (u "properties") S (VO r d) /\ In (n, v) d /\ (so_nodep O = true -> ~ is_deprecated v).

(** "k in v": a key of an object, an item of an array, a part of a text *)
Definition mentions (k : str) (v : sv) : Prop :=
  match v with
  | VO _ d => exists x, sget k d = Some x
  | VA l => In (VS (SStr k)) l
  | VS (SStr s) => exists a b, s = a ++ k ++ b
  | VS _ => False
  end.

(** ** Kinds of properties *)
Definition geo (O : sopts) (v : sv) : Prop :=
  so_wkt O = true /\ exists p, entry (u "properties") v p /\ mentions (u "type") p /\ mentions (u "coordinates") p.
(** an object that is flattened *)
Definition an_object (O : sopts) (v : sv) : Prop := typed (u "object") v /\ ~ geo O v.
Definition an_array (v i : sv) : Prop := ~ typed (u "object") v /\ typed (u "array") v /\ entry (u "items") v i.
(** an array of objects *)
Definition objects (v i : sv) : Prop :=
  an_array v i /\ typed (u "object") i /\ ~ typed (u "string") i /\ ~ typed (u "number") i /\ ~ typed (u "array") i.
(** a property that has a column of its own, and the type of the values in it *)
Inductive leaf (O : sopts) (v : sv) : str -> Prop :=
| leaf_geo : typed (u "object") v -> geo O v -> leaf O v (u "geojson")
| leaf_strings i : an_array v i -> typed (u "string") i \/ types i = [] -> leaf O v (u "string_array")
| leaf_numbers i : an_array v i -> ~ typed (u "string") i -> typed (u "number") i -> leaf O v (u "number_array")
| leaf_arrays i j : an_array v i -> ~ typed (u "string") i -> ~ typed (u "number") i -> typed (u "array") i -> entry (u "items") i j ->
    typed (u "string") j \/ typed (u "number") j -> leaf O v (u "array_array")
| leaf_date : ~ typed (u "object") v -> ~ typed (u "array") v -> typed (u "string") v \/ types v = [] ->
    entry (u "format") v (VS (SStr (u "date"))) -> leaf O v (u "date")
| leaf_string : ~ typed (u "object") v -> ~ typed (u "array") v -> typed (u "string") v \/ types v = [] ->
    ~ entry (u "format") v (VS (SStr (u "date"))) -> leaf O v (u "string")
| leaf_number : ~ typed (u "object") v -> ~ typed (u "array") v -> ~ typed (u "string") v -> typed (u "number") v -> leaf O v (u "number")
| leaf_integer : ~ typed (u "object") v -> ~ typed (u "array") v -> ~ typed (u "string") v -> ~ typed (u "number") v ->
    typed (u "integer") v -> leaf O v (u "integer")
| leaf_boolean : ~ typed (u "object") v -> ~ typed (u "array") v -> ~ typed (u "string") v -> ~ typed (u "number") v -> ~ typed (u "integer") v ->
    typed (u "boolean") v -> leaf O v (u "boolean").

(** ** The objects a schema is about *)
(** an array whose items have alternatives: each alternative that is an object;
    otherwise the schema itself *)
Definition alternatives (S o : sv) : Prop :=
  exists i, entry (u "type") S (VS (SStr (u "array"))) /\ entry (u "items") S i /\ entry (u "oneOf") i o.
Definition top (S R : sv) : Prop :=
  (exists l, alternatives S (VA l) /\ In R l /\ entry (u "type") R (VS (SStr (u "object")))) \/
  ((forall o, ~ alternatives S o) /\ R = S).

(** ** Columns *)
Definition titled (t c : option str) : option str :=
  match t, c with Some t, Some c => Some (t ++ u ":" ++ c) | _, _ => None end.
(** rolled up: listed in the array's "rollUp" *)
Definition rolled_up (O : sopts) (v : sv) (f : str) : Prop :=
  so_rollup O = true /\ exists r, entry (u "rollUp") v r /\ mentions f r.
(** [gives O S f t]: objects with schema [S] have, on the sheet they are on, the
    column [f] (relative to the object), with the title [t] *)
Inductive gives (O : sopts) : sv -> str -> option str -> Prop :=
| col_leaf S n v ty : property O S n v -> leaf O v ty -> gives O S n (title_of v)
| col_object S n v f t : property O S n v -> an_object O v -> gives O v f t -> gives O S (n ++ u "/" ++ f) (titled (title_of v) t)
| col_rollup S n v i f t : property O S n v -> objects v i -> gives O i f t -> rolled_up O v f ->
    gives O S (n ++ u "/0/" ++ f) (titled (title_of v) t).

(** ** Arrays of objects *)
(** where an object is: its path (with "/" at the end, "" for the whole), its
    titles (with ":" at the end) if all have one, the id columns of the objects
    it is in *)
Record place := { at_path : str; at_titles : option str; at_ids : list str }.
Definition whole : place := {| at_path := []; at_titles := Some []; at_ids := [] |}.
(** the id columns, including that of objects with schema [S] at the place *)
Definition ids_at (O : sopts) (S : sv) (p : place) : list str :=
  match S with
  | VO _ d =>
    match sget (u "properties") d with
    | Some (VO _ ps) =>
      match sget (u "id") ps with
      | Some i =>
        at_ids p ++
        [if so_titles O
         then (match at_titles p with Some t => t | None => at_path p end) ++
              match i with VO _ e => match sget (u "title") e with Some (VS (SStr (c :: t))) => c :: t | _ => u "id" end | _ => u "id" end
         else at_path p ++ u "id"]
      | None => at_ids p
      end
    | _ => at_ids p
    end
  | _ => at_ids p
  end.
Definition below (O : sopts) (S : sv) (p : place) (n : str) (v : sv) (sep : str) : place :=
  {| at_path := at_path p ++ n ++ sep;
     at_titles := match at_titles p, title_of v with Some a, Some b => Some (a ++ b ++ u ":") | _, _ => None end;
     at_ids := ids_at O S p |}.
(** [objects_at O S p T q]: objects with schema [S] at [p] contain (or are) objects with schema [T] at [q] *)
Inductive objects_at (O : sopts) : sv -> place -> sv -> place -> Prop :=
| oa_here S p : objects_at O S p S p
| oa_object S p n v T q : property O S n v -> an_object O v -> objects_at O v (below O S p n v (u "/")) T q -> objects_at O S p T q
| oa_array S p n v i T q : property O S n v -> objects v i -> objects_at O i (below O S p n v (u "/0/")) T q -> objects_at O S p T q.
(** the array [n] of objects of schema [i], held by an object at [q] with id columns [ids] *)
Definition array_in (O : sopts) (S : sv) (q : place) (ids : list str) (n : str) (v i : sv) : Prop :=
  exists R T, top S R /\ objects_at O R whole T q /\ property O T n v /\ objects v i /\ ids = ids_at O T q.
(** its sheet: named after the path, or after the titles if they are used *)
Definition sheet_of (O : sopts) (q : place) (n : str) (v : sv) : str :=
  match so_titles O, at_titles q with
  | true, Some t => make_sub_sheet_name t (match title_of v with Some x => x | None => n end) (so_trunc O) 58%N
  | _, _ => make_sub_sheet_name (at_path q) n (so_trunc O) 47%N
  end.
(** the heading of column [f] with title [t] of the array's objects *)
Definition sub_heading (O : sopts) (q : place) (n : str) (v : sv) (f : str) (t : option str) (c : str) : Prop :=
  if so_titles O
  then exists a b x, at_titles q = Some a /\ title_of v = Some b /\ t = Some x /\ c = a ++ b ++ u ":" ++ x
  else c = at_path q ++ n ++ u "/0/" ++ f.

(** ** Types *)
(** what is recorded for a property: the type of its column, or "object", or "array" *)
Inductive kind (O : sopts) (v : sv) : str -> Prop :=
| kind_leaf ty : leaf O v ty -> kind O v ty
| kind_object : an_object O v -> kind O v (u "object")
| kind_array i : objects v i -> kind O v (u "array").
(** [along O S p v]: following the fields and array positions of [p] from an object
    with schema [S] one comes to a property with schema [v] *)
Inductive along (O : sopts) : sv -> hpath -> sv -> Prop :=
| along_here S n v : property O S n v -> along O S [HKey n] v
| along_object S n v p w : property O S n v -> an_object O v -> along O v p w -> along O S (HKey n :: p) w
| along_array S n v i k p w : property O S n v -> objects v i -> along O i p w -> along O S (HKey n :: HPos k :: p) w.
(** no array position on the way *)
Definition no_position (p : hpath) : Prop := forall i, ~ In (HPos i) p.
(** the names of the properties are field names without "/" *)
Definition plain_names (O : sopts) (S : sv) : Prop :=
  forall R p n v, top S R -> along O R (p ++ [HKey n]) v -> field_name n /\ ~ In 47%N n.
(** all the ways a path can be read agree on what it is *)
Definition one_kind (O : sopts) (S : sv) (k : str) : Prop :=
  forall R R' p p' v v' t t', top S R -> top S R' -> along O R p v -> along O R' p' v' -> path_text p = k -> path_text p' = k ->
    kind O v t -> kind O v' t' -> t = t'.

(** ** Titles as headings *)
(** the objects inside objects with schema [S]: their schemas *)
Inductive within (O : sopts) : sv -> sv -> Prop :=
| within_here S : within O S S
| within_object S n v T : property O S n v -> an_object O v -> within O v T -> within O S T
| within_array S n v i T : property O S n v -> objects v i -> within O i T -> within O S T.
(** [v] is not left out as deprecated *)
Definition left_in (O : sopts) (v : sv) : Prop := so_nodep O = true -> ~ is_deprecated v.
(** two titles are the same heading: apart from spaces and case *)
Definition same_title (O : sopts) (a b : str) : Prop := so_lower O (remove_c 32%N a) = so_lower O (remove_c 32%N b).
(** a schema whose titles are clear: objects and arrays of objects have one, the
    properties of one object have different ones *)
Definition clear_titles (O : sopts) (S : sv) : Prop :=
  (forall o, ~ alternatives S o) /\
  forall T, within O S T ->
    (forall n v, property O T n v -> an_object O v \/ (exists i, objects v i) -> exists t, title_of v = Some t) /\
    (forall r d, entry (u "properties") T (VO r d) ->
       ForallOrdPairs (fun a b => forall t t', left_in O (snd a) -> left_in O (snd b) ->
         title_of (snd a) = Some t -> title_of (snd b) = Some t' -> ~ same_title O t t') d).
(** the schema of the objects a property holds *)
Definition holds (O : sopts) (v c : sv) : Prop := (an_object O v /\ c = v) \/ objects v c.
Definition trim (s : str) : str := strip (fun c => (c =? 32)%N) s.
(** [resolved O S l o]: the parts [l] of a heading stand for the parts [o] of a
    path, seen from an object with schema [S]: a number stands for itself; a title
    for the property that has it, and the rest is then seen from the objects in it;
    from the first part that is not a title on, the parts are used as they are *)
Inductive resolved (O : sopts) : sv -> list str -> list str -> Prop :=
| res_end S : resolved O S [] []
| res_number S z i l o : parse_int z = Some i -> resolved O S l o -> resolved O S (z :: l) (z :: o)
| res_title S s n v t c l o : parse_int s = None -> property O S n v -> title_of v = Some t -> same_title O s t ->
    holds O v c -> resolved O c l o -> resolved O S (s :: l) (n :: o)
| res_leaf S s n v t z l : parse_int s = None -> property O S n v -> title_of v = Some t -> same_title O s t ->
    (forall c, ~ holds O v c) -> (forall x, In x z -> exists i, parse_int x = Some i) ->
    match l with [] => True | x :: _ => parse_int x = None end -> resolved O S (s :: z ++ l) (n :: z ++ map trim l)
| res_unknown S s l : parse_int s = None -> (forall n v t, property O S n v -> title_of v = Some t -> ~ same_title O s t) ->
    resolved O S (s :: l) (map trim (s :: l)).

(** ** Conditions on schemas *)
(** no property has the empty name *)
Definition named_fields (O : sopts) (S : sv) : Prop :=
  forall R T n v, top S R -> within O R T -> property O T n v -> n <> [].
(** different arrays of objects have different sheets *)
Definition sheets_apart (O : sopts) (S : sv) : Prop :=
  forall q ids n v i q' ids' n' v' i', array_in O S q ids n v i -> array_in O S q' ids' n' v' i' -> sheet_of O q n v = sheet_of O q' n' v' -> q = q' /\ n = n'.
(** no object has a key twice *)
Definition keys_once (O : sopts) (S : sv) : Prop :=
  forall R T n v w, top S R -> within O R T -> property O T n v -> property O T n w -> v = w.

(** what the parser can read *)
Definition is_object (v : sv) : Prop := exists r d, v = VO r d.
Definition types_listed (v : sv) : Prop :=
  forall x, entry (u "type") v x -> (exists s, x = VS s) \/ (exists l, x = VA l /\ forall y, In y l -> exists s, y = VS s).
Definition text_title (v : sv) : Prop := forall x, own_title v = Some x -> x = VS SNone \/ exists t, x = VS (SStr t).
(** readable as the schema of an object; readable as the schema of a property *)
Inductive fine (O : sopts) : sv -> Prop :=
| fine_object v : is_object v ->
    (forall p, entry (u "properties") v p -> exists r ps, p = VO r ps /\
       (forall n w, In (n, w) ps -> is_object w /\ (left_in O w -> fine_property O w)) /\
       (forall i, sget (u "id") ps = Some i -> exists r' e, i = VO r' e /\ forall x, sget (u "title") e = Some x -> x = VS SNone \/ exists t, x = VS (SStr t))) ->
    fine O v
with fine_property (O : sopts) : sv -> Prop :=
| fine_prop v : types_listed v -> text_title v ->
    (typed (u "object") v -> (forall p, entry (u "properties") v p -> is_object p) /\ (an_object O v -> fine O v)) ->
    (~ typed (u "object") v -> typed (u "array") v -> exists i, entry (u "items") v i /\ is_object i /\ types_listed i /\
       ((exists ty, leaf O v ty) /\ (forall j, entry (u "items") i j -> is_object j /\ types_listed j) \/ (objects v i /\ fine O i))) ->
    (forall x, entry (u "rollUp") v x -> exists l, x = VA l /\ forall y, In y l -> exists t, y = VS (SStr t)) ->
    fine_property O v.
Definition fine_schema (O : sopts) (S : sv) : Prop :=
  is_object S /\
  (((forall o, ~ alternatives S o) /\ (forall i, entry (u "items") S i -> is_object i) /\ fine O S) \/
   (exists i l, entry (u "items") S i /\ is_object i /\ alternatives S (VA l) /\
      forall v, In v l -> is_object v /\ (entry (u "type") v (VS (SStr (u "object"))) -> fine O v))).
