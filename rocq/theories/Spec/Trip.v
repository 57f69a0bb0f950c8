(** Documents that can go through CSV files: what is written, and what it must be
    like to be read again. *)
From Coq Require Import Permutation.
From Verif.Base Require Import PyStr PyNum PyVal PyDict Outcome.
From Verif.Model Require Import Lib Convert Input Json Flatten Readers Csv Output Schema Commands.
From Verif.Spec Require Import Sites Paths Grids CsvText Written Commands RoundTrip Typed.

(** a value as a CSV file has it *)
Definition csv_cell (E : wenv) (s : scalar) : scalar := SStr (text_of E (JS s)).
(** a heading that a schema gives *)
Definition schema_heading (O : popts) (h : str) : Prop :=
  exists sc, po_schema O = Some sc /\ (In h (header (sci_main sc)) \/ exists n x, In (n, x) (sci_subs sc) /\ In h (header x)).

Section Csv.
  Variables (O : popts) (W : wopts) (E : wenv) (docs : list jobj).
  (** the sheets have different file names, in one directory *)
  Definition names_apart : Prop :=
    ~ In 47%N (w_prefix W ++ w_main W) /\
    (forall d x, In d docs -> In x (items_in (JO d)) -> item_sheet O (JO d, x) <> w_main W) /\
    (forall n, schema_sheet O n -> n <> w_main W /\ ~ In 47%N n).
  (** headings and texts are not changed by CSV; no heading starts a row of settings *)
  Definition texts_survive : Prop :=
    (forall d Q k y c, In d docs -> at_path (JO d) (Q ++ [(k, None)]) = Some y -> leaf_cell O y = Some (JS c) ->
       survives (pre Q ++ k) /\ survives (text_of E (JS c))) /\
    (forall d, In d docs -> sget (u "#") d = None) /\
    (forall h, schema_heading O h -> survives h /\ h <> u "#").
  Definition csv_ready : Prop := (forall file, we_open E file = None) /\ names_apart /\ texts_survive.
  (** the file of the main sheet comes first in the directory *)
  Definition main_first : Prop :=
    (forall d x, In d docs -> In x (items_in (JO d)) -> not_after (w_main W) (item_sheet O (JO d, x))) /\
    forall n, schema_sheet O n -> not_after (w_main W) n.
End Csv.

(** ** Numbers and texts of a document *)
Inductive scalar_in (s : scalar) : jv -> Prop :=
| in_value : scalar_in s (JS s)
| in_items l x : In x l -> scalar_in s x -> scalar_in s (JA l)
| in_fields d k x : In (k, x) d -> scalar_in s x -> scalar_in s (JO d).
(** no infinities *)
Definition numbers_finite (v : jv) : Prop := forall s, scalar_in s v -> number s = true -> finite s.

(** ** The same, as JSON *)
(** numbers are equal as numbers ([JDouble d]: the double for [d] is written, only
    for a number that is not whole) *)
Inductive value_json : scalar -> jsonv -> Prop :=
| vj_str t : value_json (SStr t) (JStr t)
| vj_bool b : value_json (SBool b) (JBool b)
| vj_int s z : number s = true -> py_eqb s (SInt z) = true -> value_json s (JInt z)
| vj_double s d : number s = true -> py_eqb s (SDec d) = true -> (forall z, py_eqb s (SInt z) = false) -> value_json s (JDouble d)
| vj_float s f : number s = true -> py_eqb s (SFlt f) = true -> value_json s (JFlt f).
Inductive leaf_json : jv -> jsonv -> Prop :=
| lj_value s j : value_json s j -> leaf_json (JS s) j
| lj_array l m : Forall2 leaf_json l m -> leaf_json (JA l) (JArr m).
(** same keys, same values, arrays of objects [arranged] alike (keys of objects in
    any order) *)
Inductive same_json (arranged : list jv -> list jv -> Prop) : jv -> jout -> Prop :=
| sj_leaf y j : leaf_json y j -> same_json arranged y (OLeaf j)
| sj_object o e : NoDup (map fst e) -> (forall k, In k (map fst o) <-> In k (map fst e)) ->
    (forall k x j, sget k o = Some x -> sget k e = Some j -> same_json arranged x j) -> same_json arranged (JO o) (OObj e)
| sj_array l l' m : arranged l l' -> Forall2 (same_json arranged) l' m -> same_json arranged (JA l) (OArr m).

(** ** The records of a JSON document *)
(** [way v ks]: the objects on the way along the keys [ks] have no key twice, and no
    key with a dot *)
Definition way (v : jv) (ks : list str) : Prop :=
  forall ks1 ks2 d, ks = ks1 ++ ks2 -> at_path v (down ks1) = Some (JO d) -> NoDup (map fst d) /\ forall k, In k (map fst d) -> ~ In 46%N k.
(** keys without dot and slash, not "item" *)
Definition step_key (k : str) : Prop := ~ In 46%N k /\ ~ In 47%N k /\ k <> u "item".

(** the items of what is at a place: those of an array; of an object, the value of
    its key "item" *)
Definition items_there (x : option jv) : list jv :=
  match x with
  | Some (JA l) => l
  | Some (JO d) => match sget (u "item") d with Some y => [y] | None => [] end
  | _ => []
  end.

(** ** From one command to the other *)
(** the text files that a run writes *)
Definition texts_written (w : list event) : list (str * str) :=
  flat_map (fun e => match e with Wrote (Some f) (CText s) => [(f, s)] | _ => [] end) w.
(** the directory has these files and no others, listed in any order *)
Definition directory_has (Wd : world) (dir : str) (fs : list (str * str)) : Prop :=
  exists fs', Permutation fs fs' /\ wd_book Wd Csv dir = match csv_book dir fs' with Ok b _ => inr b | Raise e _ => inl e end.
(** flatten of a whole JSON document to files of a format *)
Definition format_name (f : fmt) : str := match f with Csv => u "csv" | Xlsx => u "xlsx" | Ods => u "ods" end.
Definition to_format (f : fmt) (F : flopts) : Prop :=
  f_format F = format_name f /\ In (f_term F) known_terminators /\ f_filter_field F = None /\ f_filter_value F = None /\ f_preserve F = [] /\ f_roll F = RollFalse /\ f_xml F = false.
Definition to_csv : flopts -> Prop := to_format Csv.
(** the options of the parser of flatten and of the writer *)
Definition flatten_schema_opts (Wd : world) (F : flopts) : sopts :=
  {| so_rollup := false; so_root_id := f_root_id F; so_titles := f_titles F; so_trunc := f_trunc F; so_nodep := false; so_wkt := f_wkt F; so_lower := wd_lower Wd |}.
Definition flatten_opts (Wd : world) (F : flopts) (schema : option sps) : popts := parser_opts Wd F schema [] [].
Definition output_dir (F : flopts) : str := named_or (u "flattened") (f_output F).
Definition writer_opts (F : flopts) (t : term) : wopts := {| w_main := f_main F; w_output := output_dir F; w_prefix := f_prefix F; w_term := t |}.
(** the records of the document *)
Definition place_of (F : flopts) (v : jv) (ks : list str) : Prop :=
  (if f_root_list F then ks = [] else ks <> [] /\ f_path F = join (u "/") ks) /\ Forall step_key ks /\ way v ks.
Definition records_at (F : flopts) (v : jv) (l : list jv) : Prop := exists ks, place_of F v ks /\ at_path v (down ks) = Some (JA l).
(** unflatten of files of a format to JSON, without base, metatab, configuration and source maps *)
Definition from_format_with (titles : bool) (f : fmt) (U : uopts) : Prop :=
  u_format U = Some (format_name f) /\ u_base U = None /\ u_meta U = None /\ u_conf U = [] /\ u_xml U = false /\ u_vertical U = false /\ u_titles U = titles /\
  u_meta_only U = false /\ u_cells U = [] /\ u_heads U = [].
Definition from_format : fmt -> uopts -> Prop := from_format_with false.
Definition from_csv : uopts -> Prop := from_format Csv.
Definition unflatten_schema_opts (Wd : world) (U : uopts) : sopts :=
  {| so_rollup := true; so_root_id := u_root_id U; so_titles := false; so_trunc := u_trunc U; so_nodep := false; so_wkt := u_wkt U; so_lower := wd_lower Wd |}.
Definition unflatten_opts (Wd : world) (U : uopts) (schema : option sps) : opts :=
  {| o_conv := wd_conv Wd (u_wkt U) (u_zone U); o_types := match schema with Some s => types_of s | None => fun _ => [] end; o_root_id := u_root_id U;
     o_id_name := id_name_used U empty_conf; o_xml := false; o_vertical := false |}.
(** the JSON of the records, in the list that unflatten writes *)
Definition listed (U : uopts) (j : jout) : jout := if u_root_list U then j else OObj [(root_path U empty_conf, j)].
