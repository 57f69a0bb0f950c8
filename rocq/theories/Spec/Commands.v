(** What the commands do, seen from outside: options, files opened and written. *)
From Verif.Base Require Import PyStr PyNum PyVal PyDict Outcome.
From Verif.Model Require Import Warn Lib Convert Input Json SourceMap Readers Flatten Schema TitleLines Commands.

(** ** Options *)
Definition known_formats : list str := [u "xlsx"; u "csv"; u "ods"].
Definition known_terminators : list str := [u "LF"; u "CRLF"].
Definition given (o : option str) : Prop := exists s, o = Some s /\ s <> [].
(** options that unflatten refuses *)
Definition bad_unflatten (U : uopts) : Prop :=
  u_format U = None \/ (exists f, u_format U = Some f /\ ~ In f known_formats) \/ (given (u_meta U) /\ given (u_base U)).
(** half a filter, or an unknown line terminator *)
Definition bad_flatten (F : flopts) : Prop :=
  (f_filter_field F = None /\ f_filter_value F <> None) \/ (f_filter_field F <> None /\ f_filter_value F = None) \/
  ~ In (f_term F) known_terminators.
Definition bad_template (C : copts) : Prop := ~ In (c_term C) known_terminators.
Definition unknown_output (f : str) : Prop := f <> u "all" /\ ~ In f known_formats.

Definition written (w : list event) (file : option str) (c : content) : Prop := In (Wrote file c) w.
Definition silent (w : list event) : Prop := forall file c, ~ written w file c.

(** the same options with another output format and name *)
Definition flatten_as (format : str) (name : option str) (F : flopts) : flopts :=
  {| f_input := f_input F; f_schema := f_schema F; f_output := name; f_format := format; f_main := f_main F; f_path := f_path F;
     f_root_list := f_root_list F; f_prefix := f_prefix F; f_filter_field := f_filter_field F; f_filter_value := f_filter_value F;
     f_preserve := f_preserve F; f_roll := f_roll F; f_root_id := f_root_id F; f_titles := f_titles F; f_xml := f_xml F;
     f_id_name := f_id_name F; f_local_off := f_local_off F; f_drop := f_drop F; f_trunc := f_trunc F; f_term := f_term F; f_wkt := f_wkt F |}.
Definition template_as (format : str) (name : option str) (C : copts) : copts :=
  {| c_schema := c_schema C; c_output := name; c_format := format; c_main := c_main C; c_rollup := c_rollup C; c_root_id := c_root_id C;
     c_titles := c_titles C; c_local_off := c_local_off C; c_trunc := c_trunc C; c_nodep := c_nodep C; c_term := c_term C; c_wkt := c_wkt C |}.
(** the name used when none is given *)
Definition named_or (default : str) (o : option str) : str := match o with Some [] | None => default | Some s => s end.

(** ** JSON in, the same JSON out *)
Inductive unchanged : jv -> jout -> Prop :=
| un_null : unchanged (JS SNone) (OLeaf JNull)
| un_bool b : unchanged (JS (SBool b)) (OLeaf (JBool b))
| un_int z : unchanged (JS (SInt z)) (OLeaf (JInt z))
| un_flt f : unchanged (JS (SFlt f)) (OLeaf (JFlt f))
| un_str s : unchanged (JS (SStr s)) (OLeaf (JStr s))
| un_arr l m : Forall2 unchanged l m -> unchanged (JA l) (OArr m)
| un_obj d e : Forall2 (fun x y => fst x = fst y /\ unchanged (snd x) (snd y)) d e -> unchanged (JO d) (OObj e).
(** what json.load returns: no Decimal, no datetime *)
Inductive loaded : jv -> Prop :=
| ld_scalar s : (match s with SDec _ | SDt _ => False | _ => True end) -> loaded (JS s)
| ld_arr l : Forall loaded l -> loaded (JA l)
| ld_obj d : Forall (fun x => loaded (snd x)) d -> loaded (JO d).

(** a record read from the spreadsheet, as written: the same fields in the same
    order, each cell by [json_cell] *)
Inductive record_json (E : env) : vnode -> jout -> Prop :=
| rj_leaf c j : (exists w, json_cell E c = Ok j w) -> record_json E (VLeaf c) (OLeaf j)
| rj_dict d e : Forall2 (fun x y => fst x = fst y /\ record_json E (snd x) (snd y)) d e -> record_json E (VDict d) (OObj e)
| rj_list l m : Forall2 (fun d o => record_json E (VDict d) o) l m -> record_json E (VList l) (OArr m).

(** ** Reading the spreadsheet in unflatten *)
Definition found_alike {A B} (R : A -> B -> Prop) (a : option A) (b : option B) : Prop :=
  match a, b with None, None => True | Some x, Some y => R x y | _, _ => False end.
(** the root list path and the id name: the option, else the configuration, else
    "main" and "id" *)
Definition root_path (U : uopts) (conf : sheet_conf) : str :=
  match u_path U, sc_rootlist conf with Some p, _ => p | None, Some p => p | None, None => u "main" end.
Definition id_name_used (U : uopts) (conf : sheet_conf) : str :=
  match u_id_name U, sc_idname conf with Some n, _ => n | None, Some n => n | None, None => u "id" end.
(** [sheets_read Wd f file rd titles schema sheets]: reading the file with the
    reader [rd], its headings as titles of the schema if [titles], gives [sheets] *)
Definition sheets_read (Wd : world) (f : fmt) (file : str) (rd : reader) (titles : bool) (schema : option sps) (sheets : list sheet_in) : Prop :=
  exists b raw w1 w2, wd_book Wd f file = inr b /\ read_book f rd b = Ok raw w1 /\
    (if titles then convert_sheets (wd_lower Wd) (option_map sp_table schema) raw = Ok sheets w2 else sheets = raw).
(** the schema in a file, if a file is named *)
Definition schema_read (Wd : world) (local_off : bool) (file : str) (S : sopts) (schema : option sps) : Prop :=
  (file = [] /\ schema = None) \/
  (file <> [] /\ exists v s w, wd_schema Wd local_off file = inr v /\ parse_schema S v = Ok s w /\ schema = Some s).
(** the run of unflatten on all sheets except the metatab: the sheets and options *)
Definition main_run (Wd : world) (U : uopts) (f : fmt) (conf : sheet_conf) (sheets : list sheet_in) (O : opts) : Prop :=
  exists schema, schema_read Wd (u_local_off U) (u_schema U)
      {| so_rollup := true; so_root_id := u_root_id U; so_titles := false; so_trunc := u_trunc U; so_nodep := false; so_wkt := u_wkt U; so_lower := wd_lower Wd |} schema /\
    sheets_read Wd f (u_input U)
      {| rd_base := conf; rd_use := true; rd_vertical := u_vertical U; rd_include := []; rd_exclude := match u_meta U with Some n => [n] | None => [] end |}
      (u_titles U) schema sheets /\
    O = {| o_conv := wd_conv Wd (u_wkt U) (u_zone U); o_types := match schema with Some s => types_of s | None => fun _ => [] end;
           o_root_id := u_root_id U; o_id_name := id_name_used U conf; o_xml := u_xml U; o_vertical := u_vertical U |}.
Definition main_records (Wd : world) (U : uopts) (f : fmt) (conf : sheet_conf) (r : list vdict) : Prop :=
  exists sheets O w, main_run Wd U f conf sheets O /\ unflatten O sheets = Ok r w.
(** its source maps: fancy_unflatten, for which C11, C12, C14, C46 say what the maps are *)
Definition main_maps (Wd : world) (U : uopts) (f : fmt) (conf : sheet_conf) (r : list vdict) (cells : option cmap) (heads : option hmap) : Prop :=
  exists sheets O w, main_run Wd U f conf sheets O /\
    fancy_unflatten O {| f_root_is_list := u_root_list U; f_root_list_path := root_path U conf;
                         f_cells := negb (is_nil (u_cells U)); f_headings := negb (is_nil (u_heads U)) |} sheets = Ok (r, cells, heads) w.
(** the run on only the metatab, without configuration *)
Definition meta_run (Wd : world) (U : uopts) (f : fmt) (name : str) (sheets : list sheet_in) (O : opts) : Prop :=
  exists schema, schema_read Wd (u_local_off U) (u_meta_schema U)
      {| so_rollup := false; so_root_id := []; so_titles := false; so_trunc := 3; so_nodep := false; so_wkt := u_wkt U; so_lower := wd_lower Wd |} schema /\
    sheets_read Wd f (u_input U)
      {| rd_base := empty_conf; rd_use := false; rd_vertical := u_meta_vertical U; rd_include := [name]; rd_exclude := [] |}
      (u_titles U) schema sheets /\
    O = {| o_conv := wd_conv Wd (u_wkt U) (u_zone U); o_types := match schema with Some s => types_of s | None => fun _ => [] end;
           o_root_id := u "ocid"; o_id_name := match u_id_name U with Some n => n | None => no_id end; o_xml := u_xml U; o_vertical := u_meta_vertical U |}.
Definition meta_records (Wd : world) (U : uopts) (f : fmt) (name : str) (r : list vdict) : Prop :=
  exists sheets O w, meta_run Wd U f name sheets O /\ unflatten O sheets = Ok r w.
Definition meta_maps (Wd : world) (U : uopts) (f : fmt) (name : str) (r : list vdict) (cells : option cmap) (heads : option hmap) : Prop :=
  exists sheets O w, meta_run Wd U f name sheets O /\
    fancy_unflatten O {| f_root_is_list := false; f_root_list_path := u "meta";
                         f_cells := negb (is_nil (u_cells U)); f_headings := negb (is_nil (u_heads U)) |} sheets = Ok (r, cells, heads) w.
(** the configuration in the first row of the metatab goes over the default configuration *)
Definition meta_conf (Wd : world) (U : uopts) (f : fmt) (name : str) (conf : sheet_conf) : Prop :=
  exists b, wd_book Wd f (u_input U) = inr b /\
    (if str_mem name (map fst b) then exists g w, configure f b name = Ok (name, g, conf) w else conf = empty_conf).
(** the sheets of a spreadsheet have different names *)
Definition distinct_sheets (Wd : world) : Prop := forall f file b, wd_book Wd f file = inr b -> NoDup (map fst b).
(** the configuration of the sheets of the run: the default one, with the entries
    of the metatab over it *)
Definition over {A} (top below : option A) : option A := match top with Some _ => top | None => below end.
Definition conf_over (top below : sheet_conf) : sheet_conf :=
  {| sc_skip := over (sc_skip top) (sc_skip below); sc_header := over (sc_header top) (sc_header below);
     sc_ignore := sc_ignore top || sc_ignore below; sc_hash := sc_hash top || sc_hash below;
     sc_xmlroot := over (sc_xmlroot top) (sc_xmlroot below); sc_rootlist := over (sc_rootlist top) (sc_rootlist below);
     sc_idname := over (sc_idname top) (sc_idname below) |}.
(** the one JSON document that a run writes *)
Definition json_written (w : list event) (file : option str) (j : jout) : Prop :=
  written w file (CJson j) /\ forall file' j', written w file' (CJson j') -> file' = file /\ j' = j.
(** the files with source maps that a run writes *)
Definition cells_written (w : list event) (file : str) (m : cmap) : Prop := forall name m', written w name (CCells m') <-> name = Some file /\ m' = m.
Definition heads_written (w : list event) (file : str) (m : hmap) : Prop := forall name m', written w name (CHeads m') <-> name = Some file /\ m' = m.
(** where the metatab's own map has the place [k] of the output: it is the
    record 0 of the list "meta" there *)
Definition meta_place (k : str) : str := match k with [] => u "meta/0" | _ => u "meta/0/" ++ k end.
