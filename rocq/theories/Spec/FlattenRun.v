(** What a run of the flatten command (or of create_template) is, in terms of its
    options: the records, the roll-ups, the fields to preserve, the files. *)
From Verif.Base Require Import PyStr PyNum PyVal PyDict Outcome.
From Verif.Model Require Import Lib Flatten Readers Output Schema Commands.
From Verif.Spec Require Import Paths Commands Trip.
From Verif.Spec Require XmlTags SheetConf.

(** ** The roll-up option *)
(** roll-ups are asked for: True, or a list that is not empty *)
Definition asks (r : rollarg) : Prop := r = RollTrue \/ exists l, r = RollList l /\ l <> [].
(** ... by paths (or a file), not only by True *)
Definition asks_paths (r : rollarg) : Prop := exists l, r = RollList l /\ l <> [] /\ l <> [RTrue].
(** the roll-ups that the schema has *)
Definition schema_rollups (schema : option sps) : list str := match schema with Some s => sp_rollup s | None => [] end.
(** [rollups Wd found r l]: with the roll-ups [found] in the schema and the option
    [r], the paths [l] are rolled up *)
Inductive rollups (Wd : world) (found : list str) : rollarg -> list str -> Prop :=
| ru_none r : ~ asks r -> rollups Wd found r []
| ru_schema r : asks r -> found <> [] -> rollups Wd found r found
| ru_file file lines : found = [] -> wd_isfile Wd file = true -> wd_lines Wd file = inr lines ->
    rollups Wd found (RollList [RPath file]) (map (strip is_ws) lines)
| ru_path p : found = [] -> wd_isfile Wd p = false -> rollups Wd found (RollList [RPath p]) [p]
| ru_paths ps : found = [] -> (2 <= length ps)%nat -> rollups Wd found (RollList (map RPath ps)) ps.
(** the option is a list of paths, or just True: not both *)
Definition not_mixed (r : rollarg) : Prop := forall l, r = RollList l -> l = [RTrue] \/ exists ps, l = map RPath ps.

(** ** The file of the fields to preserve *)
Definition lines_read (Wd : world) (file : str) (lines : list str) : Prop :=
  (file = [] /\ lines = []) \/ (file <> [] /\ wd_lines Wd file = inr lines).
(** the paths asked for: the lines, without white space around and slashes after them *)
Definition requests (lines : list str) : list str := map (fun l => rstrip is_slash (strip is_ws l)) lines.

(** ** The records *)
(** keys on the way to the records of an XML document *)
Definition xml_step (k : str) : Prop := ~ In 47%N k /\ endswith k (u "[]") = false.
Definition records_read (Wd : world) (F : flopts) (recs : list jv) : Prop :=
  if f_xml F then
    exists v v', wd_xml Wd (if f_root_list F then None else Some (f_path F)) (f_input F) = inr v /\
      XmlTags.relisted (XmlTags.repeated v) [] v v' /\
      forall ks, f_root_list F = false -> ks <> [] -> f_path F = join (u "/") ks -> Forall xml_step ks ->
        match at_path v' (down ks) with Some (JA l) => recs = l | None => recs = [] | _ => True end
  else exists v, wd_json Wd (f_input F) = inr v /\ forall ks, place_of F v ks -> recs = items_there (at_path v (down ks)).

(** ** The options *)
Definition filter_used (F : flopts) : option (str * str) :=
  match f_filter_field F, f_filter_value F with
  | Some [], _ | _, Some [] | None, _ | _, None => None
  | Some k, Some v => Some (k, v)
  end.
Definition run_schema_opts (Wd : world) (F : flopts) (asked : bool) : sopts :=
  {| so_rollup := asked; so_root_id := f_root_id F; so_titles := f_titles F; so_trunc := f_trunc F; so_nodep := false; so_wkt := f_wkt F; so_lower := wd_lower Wd |}.
Definition run_opts (Wd : world) (F : flopts) (schema : option sps) (roll lines : list str) : popts :=
  {| po_str := we_env (wd_wenv Wd); po_titles := f_titles F; po_schema := option_map schema_info_of schema; po_root_id := f_root_id F;
     po_id_name := f_id_name F; po_xml := f_xml F; po_filter := filter_used F; po_preserve := preserve_fields lines; po_rollup := roll;
     po_trunc := f_trunc F; po_wkt := f_wkt F; po_shape := wd_shape Wd; po_set_order := wd_set_order Wd |}.
(** what a run works with: the schema, the roll-ups, the lines of the preserve file, the records *)
Record run_inputs (Wd : world) (F : flopts) (schema : option sps) (roll lines : list str) (recs : list jv) : Prop := {
  ri_schema : exists asked, (asked = true <-> asks (f_roll F)) /\ schema_read Wd (f_local_off F) (f_schema F) (run_schema_opts Wd F asked) schema;
  ri_rollup : rollups Wd (schema_rollups schema) (f_roll F) roll;
  ri_preserve : lines_read Wd (f_preserve F) lines;
  ri_records : records_read Wd F recs }.

(** ** The files written *)
(** [output_is Wd W main subs f w]: the run [w] writes the tables in the format [f], and nothing else *)
Definition output_is (Wd : world) (W : wopts) (main : table) (subs : list table) (f : fmt) (w : list event) : Prop :=
  match f with
  | Xlsx => exists b v, write_xlsx W (wd_wenv Wd) main subs = Ok b v /\ forall file c, written w file c <-> file = Some (w_output W) /\ c = CXlsx b
  | Ods => exists b v, write_ods W (wd_wenv Wd) main subs = Ok b v /\ forall file c, written w file c <-> file = Some (w_output W) /\ c = COds b
  | Csv => exists fs v, write_csv_files W (wd_wenv Wd) main subs [] = Ok fs v /\ forall file c, written w file c <-> exists p s, In (p, s) fs /\ file = Some p /\ c = CText s
  end.
(** the name of the output: that given, else [default] with the suffix of the format *)
Definition output_name (default : str) (f : fmt) (o : option str) : str :=
  named_or (match f with Xlsx => default ++ u ".xlsx" | Ods => default ++ u ".ods" | Csv => default end) o.

(** ** Warnings about the options *)
Definition rollup_warned (w : list event) : Prop := In (Warned ARollupIgnored) w.
Definition preserve_warned (w : list event) (ps : list str) : Prop := In (Warned (APreserveNotInSchema ps)) w.

(** ** The default configuration of unflatten *)
(** items separated by commas *)
Definition comma_items (text : str) (items : list str) : Prop := items <> [] /\ text = join (u ",") items /\ Forall (fun i => ~ In 44%N i) items.
