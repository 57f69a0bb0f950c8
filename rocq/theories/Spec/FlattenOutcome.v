(** When a run of flatten can be made, and data that it can always flatten. *)
From Verif.Base Require Import PyStr PyNum PyVal PyDict Outcome.
From Verif.Model Require Import Lib Flatten Readers Csv Output Schema Commands.
From Verif.Spec Require Import Flat Commands Trip FlattenRun Written.

(** a record that can be rolled up: with titles there is a schema; an array with
    objects at its top has only objects, and if it is a single one, its fields are
    values, except those that the file of fields to preserve leaves out *)
Definition rollable (O : popts) (d : jobj) : Prop :=
  po_rollup O = [] \/
  ((po_titles O = true -> po_schema O <> None) /\
   forall key l o, In (key, JA l) d -> In (JO o) l ->
     (forall v, In v l -> exists o', v = JO o') /\
     (l = [JO o] -> forall k x, In (k, x) o -> jbasic x = true \/ (po_preserve O <> [] /\ ~ In (key ++ u "/" ++ k) (po_preserve O)))).
(** a geometry that is converted to WKT *)
Definition geometry (O : popts) (d : jobj) : Prop :=
  po_wkt O = true /\ In (u "type") (map fst d) /\ In (u "coordinates") (map fst d) /\ exists shape text, po_shape O = Some shape /\ shape d = Some text.
(** [d] is an item of an array within [v] *)
Inductive item_of : jv -> jobj -> Prop :=
| io_here l d : In (JO d) l -> item_of (JA l) d
| io_array l v d : In v l -> item_of v d -> item_of (JA l) d
| io_object o k v d : In (k, v) o -> item_of v d -> item_of (JO o) d.
(** objects among the records are regular (Spec/Flat.v) and can be rolled up; other
    things are passed over with a warning.  No record and no item of an array is
    itself a geometry (the value of a field may be one). *)
Definition data_fits (O : popts) (l : list jv) : Prop :=
  (forall d, In (JO d) l -> regular (JO d) /\ rollable O d) /\ forall d, item_of (JA l) d -> ~ geometry O d.

(** what the libraries that write files are asked to take: for CSV the file can be
    opened; openpyxl takes the title, the headings and the values; for ODS no value is
    a list or an object (unless empty), and float() of a text or number either gives
    a number or raises ValueError *)
Definition ods_takes (E : wenv) (v : jv) : Prop := is_nothing v \/ exists s, v = JS s /\ forall e, we_float E s <> FloatRaise e.
Definition taken (E : wenv) (W : wopts) (f : fmt) (x : table) : Prop :=
  let each_value (P : jv -> Prop) := forall row h v v', In row (tb_rows x) -> In h (tb_header x) -> has_value row h v -> cleaned v v' -> P v' in
  match f with
  | Csv => we_open E (csv_path W x) = None
  | Xlsx => we_title E (firstn 31 (w_prefix W ++ tb_name x)) = None /\ (forall h, In h (tb_header x) -> we_cell E (JS (SStr h)) = None) /\
            each_value (fun v => we_cell E v = None)
  | Ods => (forall h, In h (tb_header x) -> ods_takes E (JS (SStr h))) /\ each_value (ods_takes E)
  end.

(** a known format and line terminator, both or none of the filter options, no XML,
    and all input can be read: schema, roll-ups, fields to preserve, document
    ([run_inputs]: Spec/FlattenRun.v); the document has no keys in the way of
    finding the records ([place_of]: Spec/Trip.v) *)
Definition can_flatten (Wd : world) (F : flopts) (f : fmt) (t : term) (schema : option sps) (roll lines : list str) (recs : list jv) : Prop :=
  f_xml F = false /\ sget (f_term F) terminators = Some t /\ sget (f_format F) formats = Some f /\ (f_filter_field F = None <-> f_filter_value F = None) /\
  run_inputs Wd F schema roll lines recs /\ exists v ks, wd_json Wd (f_input F) = inr v /\ place_of F v ks.
(** how the tables of a run are written *)
Definition run_writer (F : flopts) (f : fmt) (t : term) : wopts :=
  {| w_main := f_main F; w_output := output_name (u "flattened") f (f_output F); w_prefix := f_prefix F; w_term := t |}.

(** the options of the schema for a template, how its tables are written, and its
    tables: the headings of the sheets made from the schema, and no rows *)
Definition template_sopts (Wd : world) (C : copts) : sopts :=
  {| so_rollup := c_rollup C; so_root_id := c_root_id C; so_titles := c_titles C; so_trunc := c_trunc C; so_nodep := c_nodep C; so_wkt := c_wkt C; so_lower := wd_lower Wd |}.
Definition template_writer (C : copts) (f : fmt) (t : term) : wopts :=
  {| w_main := c_main C; w_output := output_name (u "template") f (c_output C); w_prefix := []; w_term := t |}.
Definition template_tables (main : str) (s : sps) : list table :=
  {| tb_name := main; tb_header := header (sp_main s); tb_rows := [] |} :: map (fun nx => {| tb_name := fst nx; tb_header := header (snd nx); tb_rows := [] |}) (sp_subs s).
