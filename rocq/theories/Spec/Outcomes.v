(** When a run of unflatten can be made at all. *)
From Verif.Base Require Import PyStr PyNum PyVal PyDict Outcome.
From Verif.Model Require Import Warn Lib Convert Input Flatten Readers SortXml XmlOut Output Schema Commands.
From Verif.Spec Require Import Commands Conversion Plain Ids Odds.

(** the base: none is needed or given, or it can be read and is an object *)
Definition base_readable (Wd : world) (U : uopts) : Prop :=
  u_root_list U = true \/ ~ given (u_base U) \/ exists file d, u_base U = Some file /\ file <> [] /\ wd_base Wd file = inr (JO d) /\ loaded (JO d).
(** a known format, no XML, no metatab, and all input can be read: the base, the
    schema and the sheets ([main_run]: Spec/Commands.v) *)
Definition can_run (Wd : world) (U : uopts) (sheets : list sheet_in) (O : opts) : Prop :=
  exists fn f, u_format U = Some fn /\ sget fn formats = Some f /\ u_xml U = false /\ ~ given (u_meta U) /\ (u_meta_only U = false \/ u_root_list U = true) /\
    base_readable Wd U /\ main_run Wd U f (default_conf (u_conf U)) sheets O.
(** all numbers in the records can be written as JSON *)
Definition all_finite (r : list vdict) : Prop := forall v, inside (VLeaf v) (VList r) -> finite_cell v = true.
(** no cell is an infinite float or NaN, and no heading goes on after an id *)
Definition plain_cells (O : opts) (s : sheet_in) : Prop :=
  forall line h v, In line (si_lines s) -> In (h, v) line -> no_inf v /\ id_is_leaf (o_id_name O) (path_items (o_conv O) h).
(** for each cell that is not blank: the value is tame (Spec/Odds.v), and the heading
    does not go on after an id and has no empty part *)
Definition tame_cells (O : opts) (s : sheet_in) : Prop :=
  forall line h v, In line (si_lines s) -> In (h, v) line -> blank v = false ->
    tame (o_conv O) (o_types O) v /\ id_is_leaf (o_id_name O) (path_items (o_conv O) h) /\ no_empty_parts (path_items (o_conv O) h).
