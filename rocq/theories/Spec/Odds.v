(** Headings at odds with a schema, and tables whose only fault could be such headings. *)
From Coq Require Import List.
Import ListNotations.
From Verif.Base Require Import PyStr PyNum PyVal.
From Verif.Model Require Import Lib Convert Input.
From Verif.Spec Require Import Conversion Plain.

(** the path with parts [items] treats the field named by [till] as an array or
    object, against the type of the schema: it has a position after a field that is
    not an array, or a name after a field that holds a value *)
Definition at_odds (types : str -> str) (items : list str) (till : str) : Prop :=
  exists before item next after, items = before ++ item :: next :: after /\
    isint item = false /\ next <> [] /\ till = join [slash] (filter (fun i => negb (isint i)) (before ++ [item])) /\
    types till <> [] /\ types till <> u "array" /\ (types till = u "object" -> isint next = true).

(** the types converters know; "object" fields hold no values *)
Definition known_types (types : str -> str) : Prop :=
  forall p, In (types p) value_types \/ types p = u "object" \/ types p = u "geojson".
(** single values *)
Definition single_types : list str := [u ""; u "string"; u "date"; u "number"; u "integer"; u "boolean"].
(** the field called [id_name] is a single value, at every depth *)
Definition ids_single (types : str -> str) (id_name : str) : Prop :=
  forall items, In (types (join [slash] (items ++ [id_name]))) single_types.

(** not infinite, not NaN, not a "signalling NaN" in words, and if geometries are
    converted, a cell the WKT reader accepts or rejects in the documented way *)
Definition tame (E : conv_env) (types : str -> str) (s : scalar) : Prop :=
  ordinary s /\ (forall n p, s <> SDec (DNan n true p)) /\ (forall t n p, s = SStr t -> parse_dec t <> Some (DNan n true p)) /\
  ((exists p, types p = u "geojson") -> ce_wkt E = true /\ (geo_available E = true -> wkt_loads E s <> WktRaise)).

(** a part that is not the last part of its heading is not followed by an empty one *)
Definition no_empty_parts (items : list str) : Prop :=
  forall before a b after, items = before ++ a :: b :: after -> b <> [].

(** a sheet whose lines have no more cells than there are headings, and for each cell
    that is not blank: the heading treats the id as a value and has no empty part, and
    the value is tame *)
Definition acceptable (O : opts) (s : sheet_in) : Prop :=
  forall line, In line (si_lines s) ->
    (forall hs, si_headings s = Some hs -> length line <= length hs) /\
    forall h v, In (h, v) line -> blank v = false ->
      tame (o_conv O) (o_types O) v /\ id_is_leaf (o_id_name O) (path_items (o_conv O) h) /\ no_empty_parts (path_items (o_conv O) h).

(** a cell of the table, not blank *)
Definition has_cell (sheets : list sheet_in) (h v : scalar) : Prop :=
  exists s line, In s sheets /\ si_headings s <> Some [] /\ In line (si_lines s) /\ In (h, v) line /\ blank v = false.
