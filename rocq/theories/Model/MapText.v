(** The source maps as JSON text: json.dump(cell_source_map_data / heading_source_map_data,
    fp, indent=4, default=decimal_datetime_default, ensure_ascii=False),
    __init__.py:394-411.  Locations and rows are tuples, which json writes as
    arrays (json/encoder.py:418): a cell is (sheet, column, row, heading),
    input.py:457-462, a row (sheet, row), input.py:550, a heading (sheet, heading),
    input.py:553. *)
From Verif.Base Require Import PyStr PyNum PyVal PyDict Outcome.
From Verif.Model Require Import Warn Lib Convert Json Input SourceMap Flatten Commands JsonText.
Local Open Scope res_scope.

Section MapText.
  Context (E : env).
  Definition text_leaf (s : str) : jout := OLeaf (JStr s).
  Definition number_leaf (n : N) : jout := OLeaf (JInt (Z.of_N n)).
  Definition cell_json (l : loc) : R jout :=
    h <- json_scalar E (l_heading l) ;; ret (OArr [text_leaf (l_sheet l); text_leaf (l_col l); number_leaf (l_row l); OLeaf h]).
  Definition row_json (x : str * N) : R jout := ret (OArr [text_leaf (fst x); number_leaf (snd x)]).
  Definition entry_json (e : entry) : R jout :=
    match e with
    | ECells l => r <- dump_list cell_json l ;; ret (OArr r)
    | ERows l => r <- dump_list row_json l ;; ret (OArr r)
    end.
  Definition heading_json (x : str * scalar) : R jout := h <- json_scalar E (snd x) ;; ret (OArr [text_leaf (fst x); OLeaf h]).
  Definition cells_json (m : cmap) : R jout := r <- dump_items entry_json m ;; ret (OObj r).
  Definition heads_json (m : hmap) : R jout := r <- dump_items (fun l => x <- dump_list heading_json l ;; ret (OArr x)) m ;; ret (OObj r).
End MapText.
(** the texts of the two files *)
Definition cells_text (T : tenv) (E : env) (m : cmap) : R str := j <- cells_json E m ;; ret (json_text T j).
Definition heads_text (T : tenv) (E : env) (m : hmap) : R str := j <- heads_json E m ;; ret (json_text T j).
