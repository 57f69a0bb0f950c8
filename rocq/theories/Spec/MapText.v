(** What the source map files say (C71). *)
From Verif.Base Require Import PyStr PyNum PyVal PyDict Outcome.
From Verif.Model Require Import Warn Lib Convert Input Json SourceMap Flatten Readers Commands JsonText.
From Verif.Spec Require Import Source Maps Commands JsonGrammar.

(** a heading as JSON: texts, whole numbers, truth values and nothing as they are; a
    date as its text; a float as the number of its shortest digits *)
Inductive heading_says (T : tenv) (E : env) : scalar -> jval -> Prop :=
| hs_text s : heading_says T E (SStr s) (VStr s)
| hs_number z : heading_says T E (SInt z) (VInt z)
| hs_bool b : heading_says T E (SBool b) (VBool b)
| hs_none : heading_says T E SNone VNull
| hs_date d : heading_says T E (SDt d) (VStr (dt_str E d))
| hs_float n m x v : number_says (float_str (te_env T) (FFin n m x)) v -> heading_says T E (SFlt (FFin n m x)) v.
(** headings as spreadsheets have them: no Decimals, NaNs or infinities *)
Definition common_heading (s : scalar) : Prop := match s with SDec _ | SFlt FNan | SFlt (FInf _) => False | _ => True end.
(** a cell: [sheet, column, row, heading]; a row: [sheet, row] *)
Definition cell_said (T : tenv) (E : env) (l : loc) (v : jval) : Prop :=
  exists h, heading_says T E (l_heading l) h /\ v = VArr [VStr (l_sheet l); VStr (l_col l); VInt (Z.of_N (l_row l)); h].
Definition row_said (x : str * N) (v : jval) : Prop := v = VArr [VStr (fst x); VInt (Z.of_N (snd x))].
Inductive entry_said (T : tenv) (E : env) : entry -> jval -> Prop :=
| es_cells l vs : Forall2 (cell_said T E) l vs -> entry_said T E (ECells l) (VArr vs)
| es_rows l vs : Forall2 row_said l vs -> entry_said T E (ERows l) (VArr vs).
Definition heading_said (T : tenv) (E : env) (x : str * scalar) (v : jval) : Prop :=
  exists h, heading_says T E (snd x) h /\ v = VArr [VStr (fst x); h].
(** an object with a member for every entry, in their order *)
Definition cells_said (T : tenv) (E : env) (m : cmap) (v : jval) : Prop :=
  exists d, v = VObj d /\ Forall2 (fun kx ky => fst kx = fst ky /\ entry_said T E (snd kx) (snd ky)) m d.
Definition heads_said (T : tenv) (E : env) (m : hmap) (v : jval) : Prop :=
  exists d, v = VObj d /\ Forall2 (fun kx ky => fst kx = fst ky /\ exists vs, snd ky = VArr vs /\ Forall2 (heading_said T E) (snd kx) vs) m d.

(** the value at a place of a JSON value *)
Fixpoint said_at (v : jval) (p : epath) : option jval :=
  match p with
  | [] => Some v
  | PKey k :: p' => match v with VObj d => match sget k d with Some x => said_at x p' | None => None end | _ => None end
  | PIdx i :: p' => match v with VArr l => match nth_error l (N.to_nat i) with Some x => said_at x p' | None => None end | _ => None end
  end.
(** where the list of records is: at the root list path, or the whole *)
Definition root_place (U : uopts) (path : str) : epath := if u_root_list U then [] else [PKey path].
(** the headings of the sheets that were read are common ones *)
Definition common_headings (sheets : list sheet_in) : Prop :=
  forall s, In s sheets -> (forall hs h, si_headings s = Some hs -> In h hs -> common_heading h) /\
    (forall line k x, In line (si_lines s) -> In (k, x) line -> common_heading k).
(** the maps as [unflatten] asks for them *)
Definition run_fancy (U : uopts) (conf : sheet_conf) : fancy :=
  {| f_root_is_list := u_root_list U; f_root_list_path := root_path U conf; f_cells := negb (is_nil (u_cells U)); f_headings := negb (is_nil (u_heads U)) |}.
