(** Running the examples of the documentation (/repo/examples, run there by
    flattentool/tests/test_docs.py): a command line, the files, what is printed and
    the files written.  Used by Tests/DocExamples.v, which tools/examples.py makes
    from /repo/examples. *)
From Verif.Base Require Import PyStr PyNum PyVal PyDict Outcome.
From Verif.Model Require Import Warn Lib Convert Input Json SourceMap Flatten Readers Csv Output Schema SortXml XmlInput XmlOut Commands Cli JsonText MapText.
From Verif.Spec Require Import JsonTrip.
From Verif.Tests Require Import TestLib CommandLib.
Local Open Scope list_scope.

Definition line_text (nl : str) (ls : list str) : str := join nl ls.
Definition lf_ : str := [10]%N.
Definition crlf_ : str := [13; 10]%N.

(** doubles: here a Decimal with few digits stands for itself, as coefficient and
    exponent of ten; its text is that of the Decimal *)
Definition doc_tenv : tenv :=
  {| te_env := {| float_str := fun f => match f with FFin n m e => dec_str (DFin n m e) | _ => [] end;
                  dt_str := dt_str test_env; dt_date_iso := dt_date_iso test_env; dt_local_iso := dt_local_iso test_env; geo_available := false; wkt_loads := fun _ => WktBad |};
     te_double := fun d => match d with DFin n c e => FFin n c e | _ => FNan end;
     te_geo := fun _ => JO [(u "type", JS (SStr (u "Point"))); (u "coordinates", JA [JS (SFlt (FFin false 53486434 (-6))); JS (SFlt (FFin true 2239353 (-6)))])] |}.
(** shapely knows one geometry *)
Definition doc_wkt : str := u "POINT (53.486434 -2.239353)".
Definition doc_shape (d : jobj) : option str :=
  match sget (u "type") d, sget (u "coordinates") d with
  | Some (JS (SStr t)), Some (JA [JS x; JS y]) =>
    if str_eqb t (u "Point") && py_eqb x (SDec (DFin false 53486434 (-6))) && py_eqb y (SDec (DFin true 2239353 (-6))) then Some doc_wkt else None
  | _, _ => None
  end.
Definition doc_cenv (wkt : bool) : conv_env :=
  {| ce_env := {| float_str := float_str test_env; dt_str := dt_str test_env; dt_date_iso := dt_date_iso test_env; dt_local_iso := dt_local_iso test_env; geo_available := true;
                  wkt_loads := fun s => match s with SStr t => if str_eqb t doc_wkt then WktOk t else WktBad | _ => WktBad end |};
     ce_repr := ce_repr test_cenv; ce_wkt := wkt |}.

Definition lines_of (t : str) : list str := text_lines (newlines t).
Definition doc_world (files : list (str * str)) (books : list (str * book)) (xsds : list (str * xel)) (schemas : list (str * sv)) (local_off : bool) : world :=
  let json n := match sget n files with Some t => match loads t with Some v => inr (data_of v) | None => inl EOther end | None => inl EOSError end in
  {| wd_schema := fun off n => if off && local_off then inl EOther else match sget n schemas with Some s => inr s | None => inl EOSError end;
     wd_json := json; wd_base := json; wd_xml := fun _ _ => inl EOther;
     wd_lines := fun n => match sget n files with Some t => inr (lines_of t) | None => inl EOSError end; wd_isfile := fun n => shas n files;
     wd_book := fun f d => match f with Readers.Csv => match csv_book d files with Ok b _ => inr b | Raise e _ => inl e end | _ => match sget d books with Some b => inr b | None => inl EOther end end;
     wd_xsd := fun n => match sget n xsds with Some x => inr x | None => inl EOSError end; wd_xsd_fuel := 20; wd_xenv := cmd_xenv; wd_wenv := cmd_wenv; wd_lower := lower; wd_shape := Some doc_shape;
     wd_set_order := fun l => l; wd_conv := fun wkt _ => doc_cenv wkt |}.

Definition shown (c : content) : option str :=
  match c with
  | CText t => Some t
  | CJson j => Some (json_text doc_tenv j)
  | CCells m => match cells_text doc_tenv test_env m with Ok t _ => Some t | Raise _ _ => None end
  | CHeads m => match heads_text doc_tenv test_env m with Ok t _ => Some t | Raise _ _ => None end
  | _ => None
  end.
(** (with format "all" there are an XLSX and an ODS file too, whose contents the
    examples do not give) *)
(** blank lines at the end do not count (test_docs.py:175-178) *)
Definition trimmed (t : str) : str := rev ((fix go s := match s with 10%N :: r => go r | _ => s end) (rev t)).
Definition name_eqb (a b : option str) : bool := match a, b with None, None => true | Some x, Some y => str_eqb x y | _, _ => false end.
Definition doc_writes (w : list event) : list (option str * option str) := flat_map (fun e => match e with Wrote n (CXlsx _) | Wrote n (COds _) => [] | Wrote n c => [(n, shown c)] | _ => [] end) w.
Definition matched (e : option str * str) (l : list (option str * option str)) : bool :=
  existsb (fun x => name_eqb (fst e) (fst x) && match snd x with Some t => str_eqb (trimmed t) (trimmed (snd e)) | None => false end) l.
Definition outcome_is (Wd : world) (argv : list str) (code : N) (expected : list (option str * str)) : bool :=
  let '(e, w) := main Wd argv in
  match e with NotModelled => false | _ => true end && (status e =? code)%N &&
  Nat.eqb (length (doc_writes w)) (length expected) && forallb (fun x => matched x (doc_writes w)) expected.

(** XML: the elements and the comment, not their text *)
Definition pair_eqb (a b : str * str) : bool := str_eqb (fst a) (fst b) && str_eqb (snd a) (snd b).
Fixpoint xel_eqb (a b : xel) : bool :=
  let 'El t1 a1 x1 c1 := a in let 'El t2 a2 x2 c2 := b in
  str_eqb t1 t2 && list_eqb pair_eqb a1 a2 && name_eqb x1 x2 &&
  (fix go (l m : list xel) : bool := match l, m with [], [] => true | x :: l', y :: m' => xel_eqb x y && go l' m' | _, _ => false end) c1 c2.
Definition xml_is (Wd : world) (argv : list str) (root : xel) (comment : str) : bool :=
  match main Wd argv with
  | (Finished, w) => match flat_map (fun e => match e with Wrote n c => [(n, c)] | _ => [] end) w with
                     | [(None, CXml r c)] => xel_eqb r root && str_eqb c comment
                     | _ => false
                     end
  | _ => false
  end.

(** a test: fails unless [b] evaluates to [true].  (Without a proof term: the checker
    would evaluate it again, without the virtual machine.) *)
Ltac holds b := let r := eval vm_compute in b in match r with true => exact I end.
