(** C74: when a run of unflatten succeeds.  [can_run], [all_finite], [plain_cells]
    and [tame_cells] are in Spec/Outcomes.v, [at_odds], [known_types] and
    [ids_single] in Spec/Odds.v. *)
From Coq Require Import String.
From Verif.Base Require Import PyStr PyNum PyVal PyDict Outcome.
From Verif.Model Require Import Warn Lib Convert Input Flatten Readers SortXml XmlOut Output Schema Commands.
From Verif.Spec Require Import Commands Conversion Plain Ids Odds Outcomes.
From Verif.Tests Require Import TestLib CommandLib CommandRepo.
From Verif.Proofs Require Import Odds CommandTotal LinesFit.
Local Open Scope list_scope.

(** without a schema: if the input can be read, no heading goes on after an id
    and no number is infinite or NaN, the run succeeds *)
Theorem C74_no_schema : forall Wd U sheets O, can_run Wd U sheets O -> u_schema U = [] -> (forall s, In s sheets -> plain_cells O s) -> exists w, unflatten_file Wd U = Ok tt w.
Proof. exact plain_succeeds. Qed.
Print Assumptions C74_no_schema.
(** with a schema: it succeeds; or it raises the schema error for a field that the
    heading of a cell treats against the schema, before anything is written; or
    there is an infinite number or a NaN among the records *)
Theorem C74_schema : forall Wd U sheets O, can_run Wd U sheets O -> known_types (o_types O) -> ids_single (o_types O) (o_id_name O) -> (forall s, In s sheets -> tame_cells O s) ->
  (exists w, unflatten_file Wd U = Ok tt w) \/
  (exists till w h v, unflatten_file Wd U = Raise (EFlattenToolValueError till) w /\ silent w /\ has_cell sheets h v /\ at_odds (o_types O) (path_items (o_conv O) h) till) \/
  (exists r w v, unflatten O sheets = Ok r w /\ inside (VLeaf v) (VList r) /\ finite_cell v = false).
Proof. exact tame_outcome. Qed.
Print Assumptions C74_schema.
(** in any case: whether the run succeeds depends on the records only *)
Theorem C74_succeeds : forall Wd U sheets O, can_run Wd U sheets O -> forall r w, unflatten O sheets = Ok r w -> all_finite r -> exists w', unflatten_file Wd U = Ok tt w'.
Proof. exact run_succeeds. Qed.
Print Assumptions C74_succeeds.
Theorem C74_fails : forall Wd U sheets O, can_run Wd U sheets O -> forall e w, unflatten O sheets = Raise e w -> exists w', unflatten_file Wd U = Raise e w' /\ silent w'.
Proof. exact run_fails. Qed.
Print Assumptions C74_fails.

(** ** cases *)
Local Open Scope string_scope.
Local Open Scope list_scope.
Definition out_schema : sv := VO None [(u "properties", VO None [(u "id", VO None [(u "type", VS (SStr (u "string")))]); (u "n", VO None [(u "type", VS (SStr (u "number")))])])].
Definition out_base : jv := JO [(u "v", JS (SInt 1)); (u "w", JA [JS SNone; JO [(u "x", JS (SStr (u "y")))]])].
Definition out_world (b : book) : world := test_world b out_base (JO []) out_schema.
Definition with_schema (file : str) (U : uopts) : uopts :=
  {| u_input := u_input U; u_base := u_base U; u_format := u_format U; u_output := u_output U; u_path := u_path U; u_root_list := u_root_list U;
     u_zone := u_zone U; u_root_id := u_root_id U; u_schema := file; u_titles := u_titles U; u_cells := u_cells U; u_heads := u_heads U; u_id_name := u_id_name U;
     u_xml := u_xml U; u_vertical := u_vertical U; u_meta := u_meta U; u_meta_only := u_meta_only U; u_meta_schema := u_meta_schema U; u_meta_vertical := u_meta_vertical U;
     u_xsds := u_xsds U; u_conf := u_conf U; u_local_off := u_local_off U; u_comment := u_comment U; u_trunc := u_trunc U; u_wkt := u_wkt U |}.
Definition out_opts : uopts := with_base (u "base.json") (unflatten_opts (u "ods")).
Definition good_book : book := [(u "s", g [["id"; "n"]; ["1"; "2.5"]; ["2"; ""]])].
Definition odd_book : book := [(u "s", g [["id"; "n/0/q"]; ["1"; "2.5"]; ["2"; ""]])].
Definition nan_book : book := [(u "s", g [["id"; "n"]; ["1"; "NaN"]])].
Lemma base_can : base_readable (out_world good_book) out_opts.
Proof.
  right. right. exists (u "base.json"), [(u "v", JS (SInt 1)); (u "w", JA [JS SNone; JO [(u "x", JS (SStr (u "y")))]])].
  split; [reflexivity|]. split; [discriminate|]. split; [reflexivity|]. repeat constructor.
Qed.
Example C74_no_schema_meets : exists sheets O, can_run (out_world odd_book) out_opts sheets O /\ u_schema out_opts = [] /\ (forall s, In s sheets -> plain_cells O s).
Proof.
  eexists. eexists. split; [|split; [reflexivity|]].
  - exists (u "ods"), Ods. split; [reflexivity|]. split; [reflexivity|]. split; [reflexivity|]. split; [intros (s & X & _); discriminate X|]. split; [left; reflexivity|]. split; [exact base_can|].
    exists None. split; [left; split; reflexivity|]. split; [|reflexivity]. do 3 eexists. exists []. split; [reflexivity|]. split; vm_compute; reflexivity.
  - intros s [<-|[]] line h v Hl. cbn [si_lines] in Hl. repeat destruct Hl as [<-|Hl]; try destruct Hl; intros Hin; cbn [In] in Hin;
      repeat destruct Hin as [[= <- <-]|Hin]; try destruct Hin; split; try exact I; vm_compute; repeat split; intros Q; discriminate Q.
Qed.
(** with the schema, the sheet of numbers is written; the other two are the other
    two outcomes *)
Example C74_schema_meets : let U := with_schema (u "s.json") out_opts in
  (exists sheets O, can_run (out_world odd_book) U sheets O /\ known_types (o_types O) /\ ids_single (o_types O) (o_id_name O) /\ (forall s, In s sheets -> tame_cells O s)) /\
  (exists w, unflatten_file (out_world good_book) U = Ok tt w) /\
  (exists w, unflatten_file (out_world odd_book) U = Raise (EFlattenToolValueError (u "n")) w) /\
  (exists w, unflatten_file (out_world nan_book) U = Raise EValueError w).
Proof.
  cbv zeta. split; [|split; [eexists; vm_compute; reflexivity|split; eexists; vm_compute; reflexivity]].
  eexists. eexists. split; [|split; [|split]].
  - exists (u "ods"), Ods. split; [reflexivity|]. split; [reflexivity|]. split; [reflexivity|]. split; [intros (s & X & _); discriminate X|]. split; [left; reflexivity|]. split; [exact base_can|].
    eexists. split; [right; split; [discriminate|]; do 3 eexists; split; [reflexivity|]; split; [vm_compute; reflexivity|reflexivity]|]. split; [|reflexivity].
    do 3 eexists. exists []. split; [reflexivity|]. split; vm_compute; reflexivity.
  - intros p. cbn [o_types]. unfold types_of. cbn [sp_flat sget aget]. repeat (destruct (str_eqb p _); [left; cbn; tauto|]). left. left. reflexivity.
  - intros items. cbn [o_types]. unfold types_of. cbn [sp_flat sget aget]. match goal with |- context [str_eqb ?p _] => generalize p end. intros p. repeat (destruct (str_eqb p _); [cbn; tauto|]). left. reflexivity.
  - intros s [<-|[]] line h v Hl. cbn [si_lines] in Hl. repeat destruct Hl as [<-|Hl]; try destruct Hl; intros Hin Hb; cbn [In] in Hin;
      repeat destruct Hin as [[= <- <-]|Hin]; try destruct Hin; try discriminate Hb;
      (split; [split; [exact I|split; [intros; discriminate|split; [intros t n p [= <-]; vm_compute; discriminate|]]]|split; [vm_compute; repeat split; intros Q; discriminate Q|]]).
    all: try (intros (p & X); exfalso; revert X; cbn [o_types]; unfold types_of; cbn [sp_flat sget aget]; repeat (destruct (str_eqb p _); [discriminate|]); discriminate).
    all: intros before a b after X; vm_compute in X; repeat (destruct before as [|? before]; [injection X; intros; subst; discriminate|]; try discriminate X).
Qed.
