(** The source map files (C71). *)
From Verif.Base Require Import PyStr PyNum PyVal PyDict Outcome.
From Verif.Model Require Import Warn Lib Convert Input Json SourceMap Flatten Readers Commands JsonText MapText.
From Verif.Spec Require Import Source Maps Commands JsonGrammar MapText.
From Verif.Proofs Require Import JsonTexts TripJson.
Local Open Scope res_scope.
Local Open Scope list_scope.

Section Texts.
  Context (T : tenv) (E : env) (HF : floats_are_json (te_env T)).
  Lemma heading_written s : common_heading s -> exists j v, json_scalar E s = Ok j [] /\ heading_says T E s v /\ leaf_tells T false j v.
  Proof.
    destruct s as [|b|z|d|f|t|d]; intros H; cbn [json_scalar].
    - exists JNull, VNull. repeat constructor.
    - exists (JBool b), (VBool b). repeat constructor.
    - exists (JInt z), (VInt z). repeat constructor.
    - destruct H.
    - destruct f as [n m x|n|]; try (destruct H). destruct (HF n m x) as [v Hv]. exists (JFlt (FFin n m x)), v. split; [reflexivity|]. split; [apply hs_float; exact Hv|]. apply lt_float. apply tl_float. exact Hv.
    - exists (JStr t), (VStr t). repeat constructor.
    - exists (JStr (dt_str E d)), (VStr (dt_str E d)). repeat constructor.
  Qed.
  Lemma list_written {A} (f : A -> R jout) (S : A -> jval -> Prop) l : Forall (fun x => exists j v, f x = Ok j [] /\ S x v /\ out_tells T false j v) l ->
    exists js vs, dump_list f l = Ok js [] /\ Forall2 S l vs /\ Forall2 (out_tells T false) js vs.
  Proof.
    induction 1 as [|x l (j & v & Ej & Hs & Ht) _ (js & vs & Ejs & Hss & Hts)]; [exists [], []; repeat constructor|].
    exists (j :: js), (v :: vs). change (dump_list f (x :: l)) with (y <- f x ;; r <- dump_list f l ;; ret (y :: r)). rewrite Ej. cbn [bind]. rewrite Ejs. split; [reflexivity|]. split; constructor; assumption.
  Qed.
  Lemma items_written {A} (f : A -> R jout) (S : A -> jval -> Prop) d : Forall (fun kx => exists j v, f (snd kx) = Ok j [] /\ S (snd kx) v /\ out_tells T false j v) d ->
    exists js vs, dump_items f d = Ok js [] /\ Forall2 (fun kx ky => fst kx = fst ky /\ S (snd kx) (snd ky)) d vs /\
      Forall2 (fun kx ky => fst kx = fst ky /\ out_tells T false (snd kx) (snd ky)) js vs.
  Proof.
    induction 1 as [|[k x] d (j & v & Ej & Hs & Ht) _ (js & vs & Ejs & Hss & Hts)]; [exists [], []; repeat constructor|]. cbn [snd] in *.
    exists ((k, j) :: js), ((k, v) :: vs). unfold dump_items in *.
    match goal with |- context [dump_list ?g ((k, x) :: d)] => change (dump_list g ((k, x) :: d)) with (y <- g (k, x) ;; r <- dump_list g d ;; ret (y :: r)) end.
    cbn [fst snd]. rewrite Ej. cbn [bind]. rewrite Ejs. split; [reflexivity|]. split; constructor; try assumption; split; (reflexivity || assumption).
  Qed.
  Lemma cell_written l : common_heading (l_heading l) -> exists j v, cell_json E l = Ok j [] /\ cell_said T E l v /\ out_tells T false j v.
  Proof.
    intros H. destruct (heading_written _ H) as (j & v & Ej & Hs & Ht). unfold cell_json. rewrite Ej.
    exists (OArr [text_leaf (l_sheet l); text_leaf (l_col l); number_leaf (l_row l); OLeaf j]), (VArr [VStr (l_sheet l); VStr (l_col l); VInt (Z.of_N (l_row l)); v]).
    split; [reflexivity|]. split; [exists v; split; [exact Hs|reflexivity]|]. apply ot_array. repeat (constructor; [constructor; (constructor || exact Ht)|]). constructor.
  Qed.
  Lemma row_written x : exists j v, row_json x = Ok j [] /\ row_said x v /\ out_tells T false j v.
  Proof.
    exists (OArr [text_leaf (fst x); number_leaf (snd x)]), (VArr [VStr (fst x); VInt (Z.of_N (snd x))]).
    split; [reflexivity|]. split; [reflexivity|]. apply ot_array. repeat (constructor; [constructor; constructor|]). constructor.
  Qed.
  Lemma heading_pair_written x : common_heading (snd x) -> exists j v, heading_json E x = Ok j [] /\ heading_said T E x v /\ out_tells T false j v.
  Proof.
    intros H. destruct (heading_written _ H) as (j & v & Ej & Hs & Ht). unfold heading_json. rewrite Ej.
    exists (OArr [text_leaf (fst x); OLeaf j]), (VArr [VStr (fst x); v]). split; [reflexivity|]. split; [exists v; split; [exact Hs|reflexivity]|].
    apply ot_array. constructor; [constructor; constructor|]. constructor; [constructor; exact Ht|constructor].
  Qed.
  (** the text of the cell source map says the map *)
  Theorem cells_text_says m : (forall k ls l, In (k, ECells ls) m -> In l ls -> common_heading (l_heading l)) ->
    exists t v, cells_text T E m = Ok t [] /\ cells_said T E m v /\ document_says false t v.
  Proof.
    intros H. destruct (items_written (entry_json E) (entry_said T E) m) as (js & vs & Ej & Hs & Ht).
    { apply Forall_forall. intros [k e] He. cbn [snd]. destruct e as [l|l]; cbn [entry_json].
      - destruct (list_written (cell_json E) (cell_said T E) l) as (js & vs & Ej & Hs & Ht).
        { apply Forall_forall. intros x Hx. apply cell_written. exact (H k l x He Hx). }
        exists (OArr js), (VArr vs). rewrite Ej. split; [reflexivity|]. split; constructor; assumption.
      - destruct (list_written row_json row_said l) as (js & vs & Ej & Hs & Ht).
        { apply Forall_forall. intros x _. apply row_written. }
        exists (OArr js), (VArr vs). rewrite Ej. split; [reflexivity|]. split; constructor; assumption. }
    exists (json_text T (OObj js)), (VObj vs). unfold cells_text, cells_json. rewrite Ej. split; [reflexivity|]. split; [exists vs; split; [reflexivity|exact Hs]|].
    apply text_says. constructor. exact Ht.
  Qed.
  Theorem heads_text_says m : (forall k hs s x, In (k, hs) m -> In (s, x) hs -> common_heading x) ->
    exists t v, heads_text T E m = Ok t [] /\ heads_said T E m v /\ document_says false t v.
  Proof.
    intros H. destruct (items_written (fun l => x <- dump_list (heading_json E) l ;; ret (OArr x)) (fun hs v => exists vs, v = VArr vs /\ Forall2 (heading_said T E) hs vs) m) as (js & vs & Ej & Hs & Ht).
    { apply Forall_forall. intros [k hs] He. cbn [snd].
      destruct (list_written (heading_json E) (heading_said T E) hs) as (js & vs & Ej & Hs & Ht).
      { apply Forall_forall. intros [s x] Hx. apply heading_pair_written. exact (H k hs s x He Hx). }
      exists (OArr js), (VArr vs). rewrite Ej. split; [reflexivity|]. split; [exists vs; auto|constructor; assumption]. }
    exists (json_text T (OObj js)), (VObj vs). unfold heads_text, heads_json. rewrite Ej. split; [reflexivity|]. split; [exists vs; split; [reflexivity|exact Hs]|].
    apply text_says. constructor. exact Ht.
  Qed.
End Texts.
