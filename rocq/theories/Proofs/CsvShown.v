(** Tables in CSV files, and the sheets that are read. *)
From Coq Require Import Permutation Lia Sorted.
From Verif.Base Require Import PyStr PyNum PyVal PyDict Outcome.
From Verif.Model Require Import Warn Lib Convert Input Flatten Readers Csv Output.
From Verif.Spec Require Import Flat Sites Paths Headings Grids CsvText Written RoundTrip Trip.
From Verif.Proofs Require Import FlattenRun RtMain RtTrip RtState RtRun RtOrder OutputFacts CsvFiles Trip.

Section Shown.
  Variables (W : wopts) (E : wenv) (s : pst).
  Hypothesis Hn : NoDup (w_main W :: map tb_name (sub_tables s)).
  Hypothesis Hf : Forall (fine W E) (named (w_main W) (main_table s) :: sub_tables s).
  Hypothesis Hk : forall t row, In t (tables s) -> In row (tb_rows t) -> NoDup (map fst row).
  Hypothesis Hc : forall t row h v, In t (tables s) -> In row (tb_rows t) -> sget h row = Some v -> exists c, v = JS c.
  Hypothesis Hh : forall t row, In t (tables s) -> In row (tb_rows t) -> tb_header t <> [].

  Lemma line_shown t row ls : In t (tables s) -> In row (tb_rows t) ->
    Forall2 (fun h hv => exists v, Written.has_value row h v /\ hv = (SStr h, SStr (text_of E v))) (tb_header t) ls ->
    ls = table_line (csv_cell E) (SStr []) (tb_header t) row.
  Proof.
    intros Ht Hr. pose proof (Hk t row Ht Hr) as N.
    generalize (tb_header t). intros hs F. unfold table_line. induction F as [|h hv hs ls (v & Hv & ->) F IH]; [reflexivity|]. cbn [map]. f_equal; [|exact IH]. f_equal.
    rewrite (has_value_get row h v N Hv). unfold get_value. destruct (sget h row) as [v0|] eqn:Ev; [|reflexivity]. destruct (Hc t row h v0 Ht Hr Ev) as (c & ->). reflexivity.
  Qed.
  Lemma one_shown t t' x : In t (tables s) -> alike t t' -> si_headings x = Some (map SStr (tb_header t')) -> (tb_header t' <> [] -> same_lines E t' (si_lines x)) -> (tb_header t' = [] -> si_lines x = []) ->
    table_shown (csv_cell E) (SStr []) t x.
  Proof.
    intros Ht (Eh & Er) H1 H2 H3. unfold same_lines in H2. rewrite Eh, Er in *. split; [right; exact H1|].
    assert (D : tb_header t = [] \/ tb_header t <> []) by (destruct (tb_header t); [left; reflexivity|right; discriminate]). destruct D as [D|D].
    - rewrite (H3 D). destruct (tb_rows t) as [|row rows] eqn:Q; [reflexivity|]. exfalso. apply (Hh t row Ht); [rewrite Q; left; reflexivity|exact D].
    - specialize (H2 D). assert (A : forall row, In row (tb_rows t) -> In row (tb_rows t)) by auto. revert A H2. generalize (tb_rows t) at 1 3 4. generalize (si_lines x). intros ls rows A F. induction F as [|row l rows ls Hrow F IH]; [reflexivity|].
      cbn [map]. f_equal; [apply (line_shown t row l Ht (A row (or_introl eq_refl)) Hrow)|apply IH; intros r' Hr'; apply A; right; exact Hr'].
  Qed.
  Theorem csv_shown rd : reads W s rd ->
    exists fs b sheets T T', write_csv_files W E (main_table s) (sub_tables s) [] = Ok fs [] /\ csv_book (w_output W) fs = Ok b [] /\ read_book Csv rd b = Ok sheets [] /\ NoDup (map si_name sheets) /\
      Permutation (named (w_main W) (main_table s) :: sub_tables s) T' /\ StronglySorted (fun a b => not_after (w_prefix W ++ tb_name a) (w_prefix W ++ tb_name b)) T' /\
      Permutation (tables s) T /\ Forall2 alike T T' /\ Forall2 (table_shown (csv_cell E) (SStr [])) T sheets.
  Proof.
    intros (B & I & X).
    destruct (csv_tables_read W E (main_table s) (sub_tables s) rd Hn Hf) as (fs & b & sheets & T' & H1 & H2 & H3 & H4 & H5 & H6); [|exact B|exact I|].
    { intros x [<-|Hx]; apply X; [left; reflexivity|right; apply in_map; exact Hx]. }
    assert (F0 : Forall2 alike (named (w_main W) (main_table s) :: sub_tables s) (tables s)).
    { constructor; [split; reflexivity|]. clear. induction (sub_tables s) as [|t l IH]; [constructor|]. constructor; [split; reflexivity|exact IH]. }
    destruct (Forall2_perm _ _ _ H4 _ F0) as (T & P1 & F1).
    exists fs, b, sheets, T, T'. split; [exact H1|]. split; [exact H2|]. split; [exact H3|]. split.
    { assert (En : map si_name sheets = map (fun x => w_prefix W ++ tb_name x) T') by (clear -H6; induction H6 as [|x y T l (Hx & _) _ IH]; [reflexivity|]; cbn [map]; f_equal; [exact Hx|exact IH]).
      rewrite En, <- (map_map tb_name (fun n => w_prefix W ++ n)). apply FinFun.Injective_map_NoDup; [intros a c; apply app_inv_head|].
      eapply Permutation_NoDup; [apply Permutation_map; exact H4|exact Hn]. }
    split; [exact H4|]. split; [exact H5|]. split; [exact P1|].
    assert (Hin : forall t, In t T -> In t (tables s)) by (intros t Ht; apply (Permutation_in t (Permutation_sym P1) Ht)). clear H3 H4 H5 P1 F0.
    revert T F1 Hin. induction H6 as [|t' x T' sheets (_ & Hx & Hl & He) F IH]; intros T F1 Hin; inversion F1 as [|? t ? T0 [A1 A2] F2]; subst; [split; constructor|].
    destruct (IH T0 F2 (fun z Hz => Hin z (or_intror Hz))) as [R1 R2]. split; constructor; auto; [split; congruence|]. apply (one_shown t t' x); [apply Hin; left; reflexivity|split; congruence|exact Hx|exact Hl|exact He].
  Qed.
  (** the main table is read first when its name is the first *)
  Theorem main_shown T T' sheets : (forall n, In n (map tb_name (sub_tables s)) -> not_after (w_main W) n) ->
    Permutation (named (w_main W) (main_table s) :: sub_tables s) T' -> StronglySorted (fun a b => not_after (w_prefix W ++ tb_name a) (w_prefix W ++ tb_name b)) T' ->
    Forall2 alike T T' -> Forall2 (table_shown (csv_cell E) (SStr [])) T sheets ->
    exists T1, Permutation (sub_tables s) T1 /\ StronglySorted (fun x y => not_after (tb_name x) (tb_name y)) T1 /\ Forall2 (table_shown (csv_cell E) (SStr [])) (main_table s :: T1) sheets.
  Proof.
    intros M HP' HS Hal H5.
    assert (G : exists T1, T' = named (w_main W) (main_table s) :: T1 /\ Permutation (sub_tables s) T1).
    { destruct T' as [|x T1]; [apply Permutation_sym, Permutation_nil_cons in HP'; contradiction|].
      assert (x = named (w_main W) (main_table s)) as ->.
      { pose proof (Permutation_in x (Permutation_sym HP') (or_introl eq_refl)) as Hx. destruct Hx as [Hx|Hx]; [auto|]. exfalso.
        pose proof (Permutation_in (named (w_main W) (main_table s)) HP' (or_introl eq_refl)) as Hm. destruct Hm as [Hm|Hm].
        - inversion Hn as [|? ? N1 _]; subst. apply N1. replace (w_main W) with (tb_name (named (w_main W) (main_table s))) at 1 by reflexivity. apply in_map. exact Hx.
        - inversion HS as [|? ? _ F]; subst. rewrite Forall_forall in F. specialize (F _ Hm). apply not_after_app in F. pose proof (M (tb_name x) (in_map tb_name _ _ Hx)) as F'. pose proof (not_after_anti _ _ F F') as Q. cbn [named tb_name] in Q.
          inversion Hn as [|? ? N1 _]; subst. apply N1. rewrite <- Q. apply in_map. exact Hx. }
      exists T1. split; [reflexivity|]. apply Permutation_cons_inv in HP'. exact HP'. }
    destruct G as (T1 & -> & HP1). exists T1. split; [exact HP1|]. split.
    - inversion HS as [|? ? S F']; subst. clear -S. induction S as [|x T1 S IH F]; constructor; [exact IH|]. eapply Forall_impl; [|exact F]. intros y. apply not_after_app.
    - clear -Hal H5. 
      assert (K : forall t t' x, alike t t' -> table_shown (csv_cell E) (SStr []) t x -> table_shown (csv_cell E) (SStr []) t' x) by (intros t t' x [A1 A2] [B1 B2]; unfold table_shown, reads_headings in *; rewrite A1, A2; auto).
      inversion Hal as [|t0 ? T0 ? A0 F0]; subst. inversion H5 as [|? x ? xs X0 G0]; subst. constructor.
      + apply (K t0); [|exact X0]. destruct A0 as [A1 A2]. split; [exact A1|exact A2].
      + clear -F0 G0 K. revert xs G0. induction F0 as [|t t' T0 T1 A F IH]; intros xs G; inversion G; subst; constructor; eauto.
  Qed.
End Shown.
