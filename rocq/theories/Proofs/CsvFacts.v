(** CSV text: writing and reading back. *)
From Coq Require Import Lia.
From Verif.Base Require Import PyStr PyNum PyVal PyDict Outcome.
From Verif.Model Require Import Warn Lib Readers Csv.
From Verif.Spec Require Import CsvText.

(** ** Lines *)
Lemma text_lines_nil_iff s : text_lines s = [] <-> s = [].
Proof.
  destruct s as [|c s]; [tauto|]. split; [|discriminate]. simpl. destruct (c =? lf)%N; [discriminate|]. destruct (text_lines s); discriminate.
Qed.
Lemma text_lines_lf s : text_lines (lf :: s) = [lf] :: text_lines s.
Proof. reflexivity. Qed.
Lemma text_lines_char c s : c <> lf -> s <> [] -> exists l ls, text_lines s = l :: ls /\ text_lines (c :: s) = (c :: l) :: ls.
Proof.
  intros Hc Hs. simpl. destruct (N.eqb_spec c lf) as [|_]; [contradiction|].
  destruct (text_lines s) as [|l ls] eqn:E; [apply text_lines_nil_iff in E; contradiction|]. eauto.
Qed.
(** texts that are empty or end in a line feed *)
Fixpoint ended (s : str) : bool := match s with [] => true | [c] => (c =? lf)%N | _ :: s' => ended s' end.
Lemma ended_cons c s : s <> [] -> ended (c :: s) = ended s.
Proof. destruct s; [contradiction|reflexivity]. Qed.
Lemma ended_app a b : b <> [] -> ended (a ++ b) = ended b.
Proof.
  intros Hb. induction a as [|c a IH]; [reflexivity|]. cbn [app]. rewrite ended_cons; [exact IH|]. destruct a; [exact Hb|discriminate].
Qed.
Lemma drop_nul_ended s : ended s = true -> s <> [] -> drop_nul s <> [].
Proof.
  induction s as [|c s IH]; intros E H; [contradiction|]. destruct s as [|c' s].
  - simpl in E. apply N.eqb_eq in E as ->. discriminate.
  - rewrite ended_cons in E by discriminate. specialize (IH E ltac:(discriminate)). unfold drop_nul in *. cbn [filter]. destruct (negb (c =? 0)%N); [discriminate|exact IH].
Qed.
Lemma drop_nul_lines s : ended s = true -> map drop_nul (text_lines s) = text_lines (drop_nul s).
Proof.
  induction s as [|c s IH]; intros E; [reflexivity|]. destruct (N.eqb_spec c lf) as [->|N].
  - rewrite text_lines_lf. cbn [map]. change (drop_nul (lf :: s)) with (lf :: drop_nul s). rewrite text_lines_lf. f_equal. apply IH. destruct s; [reflexivity|rewrite ended_cons in E; [exact E|discriminate]].
  - destruct s as [|c' s]; [simpl in E; apply N.eqb_eq in E; contradiction|]. rewrite ended_cons in E by discriminate. specialize (IH E).
    destruct (text_lines_char c (c' :: s) N ltac:(discriminate)) as (l & ls & E1 & E2). rewrite E2. rewrite E1 in IH. cbn [map] in *.
    assert (Hd : drop_nul (c' :: s) <> []) by (apply drop_nul_ended; [exact E|discriminate]).
    destruct (N.eqb_spec c 0) as [->|N0].
    + change (drop_nul (0%N :: c' :: s)) with (drop_nul (c' :: s)). rewrite <- IH. reflexivity.
    + assert (E3 : forall x, drop_nul (c :: x) = c :: drop_nul x) by (intros x; unfold drop_nul; cbn [filter]; destruct (N.eqb_spec c 0); [contradiction|reflexivity]).
      rewrite !E3. destruct (text_lines_char c (drop_nul (c' :: s)) N Hd) as (l' & ls' & E4 & E5). rewrite E5. rewrite E4 in IH. injection IH as <- <-. reflexivity.
Qed.

(** ** The reader, character by character *)
Definition rr (s : str) (r : creader) : R (list (list str)) := read_records (text_lines s) r.
Lemma rr_char c s r r' : c <> lf -> s <> [] -> process_char (Some c) r = Ok r' [] -> rr (c :: s) r = rr s r'.
Proof.
  intros Hc Hs H. unfold rr. destruct (text_lines_char c s Hc Hs) as (l & ls & E1 & E2). rewrite E1, E2. cbn [read_records process_line]. rewrite H.
  change (Ok r' []) with (@ret warning _ r'). rewrite bind_ret_l. reflexivity.
Qed.
Lemma rr_lf s r r1 r2 : process_char (Some lf) r = Ok r1 [] -> process_char None r1 = Ok r2 [] ->
  rr (lf :: s) r = match cr_state r2 with StartRecord => bind (rr s cr_start) (fun rows => ret (rev (cr_fields r2) :: rows)) | _ => rr s r2 end.
Proof.
  intros H1 H2. unfold rr. rewrite text_lines_lf. cbn [read_records process_line]. rewrite H1. change (Ok r1 []) with (@ret warning _ r1). rewrite bind_ret_l, H2.
  change (Ok r2 []) with (@ret warning _ r2). rewrite bind_ret_l. reflexivity.
Qed.

Definition at_state (st : cstate) (x : str) (fs : list str) : creader :=
  {| cr_state := st; cr_field := rev x; cr_len := N.of_nat (length x); cr_fields := fs |}.
Lemma add_char_ok c st st' x fs : (N.of_nat (length x) < field_limit)%N -> add_char c st (at_state st' x fs) = Ok (at_state st (x ++ [c]) fs) [].
Proof.
  intros H. unfold add_char, at_state. cbn [cr_len cr_field cr_fields]. destruct (N.leb_spec field_limit (N.of_nat (length x))); [lia|].
  unfold ret. f_equal. f_equal; [rewrite rev_app_distr; reflexivity|]. rewrite app_length. simpl. lia.
Qed.

Definition plain (c : N) : Prop := special c = false.
Lemma plain_facts c : plain c -> (c =? comma)%N = false /\ (c =? dquote)%N = false /\ is_newline c = false.
Proof. unfold plain, special, is_newline. rewrite !orb_false_iff. tauto. Qed.
Lemma plain_not_lf c : plain c -> c <> lf.
Proof. intros H. destruct (plain_facts c H) as (_ & _ & E). unfold is_newline in E. apply orb_false_iff in E as [E _]. apply N.eqb_neq. exact E. Qed.

(** an unquoted field *)
Lemma rr_plain y : Forall plain y -> forall x s fs, (N.of_nat (length x + length y) <= field_limit)%N -> s <> [] ->
  rr (y ++ s) (at_state InField x fs) = rr s (at_state InField (x ++ y) fs).
Proof.
  induction y as [|c y IH]; intros Hy x s fs L Hs; [rewrite app_nil_r; reflexivity|]. inversion Hy as [|? ? Hc Hy']; subst. cbn [app].
  destruct (plain_facts c Hc) as (E1 & E2 & E3). cbn [length] in L.
  rewrite (rr_char c (y ++ s) _ (at_state InField (x ++ [c]) fs)).
  - rewrite IH; [rewrite <- app_assoc; reflexivity|exact Hy'|rewrite app_length; simpl; lia|exact Hs].
  - apply plain_not_lf, Hc.
  - destruct y; [exact Hs|discriminate].
  - unfold process_char. cbn [at_state cr_state]. unfold end_state. rewrite E3, E1. apply (add_char_ok c InField InField). lia.
Qed.
(** the inside of a quoted field *)
Lemma rr_quoted y : forall x s fs, (N.of_nat (length x + length y) <= field_limit)%N -> s <> [] ->
  rr (double_quotes y ++ s) (at_state InQuoted x fs) = rr s (at_state InQuoted (x ++ y) fs).
Proof.
  induction y as [|c y IH]; intros x s fs L Hs; [rewrite app_nil_r; reflexivity|]. cbn [length] in L.
  assert (NE : double_quotes y ++ s <> []) by (destruct (double_quotes y); [exact Hs|discriminate]).
  assert (Next : rr (double_quotes y ++ s) (at_state InQuoted (x ++ [c]) fs) = rr s (at_state InQuoted (x ++ c :: y) fs)).
  { rewrite IH; [rewrite <- app_assoc; reflexivity|rewrite app_length; simpl; lia|exact Hs]. }
  unfold double_quotes. cbn [flat_map]. fold (double_quotes y). destruct (N.eqb_spec c dquote) as [->|Nq].
  - cbn [app]. rewrite (rr_char dquote _ _ (at_state QuoteInQuoted x fs)); [|discriminate|discriminate|reflexivity].
    rewrite (rr_char dquote _ _ (at_state InQuoted (x ++ [dquote]) fs)); [exact Next|discriminate|exact NE|].
    change (process_char (Some dquote) (at_state QuoteInQuoted x fs)) with (add_char dquote InQuoted (at_state QuoteInQuoted x fs)). apply add_char_ok. lia.
  - cbn [app]. destruct (N.eqb_spec c lf) as [->|Nl].
    + rewrite (rr_lf _ _ (at_state InQuoted (x ++ [lf]) fs) (at_state InQuoted (x ++ [lf]) fs)); [exact Next| |reflexivity].
      change (process_char (Some lf) (at_state InQuoted x fs)) with (add_char lf InQuoted (at_state InQuoted x fs)). apply add_char_ok. lia.
    + rewrite (rr_char c _ _ (at_state InQuoted (x ++ [c]) fs)); [exact Next|exact Nl|exact NE|].
      unfold process_char. cbn [at_state cr_state]. destruct (N.eqb_spec c dquote); [contradiction|]. apply (add_char_ok c InQuoted InQuoted). lia.
Qed.

(** a field and what follows *)
Inductive rendered (x : str) : str -> Prop :=
| r_quoted : rendered x (dquote :: double_quotes x ++ [dquote])
| r_plain : Forall plain x -> rendered x x.
Definition short (x : str) : Prop := (N.of_nat (length x) <= field_limit)%N.

Lemma save_at st st' x fs : save_field st (at_state st' x fs) = at_state st [] (x :: fs).
Proof. unfold save_field, at_state. cbn [cr_field cr_fields]. rewrite rev_involutive. reflexivity. Qed.

(** after a field the reader is in one of these states *)
Definition after_field (x : str) (fs : list str) (r : creader) : Prop :=
  r = at_state InField x fs \/ r = at_state QuoteInQuoted x fs \/ (x = [] /\ r = at_state StartField [] fs).
Lemma rr_field x t : rendered x t -> short x -> forall s fs, s <> [] ->
  exists r, after_field x fs r /\ rr (t ++ s) (at_state StartField [] fs) = rr s r.
Proof.
  intros [|Hp] Hl s fs Hs.
  - exists (at_state QuoteInQuoted x fs). split; [right; left; reflexivity|]. cbn [app]. rewrite (rr_char dquote _ _ (at_state InQuoted [] fs)); [|discriminate| |reflexivity].
    + rewrite <- app_assoc. rewrite (rr_quoted x [] ([dquote] ++ s) fs); [|exact Hl|discriminate]. cbn [app]. apply rr_char; [discriminate|exact Hs|reflexivity].
    + destruct (double_quotes x); discriminate.
  - destruct x as [|c x]; [exists (at_state StartField [] fs); split; [right; right; auto|reflexivity]|]. inversion Hp as [|? ? Hc Hp']; subst.
    destruct (plain_facts c Hc) as (E1 & E2 & E3). exists (at_state InField (c :: x) fs). split; [left; reflexivity|]. cbn [app].
    rewrite (rr_char c (x ++ s) _ (at_state InField [c] fs)).
    + apply (rr_plain x Hp' [c] s fs); [exact Hl|exact Hs].
    + apply plain_not_lf, Hc.
    + destruct x; [exact Hs|discriminate].
    + unfold process_char. cbn [at_state cr_state]. unfold in_field_start, end_state. rewrite E3, E2, E1. apply (add_char_ok c InField StartField []). unfold field_limit. simpl. lia.
Qed.
Lemma rr_comma x fs r s : after_field x fs r -> s <> [] -> rr (comma :: s) r = rr s (at_state StartField [] (x :: fs)).
Proof.
  intros H Hs. apply rr_char; [discriminate|exact Hs|]. destruct H as [-> |[-> |[-> ->]]]; cbn; rewrite <- ?save_at with (st' := InField); try reflexivity; cbn; unfold save_field, at_state; cbn; rewrite ?rev_involutive; reflexivity.
Qed.
Lemma rr_end x fs r s : after_field x fs r -> rr (lf :: s) r = bind (rr s cr_start) (fun rows => ret (rev (x :: fs) :: rows)).
Proof.
  intros H. rewrite (rr_lf s r (at_state EatCrnl [] (x :: fs)) (at_state StartRecord [] (x :: fs))); [reflexivity| |reflexivity].
  destruct H as [-> |[-> |[-> ->]]]; cbn; unfold save_field, at_state; cbn; rewrite ?rev_involutive; reflexivity.
Qed.
Lemma rr_fields : forall xs ts, Forall2 rendered xs ts -> Forall short xs -> xs <> [] -> forall s fs,
  rr (join [comma] ts ++ lf :: s) (at_state StartField [] fs) = bind (rr s cr_start) (fun rows => ret (rev (rev xs ++ fs) :: rows)).
Proof.
  induction xs as [|x xs IH]; intros ts F S Hne s fs; [contradiction|]. inversion F as [|? t ? ts' Hx F']; subst. inversion S as [|? ? Sx S']; subst.
  destruct xs as [|x' xs].
  - inversion F'; subst. cbn [join]. destruct (rr_field x t Hx Sx (lf :: s) fs ltac:(discriminate)) as (r & Hr & E). rewrite E. rewrite (rr_end x fs r s Hr). reflexivity.
  - inversion F' as [|? t' ? ts'' Hx' F'']; subst. rewrite join_cons, <- !app_assoc. cbn [app].
    destruct (rr_field x t Hx Sx (comma :: join [comma] (t' :: ts'') ++ lf :: s) fs ltac:(discriminate)) as (r & Hr & E). rewrite E.
    rewrite (rr_comma x fs r); [|exact Hr|destruct (join [comma] (t' :: ts'')); discriminate].
    rewrite (IH (t' :: ts'') F' S' ltac:(discriminate) s (x :: fs)). cbn [rev]. rewrite <- !app_assoc. reflexivity.
Qed.
(** at the start of a record *)
Lemma rr_start_field c s fs : is_newline c = false -> rr (c :: s) (at_state StartRecord [] fs) = rr (c :: s) (at_state StartField [] fs).
Proof.
  intros Hc. unfold rr. assert (N : (c =? lf)%N = false) by (unfold is_newline in Hc; apply orb_false_iff in Hc; tauto). simpl text_lines. rewrite N.
  assert (P : process_char (Some c) (at_state StartRecord [] fs) = process_char (Some c) (at_state StartField [] fs)) by (unfold process_char; cbn [at_state cr_state]; rewrite Hc; reflexivity).
  destruct (text_lines s) as [|l ls]; cbn [read_records process_line]; rewrite P; reflexivity.
Qed.
Lemma rr_empty s : rr (lf :: s) cr_start = bind (rr s cr_start) (fun rows => ret ([] :: rows)).
Proof. exact (rr_lf s cr_start (at_state EatCrnl [] []) cr_start eq_refl eq_refl). Qed.
(** the first character of a rendered row *)
Lemma rendered_first xs ts : Forall2 rendered xs ts -> ts <> [] -> ts <> [ [] ] -> exists c rest, join [comma] ts = c :: rest /\ is_newline c = false.
Proof.
  intros F N1 N2. destruct F as [|x t xs ts Hx F]; [contradiction|]. destruct t as [|c t].
  - destruct ts as [|t' ts]; [contradiction|]. rewrite join_cons. eexists _, _. split; [reflexivity|reflexivity].
  - exists c. assert (Hc : is_newline c = false). { inversion Hx as [|Hp]; subst; [reflexivity|]. inversion Hp; subst. apply plain_facts. assumption. }
    destruct ts as [|t' ts]; [exists t|]; [auto|]. rewrite join_cons. eexists. split; [reflexivity|exact Hc].
Qed.
Lemma rr_row xs ts s : Forall2 rendered xs ts -> Forall short xs -> ts <> [ [] ] ->
  rr (join [comma] ts ++ lf :: s) cr_start = bind (rr s cr_start) (fun rows => ret (xs :: rows)).
Proof.
  intros F S N. destruct xs as [|x xs].
  - inversion F; subst. apply rr_empty.
  - destruct ts as [|t ts]; [inversion F|]. destruct (rendered_first _ _ F ltac:(discriminate) N) as (c & rest & E & Hc).
    pose proof (rr_fields (x :: xs) (t :: ts) F S ltac:(discriminate) s []) as G. rewrite E in *. cbn [app] in *. change cr_start with (at_state StartRecord [] []) at 1.
    rewrite rr_start_field by exact Hc. rewrite G, app_nil_r, rev_involutive. reflexivity.
Qed.

(** ** What newline translation does to what is written *)
Definition translated (s : str) : str := drop_nul (newlines s).
Lemma newlines_nocr s : ~ In cr s -> newlines s = s.
Proof.
  induction s as [|c s IH]; intros H; [reflexivity|]. simpl. destruct (N.eqb_spec c cr) as [->|]; [exfalso; apply H; left; reflexivity|].
  rewrite IH; [reflexivity|]. intros Q. apply H. right. exact Q.
Qed.
Lemma newlines_cons c s : c <> cr -> newlines (c :: s) = c :: newlines s.
Proof. intros H. simpl. destruct (N.eqb_spec c cr); [contradiction|reflexivity]. Qed.
Lemma newlines_cr s : hd_error s <> Some lf -> newlines (cr :: s) = lf :: newlines s.
Proof. intros H. simpl. destruct s as [|c s]; [reflexivity|]. destruct (N.eqb_spec c lf) as [->|]; [exfalso; apply H; reflexivity|reflexivity]. Qed.
Lemma newlines_crlf s : newlines (cr :: lf :: s) = lf :: newlines s.
Proof. reflexivity. Qed.
(** induction two characters at a time *)
Lemma str_ind2 (P : list N -> Prop) : P [] -> (forall c, P [c]) -> (forall c d s, P s -> P (d :: s) -> P (c :: d :: s)) -> forall s : list N, P s.
Proof.
  intros H0 H1 H2. assert (forall s, P s /\ forall c, P (c :: s)) as H; [|intros s; apply H].
  induction s as [|d s [A B]]; [split; [exact H0|exact H1]|]. split; [apply B|]. intros c. apply H2; [exact A|apply B].
Qed.
Lemma newlines_app a b : hd_error b <> Some lf -> newlines (a ++ b) = newlines a ++ newlines b.
Proof.
  intros Hb. induction a as [|c|c d a IHa IHd] using str_ind2; [reflexivity| |].
  - cbn [app]. destruct (N.eqb_spec c cr) as [->|N]; [rewrite !newlines_cr; [reflexivity|discriminate|exact Hb]|rewrite !newlines_cons by exact N; reflexivity].
  - cbn [app] in *. destruct (N.eqb_spec c cr) as [->|N].
    + destruct (N.eqb_spec d lf) as [->|N'].
      * rewrite !newlines_crlf, IHa. reflexivity.
      * assert (Q : forall x, hd_error (d :: x) <> Some lf) by (intros x E; cbn in E; injection E as E; contradiction).
        rewrite !newlines_cr by apply Q. rewrite IHd. reflexivity.
    + rewrite !(newlines_cons c) by exact N. rewrite IHd. reflexivity.
Qed.
(** a carriage return at the end only matters if a line feed follows *)
Lemma newlines_app_nocr a b : ~ In cr a -> newlines (a ++ b) = a ++ newlines b.
Proof.
  induction a as [|c a IH]; intros H; [reflexivity|]. cbn [app]. rewrite newlines_cons by (intros ->; apply H; left; reflexivity).
  rewrite IH; [reflexivity|intros Q; apply H; right; exact Q].
Qed.
Lemma drop_nul_app a b : drop_nul (a ++ b) = drop_nul a ++ drop_nul b.
Proof. apply filter_app. Qed.
Lemma double_app a b : double_quotes (a ++ b) = double_quotes a ++ double_quotes b.
Proof. unfold double_quotes. apply flat_map_app. Qed.
Lemma double_cons c s : c <> dquote -> double_quotes (c :: s) = c :: double_quotes s.
Proof. intros H. unfold double_quotes. cbn [flat_map]. destruct (N.eqb_spec c dquote); [contradiction|reflexivity]. Qed.
Lemma double_quote s : double_quotes (dquote :: s) = dquote :: dquote :: double_quotes s.
Proof. reflexivity. Qed.
Lemma double_hd s : hd_error (double_quotes s) = hd_error s.
Proof. destruct s as [|c s]; [reflexivity|]. unfold double_quotes. cbn [flat_map]. destruct (c =? dquote)%N; reflexivity. Qed.
Lemma newlines_double s : newlines (double_quotes s) = double_quotes (newlines s).
Proof.
  induction s as [|c|c d s IHs IHd] using str_ind2; [reflexivity| |].
  - destruct (N.eqb_spec c dquote) as [->|N]; [reflexivity|]. rewrite double_cons by exact N. destruct (N.eqb_spec c cr) as [->|N']; [reflexivity|].
    rewrite !newlines_cons by exact N'. rewrite double_cons by exact N. reflexivity.
  - destruct (N.eqb_spec c dquote) as [->|N].
    + rewrite double_quote, !newlines_cons by discriminate. rewrite double_quote. rewrite IHd. reflexivity.
    + rewrite double_cons by exact N. destruct (N.eqb_spec c cr) as [->|N'].
      * destruct (N.eqb_spec d lf) as [->|Nd].
        -- rewrite (double_cons lf) by discriminate. rewrite !newlines_crlf. rewrite (double_cons lf) by discriminate. rewrite IHs. reflexivity.
        -- rewrite !newlines_cr; [|intros E; cbn in E; injection E as E; contradiction|rewrite double_hd; intros E; cbn in E; injection E as E; contradiction].
           rewrite (double_cons lf) by discriminate. rewrite IHd. reflexivity.
      * rewrite !(newlines_cons c) by exact N'. rewrite (double_cons c) by exact N. rewrite IHd. reflexivity.
Qed.
Lemma drop_double s : drop_nul (double_quotes s) = double_quotes (drop_nul s).
Proof.
  induction s as [|c s IH]; [reflexivity|]. destruct (N.eqb_spec c dquote) as [->|N].
  - rewrite double_quote. change (drop_nul (dquote :: s)) with (dquote :: drop_nul s). rewrite double_quote, <- IH. reflexivity.
  - rewrite double_cons by exact N. unfold drop_nul in *. cbn [filter]. destruct (negb (c =? 0)%N); [rewrite double_cons by exact N; rewrite IH; reflexivity|exact IH].
Qed.
Lemma plain_drop x : Forall plain x -> Forall plain (drop_nul x).
Proof. intros H. unfold drop_nul. apply Forall_forall. intros c Hc. apply filter_In in Hc as [Hc _]. rewrite Forall_forall in H. apply H, Hc. Qed.
Lemma not_special s : existsb special s = false -> Forall plain s.
Proof.
  intros H. apply Forall_forall. intros c Hc. unfold plain. destruct (special c) eqn:E; [|reflexivity]. exfalso.
  assert (existsb special s = true) by (apply existsb_exists; exists c; auto). congruence.
Qed.
Lemma plain_nocr s : Forall plain s -> ~ In cr s.
Proof. intros H Q. rewrite Forall_forall in H. specialize (H _ Q). discriminate H. Qed.

(** the translated field; it never ends in an unfinished carriage return *)
Lemma field_nice f b : hd_error b <> Some lf -> newlines (write_field f ++ b) = newlines (write_field f) ++ newlines b.
Proof. intros H. apply newlines_app. exact H. Qed.
Lemma translated_field f : rendered (translated f) (translated (write_field f)).
Proof.
  unfold write_field. destruct (existsb special f) eqn:E.
  - unfold translated. cbn [app]. rewrite newlines_cons by discriminate. rewrite newlines_app by discriminate. rewrite newlines_double.
    change (drop_nul (dquote :: ?x)) with (dquote :: drop_nul x). rewrite drop_nul_app, drop_double. apply r_quoted.
  - apply not_special in E. apply r_plain. unfold translated. rewrite newlines_nocr by (apply plain_nocr, E). apply plain_drop, E.
Qed.
(** the end of a written field *)
Lemma write_field_crlf f b : newlines (write_field f ++ cr :: lf :: b) = newlines (write_field f) ++ lf :: newlines b.
Proof.
  unfold write_field. destruct (existsb special f) eqn:E.
  - cbn [app]. rewrite !newlines_cons by discriminate. rewrite <- app_assoc. cbn [app]. rewrite newlines_app by discriminate. rewrite (newlines_cons dquote) by discriminate. rewrite newlines_crlf.
    rewrite newlines_app by discriminate. rewrite <- app_assoc. reflexivity.
  - apply not_special, plain_nocr in E. rewrite newlines_app_nocr by exact E. rewrite newlines_crlf, (newlines_nocr f) by exact E. reflexivity.
Qed.
Lemma write_field_lf f b : newlines (write_field f ++ lf :: b) = newlines (write_field f) ++ lf :: newlines b.
Proof.
  unfold write_field. destruct (existsb special f) eqn:E.
  - cbn [app]. rewrite !newlines_cons by discriminate. rewrite <- app_assoc. cbn [app]. rewrite newlines_app by discriminate. rewrite (newlines_cons dquote) by discriminate. rewrite (newlines_cons lf) by discriminate.
    rewrite newlines_app by discriminate. rewrite <- app_assoc. reflexivity.
  - apply not_special, plain_nocr in E. rewrite newlines_app_nocr by exact E. rewrite (newlines_cons lf) by discriminate. rewrite (newlines_nocr f) by exact E. reflexivity.
Qed.
Lemma newlines_term t b : newlines (term_str t ++ b) = lf :: newlines b.
Proof. destruct t; reflexivity. Qed.
Lemma join_term t fs b : newlines (join [comma] (map write_field fs) ++ term_str t ++ b) = join [comma] (map (fun f => newlines (write_field f)) fs) ++ lf :: newlines b.
Proof.
  induction fs as [|f fs IH]; [apply newlines_term|]. destruct fs as [|f' fs].
  - cbn [map join]. destruct t; cbn [term_str app]; [apply write_field_lf|apply write_field_crlf].
  - cbn [map] in *. rewrite !join_cons, <- !app_assoc. rewrite field_nice by discriminate. cbn [app]. rewrite newlines_cons by discriminate. rewrite <- IH. reflexivity.
Qed.
Lemma drop_join l b : drop_nul (join [comma] l ++ b) = join [comma] (map drop_nul l) ++ drop_nul b.
Proof.
  rewrite drop_nul_app. f_equal. induction l as [|x l IH]; [reflexivity|]. destruct l as [|y l]; [reflexivity|]. cbn [map] in *. rewrite !join_cons, !drop_nul_app. rewrite IH. reflexivity.
Qed.

(** ** A file *)
(** rows that can be told from an empty line *)
Definition visible (row : list str) : Prop := forall f, row = [f] -> f = [] \/ translated f <> [].
Lemma row_translated t row b : visible row ->
  exists ts, Forall2 rendered (map translated row) ts /\ ts <> [ [] ] /\ translated (write_row t row ++ b) = join [comma] ts ++ lf :: translated b.
Proof.
  intros V. destruct (list_eq_dec (list_eq_dec N.eq_dec) row [ [] ]) as [->|N].
  - exists [[dquote; dquote]]. split; [repeat constructor; exact (r_quoted [])|]. split; [discriminate|]. unfold translated, write_row. cbn [app join]. rewrite !newlines_cons by discriminate. rewrite newlines_term. reflexivity.
  - exists (map (fun f => translated (write_field f)) row). split; [|split].
    + induction row as [|f row IH]; cbn [map]; constructor; [apply translated_field|]. clear. induction row as [|f row IH]; cbn [map]; constructor; [apply translated_field|exact IH].
    + intros E. destruct row as [|f [|? ?]]; [discriminate|cbn in E; injection E as E|discriminate]. destruct (V f eq_refl) as [-> |Q]; [contradiction|].
      pose proof (translated_field f) as R. rewrite E in R. inversion R as [|P E2]; congruence.
    + assert (E : write_row t row = join [comma] (map write_field row) ++ term_str t) by (unfold write_row; destruct row as [|[|] [|]]; try reflexivity; contradiction).
      rewrite E, <- app_assoc. unfold translated. rewrite join_term. rewrite drop_join. rewrite map_map. reflexivity.
Qed.
Lemma write_row_lf t row : exists p, write_row t row = p ++ [lf].
Proof.
  unfold write_row. destruct t; [eexists; reflexivity|]. exists (match row with [ [] ] => [dquote; dquote] | _ => join [comma] (map write_field row) end ++ [cr]). rewrite <- app_assoc. reflexivity.
Qed.
Lemma read_translated : forall rows t, Forall visible rows -> Forall (fun row => Forall (fun f => short (translated f)) row) rows ->
  rr (translated (write_csv t rows)) cr_start = Ok (map (map translated) rows) [].
Proof.
  induction rows as [|row rows IH]; intros t V S; [reflexivity|]. inversion V as [|? ? Vr V']; subst. inversion S as [|? ? Sr S']; subst. unfold write_csv. cbn [flat_map].
  destruct (row_translated t row (write_csv t rows) Vr) as (ts & F & N & E). unfold write_csv in E. rewrite E. rewrite (rr_row (map translated row) ts); [|exact F| |exact N].
  - fold (write_csv t rows). rewrite (IH t V' S'). reflexivity.
  - rewrite Forall_map. exact Sr.
Qed.
Lemma newlines_ended s : ended s = true -> ended (newlines s) = true.
Proof.
  induction s as [|c|c d s IHs IHd] using str_ind2; [reflexivity| |].
  - intros H. simpl in H. apply N.eqb_eq in H as ->. reflexivity.
  - intros H. rewrite ended_cons in H by discriminate. destruct (N.eqb_spec c cr) as [->|N].
    + destruct (N.eqb_spec d lf) as [->|Nd].
      * rewrite newlines_crlf. destruct s as [|e s]; [reflexivity|]. rewrite ended_cons in H by discriminate. specialize (IHs H). rewrite ended_cons; [exact IHs|]. simpl. destruct (e =? cr)%N; discriminate.
      * rewrite newlines_cr by (intros E; cbn in E; injection E as E; contradiction). specialize (IHd H). rewrite ended_cons; [exact IHd|]. simpl. destruct (d =? cr)%N; discriminate.
    + rewrite newlines_cons by exact N. specialize (IHd H). rewrite ended_cons; [exact IHd|]. simpl. destruct (d =? cr)%N; discriminate.
Qed.
Lemma write_csv_ended t rows : ended (write_csv t rows) = true.
Proof.
  unfold write_csv. induction rows as [|row rows IH]; [reflexivity|]. cbn [flat_map]. destruct (write_row_lf t row) as (p & E). rewrite E.
  destruct (flat_map (write_row t) rows) as [|c s] eqn:Q; [rewrite app_nil_r; rewrite ended_app; [reflexivity|discriminate]|]. rewrite ended_app by discriminate. exact IH.
Qed.
Lemma csv_read : forall rows t, Forall visible rows -> Forall (fun row => Forall (fun f => short (translated f)) row) rows ->
  read_csv (write_csv t rows) = Ok (map (map translated) rows) [].
Proof.
  intros rows t V S. unfold read_csv. rewrite drop_nul_lines by (apply newlines_ended, write_csv_ended). apply (read_translated rows t V S).
Qed.

(** ** The statements *)
Lemma translated_survives s : ~ In cr s -> ~ In 0%N s -> translated s = s.
Proof.
  intros H H0. unfold translated. rewrite newlines_nocr by exact H. unfold drop_nul. induction s as [|c s IH]; [reflexivity|]. cbn [filter].
  destruct (N.eqb_spec c 0) as [->|]; [exfalso; apply H0; left; reflexivity|]. cbn. f_equal. apply IH; intros Q; [apply H|apply H0]; right; exact Q.
Qed.
Lemma csv_round_trip : forall t rows, Forall (Forall survives) rows -> read_csv (write_csv t rows) = Ok rows [].
Proof.
  intros t rows H. assert (E : map (map translated) rows = rows).
  { induction H as [|row rows Hr H IH]; [reflexivity|]. cbn [map]. f_equal; [|exact IH]. clear IH. induction Hr as [|f row Hf Hr IH]; [reflexivity|]. cbn [map]. f_equal; [|exact IH]. destruct Hf as (A & B & _). apply translated_survives; assumption. }
  rewrite csv_read; [rewrite E; reflexivity| |].
  - apply Forall_forall. intros row Hrow f ->. destruct f as [|c f]; [left; reflexivity|right]. rewrite Forall_forall in H. pose proof (H _ Hrow) as Hf. inversion Hf as [|? ? (A & B & _) _]; subst. rewrite translated_survives by assumption. discriminate.
  - eapply Forall_impl; [|exact H]. intros row Hr. eapply Forall_impl; [|exact Hr]. intros f (A & B & C). rewrite translated_survives by assumption. exact C.
Qed.
Lemma read_back_is : forall s s', read_back s s' -> translated s = s'.
Proof.
  unfold translated. induction 1 as [|s s' H IH|s s' H IH|s s' Hh H IH|c s s' N0 N H IH]; [reflexivity| | | |].
  - rewrite newlines_cons by discriminate. exact IH.
  - change 13%N with cr. change 10%N with lf. rewrite newlines_crlf. change (drop_nul (lf :: ?x)) with (lf :: drop_nul x). rewrite IH. reflexivity.
  - change 13%N with cr. rewrite newlines_cr by exact Hh. change (drop_nul (lf :: ?x)) with (lf :: drop_nul x). rewrite IH. reflexivity.
  - rewrite newlines_cons by exact N. unfold drop_nul in *. cbn [filter]. destruct (N.eqb_spec c 0); [contradiction|]. cbn. rewrite IH. reflexivity.
Qed.
Lemma read_back_total : forall s, read_back s (translated s).
Proof.
  assert (Cr : forall s, hd_error s <> Some lf -> translated (cr :: s) = lf :: translated s) by (intros s H; unfold translated; rewrite newlines_cr by exact H; reflexivity).
  assert (Nul : forall s, translated (0%N :: s) = translated s) by (intros s; unfold translated; rewrite newlines_cons by discriminate; reflexivity).
  assert (Oth : forall c s, c <> 0%N -> c <> cr -> translated (c :: s) = c :: translated s).
  { intros c s H0 H. unfold translated. rewrite newlines_cons by exact H. unfold drop_nul. cbn [filter]. destruct (N.eqb_spec c 0); [contradiction|reflexivity]. }
  induction s as [|c|c d s IHs IHd] using str_ind2; [constructor| |].
  - destruct (N.eq_dec c cr) as [->|N]; [rewrite Cr by discriminate; apply rb_cr; [discriminate|constructor]|].
    destruct (N.eq_dec c 0) as [->|N0]; [rewrite Nul; apply rb_nul; constructor|]. rewrite Oth by assumption. apply rb_other; [exact N0|exact N|constructor].
  - destruct (N.eq_dec c cr) as [->|N].
    + destruct (N.eq_dec d lf) as [->|Nd]; [exact (rb_crlf _ _ IHs)|]. assert (Q : hd_error (d :: s) <> Some lf) by (intros E; injection E as E; contradiction). rewrite Cr by exact Q. apply rb_cr; [exact Q|exact IHd].
    + destruct (N.eq_dec c 0) as [->|N0]; [rewrite Nul; apply rb_nul; exact IHd|]. rewrite Oth by assumption. apply rb_other; assumption.
Qed.
(** what is read back, exactly *)
Lemma csv_read_back : forall t rows rows', Forall2 (Forall2 read_back) rows rows' ->
  Forall (fun row => Forall (fun f => (N.of_nat (length f) <= 131072)%N) row) rows' ->
  (forall f, In [f] rows -> f = [] \/ exists c, In c f /\ c <> 0%N) -> read_csv (write_csv t rows) = Ok rows' [].
Proof.
  intros t rows rows' F S V. assert (E : map (map translated) rows = rows').
  { clear V S. induction F as [|row row' rows rows' Hr F IH]; [reflexivity|]. cbn [map]. f_equal; [|exact IH]. clear IH F. induction Hr as [|f f' row row' Hf Hr IH]; [reflexivity|]. cbn [map]. f_equal; [apply read_back_is, Hf|exact IH]. }
  rewrite csv_read; [rewrite E; reflexivity| |].
  - apply Forall_forall. intros row Hrow f ->. destruct (V f Hrow) as [-> |(c & Hc & N)]; [left; reflexivity|right]. intros Q.
    pose proof (read_back_total f) as RB. rewrite Q in RB. clear -Hc N RB. remember [] as e eqn:Ee. induction RB; try discriminate; [destruct Hc|]. destruct Hc as [<-|Hc]; [apply N; reflexivity|auto].
  - rewrite <- E in S. rewrite Forall_map in S. eapply Forall_impl; [|exact S]. intros row Hr. rewrite Forall_map in Hr. exact Hr.
Qed.
