(** Which texts can be written as UTF-8: CSV files and JSON. *)
From Coq Require Import Permutation Lia.
From Verif.Base Require Import PyStr PyNum PyVal PyDict Outcome.
From Verif.Model Require Import Lib Json Flatten Readers Csv Output Commands JsonText Utf8.
From Verif.Spec Require Import Sites Paths JsonGrammar JsonTrip Written Trip Bytes.
From Verif.Proofs Require Import JvInd JsonScan OutputFacts Utf8Facts.
Local Open Scope list_scope.

Lemma low_whole c : (c < 55296)%N -> scalar_value c.
Proof. left. assumption. Qed.
Lemma whole_app a b : whole_chars (a ++ b) <-> whole_chars a /\ whole_chars b.
Proof. unfold whole_chars. apply Forall_app. Qed.
Lemma whole_nil : whole_chars [].
Proof. constructor. Qed.
Lemma whole_low s : Forall (fun c => (c < 55296)%N) s -> whole_chars s.
Proof. apply Forall_impl. intros c. apply low_whole. Qed.

(** ** CSV *)
Lemma doubled_whole s : whole_chars (double_quotes s) <-> whole_chars s.
Proof.
  induction s as [|c s IH]; [reflexivity|]. unfold double_quotes. cbn [flat_map]. fold (double_quotes s). rewrite whole_app, IH. unfold whole_chars at 3. rewrite Forall_cons_iff. fold (whole_chars s).
  destruct (c =? dquote)%N; unfold whole_chars at 1; rewrite ?Forall_cons_iff; intuition constructor.
Qed.
Lemma field_whole s : whole_chars (write_field s) <-> whole_chars s.
Proof.
  unfold write_field. destruct (existsb special s); [|reflexivity]. rewrite !whole_app, doubled_whole. split; [intros (_ & H & _); exact H|]. intros H. split; [apply whole_low; repeat constructor|]. split; [exact H|apply whole_low; repeat constructor].
Qed.
Lemma join_whole c l : scalar_value c -> (whole_chars (join [c] l) <-> Forall whole_chars l).
Proof.
  intros Hc. induction l as [|x l IH]; [split; intros; constructor|]. destruct l as [|y l].
  - cbn [join]. split; [intros H; constructor; [exact H|constructor]|intros H; inversion H; assumption].
  - rewrite join_cons by discriminate. rewrite !whole_app, IH, !Forall_cons_iff. split; [intros (A & _ & B); split; [exact A|exact B]|]. intros (A & B). split; [exact A|]. split; [constructor; [exact Hc|constructor]|exact B].
Qed.
Lemma row_whole t r : whole_chars (write_row t r) <-> Forall whole_chars r.
Proof.
  unfold write_row. rewrite whole_app. assert (whole_chars (term_str t)) as Ht by (apply whole_low; destruct t; repeat constructor).
  assert (G : whole_chars (join [comma] (map write_field r)) <-> Forall whole_chars r).
  { rewrite join_whole by (apply low_whole; reflexivity). rewrite Forall_map. split; apply Forall_impl; intros s; apply field_whole. }
  split.
  - intros [H _]. destruct r as [|[|c s] [|y r]]; try (apply G; exact H). repeat constructor.
  - intros H. split; [|exact Ht]. destruct r as [|[|c s] [|y r]]; try (apply G; exact H). apply whole_low. repeat constructor.
Qed.
Theorem csv_whole t rows : whole_chars (write_csv t rows) <-> Forall (Forall whole_chars) rows.
Proof.
  unfold write_csv. induction rows as [|r rows IH]; [split; intros; constructor|]. cbn [flat_map]. rewrite whole_app, row_whole, IH, Forall_cons_iff. reflexivity.
Qed.
(** the files of tables *)
Lemma files_whole W E l fs fs' w : csv_sheets W E l fs = Ok fs' w -> (forall x, In x l -> Forall (Forall whole_chars) (tb_header x :: csv_rows E x)) ->
  Forall (fun f => whole_chars (snd f)) fs -> Forall (fun f => whole_chars (snd f)) fs'.
Proof.
  intros H Hl. destruct (csv_sheets_ok W E l fs fs' w H) as (_ & -> & _). clear H. revert fs. induction l as [|x l IH]; intros fs Hf; cbn [fold_left]; [exact Hf|]. apply IH; [intros y Hy; apply Hl; right; exact Hy|].
  apply Forall_forall. intros [k v] Hk. apply sset_In in Hk as [Q|Hk].
  - injection Q as _ ->. change (whole_chars (write_csv (w_term W) (tb_header x :: csv_rows E x))). apply csv_whole. apply Hl. left. reflexivity.
  - exact (proj1 (Forall_forall _ _) Hf _ Hk).
Qed.
Lemma files_have_bytes fs : Forall (fun f => whole_chars (snd f)) fs -> exists bs, files_bytes fs bs.
Proof.
  induction 1 as [|[n t] fs Ht _ (bs & IH)]; [exists []; constructor|]. apply bytes_exist in Ht as (b & Hb). exists ((n, b) :: bs). constructor; [split; [reflexivity|exact Hb]|exact IH].
Qed.

(** ** JSON texts *)
Lemma blanks_whole s : blanks s -> whole_chars s.
Proof. intros H. apply whole_low. eapply Forall_impl; [|exact H]. cbn. lia. Qed.
Lemma hex_low c n : hex c n -> (c < 128)%N /\ (n < 16)%N.
Proof. unfold hex. lia. Qed.
Lemma unit_low t n : unit_text t n -> whole_chars t /\ (n < 65536)%N.
Proof.
  intros [a b c d a' b' c' d' Ha Hb Hc Hd]. apply hex_low in Ha, Hb, Hc, Hd. split; [|lia]. apply whole_low. repeat (apply Forall_cons; [lia|]). constructor.
Qed.
Lemma chars_whole t s : chars_say t s -> whole_chars s -> whole_chars t.
Proof.
  induction 1 as [|c t s _ _ _ _ IH|x c t s Hx _ IH|h l th tl t s Hh Hl _ _ _ IH|n tn t s Hn _ _ IH]; intros H; inversion H as [|? ? H1 H2]; subst; [constructor| | | |].
  - constructor; [exact H1|exact (IH H2)].
  - apply whole_app. split; [|exact (IH H2)]. cbn in Hx. apply whole_low. constructor; [lia|]. constructor; [|constructor]. repeat (destruct Hx as [Hx|Hx]; [injection Hx as <- _; lia|]). destruct Hx.
  - apply unit_low in Hh as [Hh _]. apply unit_low in Hl as [Hl _]. rewrite !whole_app. split; [exact Hh|]. split; [exact Hl|exact (IH H2)].
  - apply unit_low in Hn as [Hn _]. rewrite whole_app. split; [exact Hn|exact (IH H2)].
Qed.
Lemma chars_below t s : chars_say t s -> whole_chars t -> no_half s -> whole_chars s.
Proof.
  induction 1 as [|c t s _ _ _ _ IH|x c t s Hx _ IH|h l th tl t s Hh Hl Hhh Hll _ IH|n tn t s Hn _ _ IH]; intros H Hh'; inversion Hh' as [|? ? H1 H2]; subst; [constructor| | | |].
  - inversion H; subst. constructor; [assumption|apply IH; assumption].
  - apply whole_app in H as [_ H]. constructor; [|exact (IH H H2)]. apply low_whole. cbn in Hx. repeat (destruct Hx as [Hx|Hx]; [injection Hx as _ <-; lia|]). destruct Hx.
  - rewrite !whole_app in H. constructor; [|apply IH; [tauto|exact H2]]. unfold high, low in *. right. lia.
  - rewrite whole_app in H. constructor; [|apply IH; [tauto|exact H2]]. apply unit_low in Hn as [_ Hn]. unfold scalar_value. lia.
Qed.
Lemma digits_whole s : Forall digit s -> whole_chars s.
Proof. intros H. apply whole_low. eapply Forall_impl; [|exact H]. unfold digit. lia. Qed.
Lemma number_whole t v : number_says t v -> whole_chars t.
Proof.
  assert (M : forall neg, whole_chars (minus neg)) by (intros []; apply whole_low; repeat constructor).
  assert (Wt : forall ds, whole_text ds -> whole_chars ds) by (intros ds [->|(c & r & -> & Hc & Hr)]; [apply whole_low; repeat constructor|constructor; [apply low_whole; lia|apply digits_whole; exact Hr]]).
  intros [neg ds H|neg ds f te e H Hf He _]; rewrite !whole_app; [auto|]. split; [apply M|]. split; [auto|]. split.
  - destruct f as [fs|]; [|constructor]. cbn [fraction_text]. rewrite whole_app. split; [apply whole_low; repeat constructor|apply digits_whole; apply (Hf fs eq_refl)].
  - destruct He as [|e ds' Q _ Hd|e ds' Q _ Hd|e ds' Q _ Hd]; [constructor| | |]; rewrite whole_app; (split; [apply whole_low; repeat (apply Forall_cons; [lia|]); constructor|apply digits_whole; exact Hd]).
Qed.
Ltac lows := apply whole_low; repeat (apply Forall_cons; [reflexivity|]); constructor.
Lemma says_whole lax : (forall t v, says lax t v -> whole_texts v -> whole_chars t) /\ (forall t vs, items_say lax t vs -> Forall whole_texts vs -> whole_chars t) /\
  (forall t d, members_say lax t d -> Forall (fun kx => whole_chars (fst kx) /\ whole_texts (snd kx)) d -> whole_chars t).
Proof.
  apply says_all.
  - intros _. lows.
  - intros _. lows.
  - intros _. lows.
  - intros t v H _. exact (number_whole t v H).
  - intros t _ H _. destruct H as [<-|[<-|[<-|[]]]]; lows.
  - intros t s H Hw. rewrite !whole_app. split; [lows|]. split; [|lows]. apply (chars_whole t s H). inversion Hw as [? X|?|?|? X]; [exact X|destruct X].
  - intros w H _. rewrite !whole_app. split; [lows|]. split; [apply blanks_whole; exact H|lows].
  - intros t vs _ IH Hw. rewrite !whole_app. split; [lows|]. split; [|lows]. apply IH. inversion Hw as [?|? X|?|? X]; [exact X|destruct X].
  - intros w H _. rewrite !whole_app. split; [lows|]. split; [apply blanks_whole; exact H|lows].
  - intros t d _ IH Hw. rewrite !whole_app. split; [lows|]. split; [|lows]. apply IH. inversion Hw as [?|?|? X|? X]; [exact X|destruct X].
  - intros a t b v Ha _ IH Hb Hw. rewrite !whole_app. inversion Hw; subst. auto using blanks_whole.
  - intros a t b v r vs Ha _ IH Hb _ IH' Hw. rewrite !whole_app. inversion Hw; subst. split; [auto using blanks_whole|]. split; [auto|]. split; [auto using blanks_whole|]. split; [lows|auto].
  - intros a k s b c t v e Ha Hk Hb Hc _ IH He Hw. rewrite !whole_app. inversion Hw as [|? ? [H1 H2] _]; subst. cbn [fst snd] in *.
    pose proof (chars_whole k s Hk H1). repeat match goal with |- _ /\ _ => split end; auto using blanks_whole; lows.
  - intros a k s b c t v e r d Ha Hk Hb Hc _ IH He _ IH' Hw. rewrite !whole_app. inversion Hw as [|? ? [H1 H2] H3]; subst. cbn [fst snd] in *.
    pose proof (chars_whole k s Hk H1). repeat match goal with |- _ /\ _ => split end; auto using blanks_whole; lows.
Qed.
Theorem document_whole lax t v : document_says lax t v -> whole_texts v -> whole_chars t.
Proof. intros (a & m & b & -> & Ha & Hm & Hb) H. rewrite !whole_app. split; [apply blanks_whole; exact Ha|]. split; [exact (proj1 (says_whole lax) m v Hm H)|apply blanks_whole; exact Hb]. Qed.
Lemma says_below lax : (forall t v, says lax t v -> whole_chars t -> no_halves v -> whole_texts v) /\ (forall t vs, items_say lax t vs -> whole_chars t -> Forall no_halves vs -> Forall whole_texts vs) /\
  (forall t d, members_say lax t d -> whole_chars t -> Forall (fun kx => no_half (fst kx) /\ no_halves (snd kx)) d -> Forall (fun kx => whole_chars (fst kx) /\ whole_texts (snd kx)) d).
Proof.
  apply says_all.
  - intros _ _. apply wt_other. exact I.
  - intros _ _. apply wt_other. exact I.
  - intros _ _. apply wt_other. exact I.
  - intros t v H _ _. destruct H; apply wt_other; exact I.
  - intros t _ H _ _. apply wt_other. exact I.
  - intros t s H Hw Hn. rewrite !whole_app in Hw. apply wt_str. apply (chars_below t s H); [tauto|]. inversion Hn as [? X|?|?|? X]; [exact X|destruct X].
  - intros w H _ _. apply wt_array. constructor.
  - intros t vs _ IH Hw Hn. rewrite !whole_app in Hw. apply wt_array. apply IH; [tauto|]. inversion Hn as [?|? X|?|? X]; [exact X|destruct X].
  - intros w H _ _. apply wt_object. constructor.
  - intros t d _ IH Hw Hn. rewrite !whole_app in Hw. apply wt_object. apply IH; [tauto|]. inversion Hn as [?|?|? X|? X]; [exact X|destruct X].
  - intros a t b v Ha _ IH Hb Hw Hn. rewrite !whole_app in Hw. inversion Hn; subst. constructor; [|constructor]. apply IH; tauto.
  - intros a t b v r vs Ha _ IH Hb _ IH' Hw Hn. rewrite !whole_app in Hw. inversion Hn; subst. constructor; [apply IH|apply IH']; tauto.
  - intros a k s b c t v e Ha Hk Hb Hc _ IH He Hw Hn. rewrite !whole_app in Hw. inversion Hn as [|? ? [H1 H2] _]; subst. cbn [fst snd] in *. constructor; [|constructor]. split; [apply (chars_below k s Hk); tauto|apply IH; tauto].
  - intros a k s b c t v e r d Ha Hk Hb Hc _ IH He _ IH' Hw Hn. rewrite !whole_app in Hw. inversion Hn as [|? ? [H1 H2] H3]; subst. cbn [fst snd] in *. constructor; [split; [apply (chars_below k s Hk); tauto|apply IH; tauto]|apply IH'; tauto].
Qed.
Theorem document_below lax t v : document_says lax t v -> whole_chars t -> no_halves v -> whole_texts v.
Proof. intros (a & m & b & -> & Ha & Hm & Hb) H Hn. rewrite !whole_app in H. apply (proj1 (says_below lax) m v Hm); tauto. Qed.
