(** The stored rows of the sheets while flattening. *)
From Verif.Base Require Import PyStr PyNum PyVal PyDict Outcome.
From Verif.Model Require Import Flatten.
From Verif.Proofs Require Import JvInd FlattenTrace.

(** ** the store *)
Fixpoint numbered (i : N) (l : list frow) : list (N * frow) :=
  match l with [] => [] | r :: l' => (i, r) :: numbered (i + 1) l' end.
Lemma numbered_snd i l : map snd (numbered i l) = l.
Proof. revert i. induction l as [|r l IH]; intros i; simpl; [reflexivity|]. rewrite IH. reflexivity. Qed.
Lemma bt_set_end i j r l : (j = i + N.of_nat (length l))%N -> bt_set j r (numbered i l) = numbered i (l ++ [r]).
Proof.
  revert i. induction l as [|x l IH]; intros i Hj; simpl in *.
  - rewrite N.add_0_r in Hj. subst. reflexivity.
  - destruct (N.ltb_spec j i); [lia|]. destruct (N.eqb_spec j i); [lia|]. rewrite IH by lia. reflexivity.
Qed.
Lemma oname_spec a b : reflect (a = b) (oname_eqb a b).
Proof.
  destruct (oname_eqb a b) eqn:E; constructor; [apply oname_eqb_eq; exact E|].
  intros ->. rewrite oname_eqb_refl in E. discriminate.
Qed.
Lemma st_get_set_eq n t s : st_get n (st_set n t s) = t.
Proof.
  unfold st_get, st_set. induction s as [|[m v] s IH]; simpl.
  - rewrite oname_eqb_refl. reflexivity.
  - destruct (oname_eqb n m) eqn:E; simpl; rewrite E; [reflexivity|exact IH].
Qed.
Lemma st_get_set_neq n m t s : n <> m -> st_get n (st_set m t s) = st_get n s.
Proof.
  intros H. unfold st_get, st_set. induction s as [|[k v] s IH]; simpl.
  - destruct (oname_spec n m); [congruence|reflexivity].
  - destruct (oname_spec m k) as [<-|Hk]; simpl.
    + destruct (oname_spec n m); [congruence|reflexivity].
    + destruct (oname_spec n k); [reflexivity|exact IH].
Qed.

(** ** the invariant *)
Definition rows (r : sref) (s : pst) : list frow := match sheet_at r s with Some x => lines_of (p_store s) x | None => [] end.
Definition place_of (M : option str) (r : sref) : option str := match r with None => M | Some n => Some n end.
(** no sub-sheet is stored where the main sheet is *)
Definition nocol (M : option str) (s : pst) : Prop := forall k, M = Some k -> sget k (p_subs s) = None.
Definition stored_ok (M : option str) (s : pst) : Prop := forall r x, sheet_at r s = Some x ->
  match sh_lines x with
  | LMem _ => r <> None
  | LStore n i => n = place_of M r /\ exists l, st_get n (p_store s) = numbered 0 l /\ i = N.of_nat (length l)
  end.
Lemma place_inj M s r1 r2 : nocol M s -> sheet_at r1 s <> None -> sheet_at r2 s <> None -> place_of M r1 = place_of M r2 -> r1 = r2.
Proof.
  intros HM H1 H2. destruct r1 as [a|], r2 as [b|]; simpl in *; intros E; [congruence| | |reflexivity].
  - exfalso. apply H1. apply HM. congruence.
  - exfalso. apply H2. apply HM. congruence.
Qed.

Section Rows.
  Variable O : popts.

  Lemma use_key_subs r k s n : sget n (p_subs (snd (use_key O r k s))) = None <-> sget n (p_subs s) = None.
  Proof.
    unfold use_key. destruct (sheet_at r s) as [x|] eqn:E; [|tauto]. destruct (sheet_key (po_titles O) k x) as [k' x']. cbn [snd].
    destruct r as [m|]; simpl; [|tauto]. simpl in E. destruct (str_eqb_spec n m) as [-> |Hn].
    - rewrite sget_sset_eq, E. split; discriminate.
    - rewrite sget_sset_neq by exact Hn. tauto.
  Qed.
  Lemma use_key_store r k s : p_store (snd (use_key O r k s)) = p_store s.
  Proof.
    unfold use_key. destruct (sheet_at r s) as [x|]; [|reflexivity]. destruct (sheet_key (po_titles O) k x) as [k' x'].
    destruct r; reflexivity.
  Qed.
  Lemma sheet_key_lines k x : sh_lines (snd (sheet_key (po_titles O) k x)) = sh_lines x.
  Proof. unfold sheet_key, add_col. simpl. destruct (str_mem _ _); [reflexivity|]. destruct (str_mem _ _); reflexivity. Qed.
  Lemma use_key_sheet r k s r' x : sheet_at r' (snd (use_key O r k s)) = Some x -> exists y, sheet_at r' s = Some y /\ sh_lines x = sh_lines y.
  Proof.
    unfold use_key. destruct (sheet_at r s) as [z|] eqn:E; [|intros H; exists x; auto].
    pose proof (sheet_key_lines k z) as Q. destruct (sheet_key (po_titles O) k z) as [k' z']. cbn [snd] in *.
    rewrite sheet_at_put. destruct (oname_spec r' r) as [-> |Hn]; [|intros H; exists x; auto].
    intros [= <-]. exists z. auto.
  Qed.
  Lemma use_key_sheet_none r k s r' : sheet_at r' (snd (use_key O r k s)) = None <-> sheet_at r' s = None.
  Proof.
    unfold use_key. destruct (sheet_at r s) as [z|] eqn:E; [|tauto]. destruct (sheet_key (po_titles O) k z) as [k' z'].
    cbn [snd]. rewrite sheet_at_put. destruct (oname_spec r' r) as [-> |Hn]; [|tauto]. rewrite E. split; discriminate.
  Qed.
  Lemma use_key_rows r k s r' : rows r' (snd (use_key O r k s)) = rows r' s.
  Proof.
    unfold rows. rewrite use_key_store. destruct (sheet_at r' (snd (use_key O r k s))) as [x|] eqn:E.
    - apply use_key_sheet in E as (y & -> & Hl). unfold lines_of. rewrite Hl. reflexivity.
    - apply use_key_sheet_none in E. rewrite E. reflexivity.
  Qed.
  Lemma use_key_nocol M r k s : nocol M (snd (use_key O r k s)) <-> nocol M s.
  Proof. unfold nocol. split; intros H n Hn; specialize (H n Hn); apply (use_key_subs r k s); exact H. Qed.
  Lemma use_key_ok M r k s : stored_ok M s -> stored_ok M (snd (use_key O r k s)).
  Proof.
    intros H r' x Hx. rewrite use_key_store. apply use_key_sheet in Hx as (y & Hy & ->). exact (H r' y Hy).
  Qed.

  Lemma see_rows p s r : rows r (see_path p s) = rows r s.
  Proof. destruct r; reflexivity. Qed.
  Lemma see_nocol M p s : nocol M (see_path p s) <-> nocol M s.
  Proof. reflexivity. Qed.
  Lemma see_ok M p s : stored_ok M s -> stored_ok M (see_path p s).
  Proof. intros H r x Hx. rewrite sheet_at_see in Hx. exact (H r x Hx). Qed.

  Lemma ensure_nocol M n s : nocol M (ensure_sub n s) -> nocol M s.
  Proof.
    unfold nocol, ensure_sub. intros H k Hk. specialize (H k Hk). destruct (sget n (p_subs s)) eqn:E; [exact H|]. simpl in H.
    destruct (str_eqb_spec k n) as [-> |Hn]; [exact E|]. rewrite sget_sset_neq in H by exact Hn. exact H.
  Qed.
  Lemma ensure_sheet n s : sget n (p_subs s) = None -> forall r, sheet_at r (ensure_sub n s) =
    if oname_eqb r (Some n) then Some (fst (new_persistent (Some n) [])) else sheet_at r s.
  Proof.
    intros E r. unfold ensure_sub. rewrite E. cbn [new_persistent]. destruct r as [m|]; simpl; [|reflexivity].
    destruct (str_eqb_spec m n) as [-> |Hn]; [apply sget_sset_eq|apply sget_sset_neq; exact Hn].
  Qed.
  Lemma ensure_store n s : sget n (p_subs s) = None -> p_store (ensure_sub n s) = st_set (Some n) [] (p_store s).
  Proof. intros E. unfold ensure_sub. rewrite E. reflexivity. Qed.
  Lemma ensure_ok M n s : nocol M (ensure_sub n s) -> stored_ok M s -> stored_ok M (ensure_sub n s).
  Proof.
    intros HM H. destruct (sget n (p_subs s)) eqn:E; [unfold ensure_sub; rewrite E; exact H|].
    intros r x Hx. rewrite (ensure_sheet n s E) in Hx. rewrite (ensure_store n s E). destruct (oname_spec r (Some n)) as [-> |Hr].
    - injection Hx as <-. cbn [new_persistent fst sh_lines place_of]. split; [reflexivity|]. exists []. rewrite st_get_set_eq. split; reflexivity.
    - pose proof (H r x Hx) as Q. destruct (sh_lines x) as [l|m i]; [exact Q|]. destruct Q as [-> Q]. split; [reflexivity|].
      rewrite st_get_set_neq; [exact Q|]. destruct r as [k|]; simpl; [congruence|]. intros EM. specialize (HM n EM).
      unfold ensure_sub in HM. rewrite E in HM. simpl in HM. rewrite sget_sset_eq in HM. discriminate.
  Qed.
  Lemma ensure_rows M n s r : nocol M (ensure_sub n s) -> stored_ok M s -> rows r (ensure_sub n s) = rows r s.
  Proof.
    intros HM H. destruct (sget n (p_subs s)) eqn:E; [unfold ensure_sub; rewrite E; reflexivity|].
    unfold rows. rewrite (ensure_sheet n s E), (ensure_store n s E). destruct (oname_spec r (Some n)) as [-> |Hr].
    - simpl. rewrite E. unfold lines_of. simpl. rewrite st_get_set_eq. reflexivity.
    - destruct (sheet_at r s) as [x|] eqn:Ex; [|reflexivity]. unfold lines_of. pose proof (H r x Ex) as Q.
      destruct (sh_lines x) as [l|m i]; [reflexivity|]. destruct Q as [-> _].
      rewrite st_get_set_neq; [reflexivity|]. destruct r as [k|]; simpl; [congruence|]. intros EM. specialize (HM n EM).
      unfold ensure_sub in HM. rewrite E in HM. simpl in HM. rewrite sget_sset_eq in HM. discriminate.
  Qed.

  Lemma append_same row x st : header (fst (append_line row x st)) = header x.
  Proof. unfold append_line. destruct (sh_lines x); reflexivity. Qed.
  Lemma add_row_sheet r x row s r' : sheet_at r' (add_row r x row s) =
    if oname_eqb r' r then Some (fst (append_line row x (p_store s))) else sheet_at r' s.
  Proof. unfold add_row. destruct (append_line row x (p_store s)) as [x' st]. rewrite sheet_at_store, sheet_at_put. reflexivity. Qed.
  Lemma add_row_subs r x row s n : sheet_at r s = Some x -> sget n (p_subs (add_row r x row s)) = None <-> sget n (p_subs s) = None.
  Proof.
    intros Hx. pose proof (add_row_sheet r x row s (Some n)) as Q. simpl in Q. rewrite Q. destruct r as [m|]; [|tauto]. simpl in Hx.
    destruct (str_eqb_spec n m) as [-> |Hn]; [|tauto]. rewrite Hx. split; discriminate.
  Qed.
  Lemma add_row_nocol M r x row s : sheet_at r s = Some x -> nocol M (add_row r x row s) <-> nocol M s.
  Proof. intros Hx. unfold nocol. split; intros H n Hn; specialize (H n Hn); apply (add_row_subs r x row s n Hx); exact H. Qed.
  Lemma add_row_store r x row s : p_store (add_row r x row s) = snd (append_line row x (p_store s)).
  Proof. unfold add_row. destruct (append_line row x (p_store s)) as [x' st]. reflexivity. Qed.
  Lemma add_row_ok M r x row s : sheet_at r s = Some x -> nocol M s -> stored_ok M s -> stored_ok M (add_row r x row s).
  Proof.
    intros Hx HM H r' y Hy. rewrite add_row_sheet in Hy. rewrite add_row_store. pose proof (H r x Hx) as Q.
    unfold append_line in *. destruct (sh_lines x) as [l|m i] eqn:El.
    - simpl in *. destruct (oname_spec r' r) as [-> |Hr]; [injection Hy as <-; exact Q|]. exact (H r' y Hy).
    - simpl in *. destruct Q as (-> & l & Hl & ->). destruct (oname_spec r' r) as [-> |Hr].
      + injection Hy as <-. simpl. split; [reflexivity|]. exists (l ++ [row]). rewrite st_get_set_eq, Hl. split.
        * apply bt_set_end. reflexivity.
        * rewrite app_length. simpl. lia.
      + pose proof (H r' y Hy) as Q. destruct (sh_lines y) as [l'|m' i']; [exact Q|]. destruct Q as (-> & Q). split; [reflexivity|].
        rewrite st_get_set_neq; [exact Q|]. intros E. apply Hr. eapply place_inj; [exact HM| | |exact E]; congruence.
  Qed.
  Lemma add_row_rows M r x row s r' : sheet_at r s = Some x -> nocol M s -> stored_ok M s ->
    rows r' (add_row r x row s) = rows r' s ++ (if oname_eqb r' r then [row] else []).
  Proof.
    intros Hx HM H. unfold rows. rewrite add_row_sheet, add_row_store. destruct (oname_spec r' r) as [-> |Hr].
    - rewrite Hx. pose proof (H r x Hx) as Q. unfold append_line, lines_of. destruct (sh_lines x) as [l|m i]; simpl; [reflexivity|].
      destruct Q as (-> & l & Hl & ->). rewrite st_get_set_eq, Hl, bt_set_end by reflexivity. rewrite !numbered_snd. reflexivity.
    - rewrite app_nil_r. destruct (sheet_at r' s) as [y|] eqn:Ey; [|reflexivity].
      pose proof (H r x Hx) as Q. pose proof (H r' y Ey) as Q'. unfold append_line, lines_of. destruct (sh_lines x) as [l|m i]; simpl; [reflexivity|].
      destruct (sh_lines y) as [l'|m' i']; [reflexivity|]. destruct Q as (-> & _), Q' as (-> & _).
      rewrite st_get_set_neq; [reflexivity|]. intros E. apply Hr. eapply place_inj; [exact HM| | |exact E]; congruence.
  Qed.

  (** ** along a run *)
  Lemma trace_nocol M s s' : trace O s s' -> nocol M s' -> nocol M s.
  Proof.
    induction 1 as [|p s1 H IH|r1 k s1 H IH|n s1 H IH|r1 x1 row s1 H IH Hx1 Hk]; intros HM; [exact HM|..]; apply IH.
    - exact HM.
    - apply use_key_nocol in HM. exact HM.
    - eapply ensure_nocol; exact HM.
    - apply add_row_nocol in HM; [exact HM|exact Hx1].
  Qed.
  Lemma trace_ok M s s' : trace O s s' -> nocol M s' -> stored_ok M s -> stored_ok M s'.
  Proof.
    induction 1 as [|p s1 H IH|r1 k s1 H IH|n s1 H IH|r1 x1 row s1 H IH Hx1 Hk]; intros HM H0; [exact H0|..].
    - apply see_ok. apply IH; assumption.
    - apply use_key_ok. apply IH; [apply use_key_nocol in HM; exact HM|exact H0].
    - apply ensure_ok; [exact HM|]. apply IH; [eapply ensure_nocol; exact HM|exact H0].
    - apply add_row_nocol in HM; [|exact Hx1]. apply add_row_ok; [exact Hx1|exact HM|]. apply IH; assumption.
  Qed.
  (** rows are only added, at the end *)
  Lemma trace_rows M s s' : trace O s s' -> nocol M s' -> stored_ok M s -> forall r, exists e, rows r s' = rows r s ++ e.
  Proof.
    induction 1 as [|p s1 H IH|r1 k s1 H IH|n s1 H IH|r1 x1 row s1 H IH Hx1 Hk]; intros HM H0 r.
    - exists []. rewrite app_nil_r. reflexivity.
    - rewrite see_rows. apply IH; assumption.
    - rewrite use_key_rows. apply IH; [apply use_key_nocol in HM; exact HM|exact H0].
    - pose proof (ensure_nocol M n s1 HM) as HM1. rewrite (ensure_rows M); [apply IH; assumption|exact HM|]. eapply trace_ok; eassumption.
    - apply add_row_nocol in HM; [|exact Hx1]. rewrite (add_row_rows M); [|exact Hx1|exact HM|eapply trace_ok; eassumption].
      destruct (IH HM H0 r) as (e & ->). eexists. rewrite <- app_assoc. reflexivity.
  Qed.
  (** every cell of every row has its column *)
  Definition covered (s : pst) : Prop := forall r row, In row (rows r s) -> keys_in row (hdr r s).
  Lemma trace_covered M s s' : trace O s s' -> nocol M s' -> stored_ok M s -> covered s -> covered s'.
  Proof.
    induction 1 as [|p s1 H IH|r1 k s1 H IH|n s1 H IH|r1 x1 row1 s1 H IH Hx1 Hk]; intros HM H0 Hc; [exact Hc|..].
    - intros r row. rewrite see_rows. unfold hdr. rewrite sheet_at_see. apply IH; assumption.
    - assert (HM1 : nocol M s1) by (apply use_key_nocol in HM; exact HM).
      intros r row. rewrite use_key_rows. intros Hr. eapply trace_keys_in; [apply t_key; apply t_nil|]. eapply IH; eassumption.
    - pose proof (ensure_nocol M n s1 HM) as HM1. intros r row. rewrite (ensure_rows M); [|exact HM|eapply trace_ok; eassumption].
      intros Hr. eapply (trace_keys_in O); [apply t_sub; apply t_nil|]. eapply IH; eassumption.
    - apply add_row_nocol in HM; [|exact Hx1]. intros r row. rewrite (add_row_rows M); [|exact Hx1|exact HM|eapply trace_ok; eassumption].
      assert (T : trace O s1 (add_row r1 x1 row1 s1)) by (apply t_line; [apply t_nil|exact Hx1|exact Hk]).
      intros Hr. eapply trace_keys_in; [exact T|]. apply in_app_or in Hr as [Hr|Hr]; [eapply IH; eassumption|].
      destruct (oname_spec r r1) as [-> |]; [|destruct Hr]. destruct Hr as [<-|[]]. unfold hdr. rewrite Hx1. exact Hk.
  Qed.
  (** columns stay distinct *)
  Definition distinct (s : pst) : Prop := forall r, NoDup (hdr r s).
  Lemma sheet_key_nodup k x : NoDup (header x) -> NoDup (header (snd (sheet_key (po_titles O) k x))).
  Proof.
    intros H. unfold sheet_key. simpl. set (n := if po_titles O then _ else _). destruct (str_mem n (header x)) eqn:M; [exact H|].
    unfold add_col. destruct (str_mem n (sh_cols x)) eqn:M2; [exact H|].
    assert (E : header {| sh_root := sh_root x; sh_idcols := sh_idcols x; sh_cols := sh_cols x ++ [n]; sh_titles := sh_titles x; sh_lines := sh_lines x |}
      = header x ++ [n]) by (unfold header; simpl; rewrite <- !app_assoc; reflexivity).
    rewrite E. apply NoDup_snoc; [exact H|]. intros Hin. apply str_mem_In in Hin. congruence.
  Qed.
  Lemma trace_distinct s s' : trace O s s' -> distinct s -> distinct s'.
  Proof.
    induction 1 as [|p s1 H IH|r1 k s1 H IH|n s1 H IH|r1 x1 row1 s1 H IH Hx1 Hk]; intros Hd; [exact Hd|..]; specialize (IH Hd); intros r; specialize (IH r); unfold hdr in *.
    - rewrite sheet_at_see. exact IH.
    - unfold use_key. destruct (sheet_at r1 s1) as [z|] eqn:Ez; [|exact IH].
      pose proof (sheet_key_nodup k z) as Q. destruct (sheet_key (po_titles O) k z) as [k' z']. cbn [snd] in *.
      rewrite sheet_at_put. destruct (oname_spec r r1) as [-> |]; [|exact IH]. rewrite Ez in IH. auto.
    - destruct (sget n (p_subs s1)) eqn:E; [unfold ensure_sub; rewrite E; exact IH|]. rewrite (ensure_sheet n s1 E).
      destruct (oname_eqb r (Some n)); [constructor|exact IH].
    - rewrite add_row_sheet. destruct (oname_spec r r1) as [-> |]; [|exact IH]. rewrite append_same. rewrite Hx1 in IH. exact IH.
  Qed.
  Lemma trace_names s s' : trace O s s' -> NoDup (map fst (p_subs s)) -> NoDup (map fst (p_subs s')).
  Proof.
    induction 1 as [|p s1 H IH|r1 k s1 H IH|n s1 H IH|r1 x1 row1 s1 H IH Hx1 Hk]; intros Hd; [exact Hd|..]; specialize (IH Hd).
    - exact IH.
    - unfold use_key. destruct (sheet_at r1 s1) as [z|] eqn:Ez; [|exact IH]. destruct (sheet_key (po_titles O) k z) as [k' z'].
      destruct r1; [apply sset_NoDup; exact IH|exact IH].
    - unfold ensure_sub. destruct (sget n (p_subs s1)); [exact IH|]. cbn [new_persistent p_subs]. apply sset_NoDup. exact IH.
    - unfold add_row. destruct (append_line row1 x1 (p_store s1)) as [x' st]. destruct r1; [apply sset_NoDup; exact IH|exact IH].
  Qed.
End Rows.
