(** Reading one row, continued: from the tree of the row to the object. *)
From Coq Require Import Lia.
From Verif.Base Require Import PyStr PyNum PyVal PyDict Outcome.
From Verif.Model Require Import Warn Lib Convert Input.
From Verif.Spec Require Import Headings Plain Ids Cells.
From Verif.Proofs Require Import TreeInd Total RowBuild.
Local Open Scope res_scope.

(** ** All columns of a row *)
Section Build.
  Variable E : conv_env.
  Variable types : str -> str.

  (** heading, path, resulting cell *)
  Definition col := (scalar * (hpath * cell))%type.
  Inductive creads : list (scalar * cell) -> list col -> list (list warning) -> Prop :=
  | cr_nil : creads [] [] []
  | cr_blank h c cells LL W : cv_blank (c_val c) = true -> creads cells LL W -> creads ((h, c) :: cells) LL W
  | cr_cell h c p x w cells LL W : cv_blank (c_val c) = false -> (exists q, spelled q (path_items E h) /\ p = completed types [] q) -> fits types p ->
      convert_type E (types (path_text p)) (c_val c) = Ok x w -> cv_blank x = false ->
      creads cells LL W -> creads ((h, c) :: cells) ((h, (p, mk_cell x (c_loc c))) :: LL) (w :: W).

  Lemma compat_dec p : forall q, compatible p q \/ ~ compatible p q.
  Proof.
    induction p as [|a p IH]; intros [|b q]; simpl; try tauto. destruct (hstep_eqb a b); [apply IH|]. destruct (same_kind a b); [left; reflexivity|right; discriminate].
  Qed.

  Lemma build_row_shows cells LL W : creads cells LL W -> forall A cur, rshows A (RDict cur) ->
    NoDup (map fst (A ++ map snd LL)) ->
    exists cur' w acc rej, build_row E types false cells cur = Ok cur' w /\ settled LL W acc rej w /\ rshows (A ++ map snd acc) (RDict cur') /\
      (forall h p c, In (h, (p, c)) rej -> exists q c', In (q, c') (A ++ map snd acc) /\ ~ compatible q p).
  Proof.
    induction 1 as [|h c cells LL W Hb _ IH|h c p x wc cells LL W Hb Hp Hfit Hx Hbx _ IH]; intros A cur HA Hnd; cbn [build_row].
    - exists cur, [], [], []. split; [reflexivity|]. split; [constructor|]. rewrite app_nil_r. split; [exact HA|]. intros ? ? ? [].
    - rewrite Hb. apply IH; assumption.
    - rewrite Hb. simpl in Hnd.
      assert (Hd : forall q c', In (q, c') A -> q <> p).
      { intros q c' Hin ->. rewrite map_app in Hnd. simpl in Hnd. apply NoDup_remove_2 in Hnd. apply Hnd. apply in_or_app. left. apply (in_map fst) in Hin. exact Hin. }
      destruct Hp as (q0 & Hq0 & Eq0). destruct (walk_completed E types h (c_loc c) q0 _ Hq0 [] [] eq_refl) as (l' & Hp & Hwl). rewrite <- Eq0 in Hp. rewrite Hwl. clear Hwl.
      destruct (walk_shows E types h (c_loc c) (c_val c) x wc _ Hx Hbx p _ Hp [] [] cur A eq_refl Hfit eq_refl HA Hd) as [[Hc (cur1 & Hw & Hs)]|[(q & c' & Hin & Hc) (y & Hw & Hy)]]; rewrite Hw; cbn [bind].
      + destruct (IH (A ++ [(p, mk_cell x (c_loc c))]) cur1 Hs) as (cur' & w & acc & rej & Hbld & Hdl & Hsh & Hr).
        { rewrite <- app_assoc. exact Hnd. }
        rewrite Hbld. cbn [bind app]. exists cur', (wc ++ w), ((h, (p, mk_cell x (c_loc c))) :: acc), rej. split; [reflexivity|]. split; [constructor; exact Hdl|].
        rewrite <- app_assoc in Hsh. split; [exact Hsh|]. intros h' p' c'' Hin. destruct (Hr _ _ _ Hin) as (q & c' & Hq & Hnc).
        exists q, c'. split; [rewrite <- app_assoc in Hq; exact Hq|exact Hnc].
      + destruct (IH A cur HA) as (cur' & w & acc & rej & Hbld & Hdl & Hsh & Hr).
        { rewrite map_app in *. simpl in Hnd. apply NoDup_remove_1 in Hnd. exact Hnd. }
        rewrite Hbld. cbn [bind app]. exists cur', (y :: w), acc, ((h, (p, mk_cell x (c_loc c))) :: rej). split; [reflexivity|].
        assert (Hyn : column_named y h p). { destruct y; simpl in Hy; simpl; try contradiction; try exact Hy. rewrite Hy. apply path_till_text. exact Hp. }
        split; [constructor; [exact Hyn|exact Hdl]|]. split; [exact Hsh|].
        intros h' p' c'' [Q|Hin'].
        * injection Q as <- <- <-. exists q, c'. split; [apply in_or_app; left; exact Hin|exact Hc].
        * exact (Hr _ _ _ Hin').
  Qed.
End Build.

(** ** The object *)
Section Fin.
  Variable idn : str.
  Inductive tshows : list (hpath * cell) -> tnode -> Prop :=
  | tsh_leaf c : tshows [([], c)] (TCell c)
  | tsh_object L d : begin_with_field L -> map fst d = fields L ->
      (forall k n, In (k, n) d -> tshows (after (HKey k) L) n) -> tshows L (TDict d)
  | tsh_array L data nk : L <> [] -> begin_with_position L ->
      Forall2 (fun i d => tshows (after (HPos i) L) (TDict d)) (ids_first idn L) (temp_items (data, nk)) ->
      (forall k d, In (k, d) data -> item_key false idn d = Ok (Some k) []) -> (forall d, In d nk -> item_key false idn d = Ok None []) -> tshows L (TTemp data nk).

  Definition vals_ok (L : list (hpath * cell)) : Prop := forall q c, In (q ++ [HKey idn], c) L -> exists s, c_val c = CV s /\ hashable (CV s) = true.
  Definition cdistinct (L : list (hpath * cell)) : Prop :=
    forall q i j c d x y, In (q ++ [HPos i; HKey idn], c) L -> In (q ++ [HPos j; HKey idn], d) L -> c_val c = CV x -> c_val d = CV y -> i <> j -> py_eqb x y = false.
  Definition ids_ok L := id_ends idn L /\ vals_ok L /\ cdistinct L.
  Lemma ids_ok_after s L : ids_ok L -> ids_ok (after s L).
  Proof.
    intros (H1 & H2 & H3). split; [|split].
    - intros p v q r Hin E. apply in_after in Hin. apply (H1 (s :: p) v (s :: q) r Hin). rewrite E. reflexivity.
    - intros q c Hin. apply in_after in Hin. exact (H2 (s :: q) c Hin).
    - intros q i j c d x y Hc Hd. apply in_after in Hc, Hd. exact (H3 (s :: q) i j c d x y Hc Hd).
  Qed.

  Lemma item_key_shown L d : tshows L (TDict d) -> id_ends idn L -> vals_ok L ->
    (exists c s, In ([HKey idn], c) L /\ c_val c = CV s /\ item_key false idn d = Ok (Some s) []) \/
    ((forall q c, ~ In (HKey idn :: q, c) L) /\ item_key false idn d = Ok None []).
  Proof.
    intros H He Hv. inversion H as [|? ? Hb Hk Hc|]; subst. unfold item_key. destruct (sget idn d) as [n|] eqn:Eg.
    - left. pose proof Eg as Eg'. apply sget_In in Eg'. pose proof (Hc _ _ Eg') as Hn.
      assert (Hin : In idn (fields L)) by (rewrite <- Hk; apply (in_map fst) in Eg'; exact Eg').
      apply in_fields in Hin as (p & c & Hin). assert (p = []) by (apply (He _ _ [] p Hin); reflexivity). subst p.
      apply in_after in Hin as Hin'.
      destruct (Hv [] _ Hin) as (s & Es & Hh).
      inversion Hn as [c0 E0|? ? Hb' _ _|? ? ? _ Hb' _]; subst.
      + rewrite <- E0 in Hin'. destruct Hin' as [Q|[]]. injection Q as ->. exists c, s. split; [exact Hin|]. split; [exact Es|]. rewrite Es, Hh. reflexivity.
      + destruct (Hb' _ _ Hin') as (? & ? & ?). discriminate.
      + destruct (Hb' _ _ Hin') as (? & ? & ?). discriminate.
    - right. split; [|reflexivity]. intros q c Hin. apply sget_None in Eg. apply Eg. rewrite Hk. apply in_fields. eauto.
  Qed.

  Definition akey (d : tdict) : option scalar := match item_key false idn d with Ok k _ => k | Raise _ _ => None end.
  Definition keyed (d : tdict) : bool := match akey d with Some _ => true | None => false end.
  Definition pairs (l : list tdict) : list (scalar * tdict) := flat_map (fun d => match akey d with Some k => [(k, d)] | None => [] end) l.
  Lemma kget_None_all {V} k (l : list (scalar * V)) : (forall k' v, In (k', v) l -> py_eqb k k' = false) -> kget k l = None.
  Proof.
    induction l as [|[k' v] l IH]; intros H; unfold kget in *; simpl; [reflexivity|]. rewrite (H k' v) by (left; reflexivity). apply IH. intros; eapply H; right; eassumption.
  Qed.
  Lemma kset_end {V} k (v : V) l : kget k l = None -> kset k v l = l ++ [(k, v)].
  Proof.
    induction l as [|[k' w] l IH]; unfold kget, kset in *; simpl; [reflexivity|]. destruct (py_eqb k k'); [discriminate|]. intros H. rewrite IH by exact H. reflexivity.
  Qed.
  Lemma temp_of_list_distinct l : forall data nk,
    (forall d, In d l -> exists k, item_key false idn d = Ok k []) ->
    ForallOrdPairs (fun a b => forall x y, akey a = Some x -> akey b = Some y -> py_eqb y x = false) l ->
    (forall d x k e, In d l -> akey d = Some x -> In (k, e) data -> py_eqb x k = false) ->
    temp_of_list false idn (data, nk) l = Ok (data ++ pairs l, nk ++ filter (fun d => negb (keyed d)) l) [].
  Proof.
    induction l as [|d l IH]; intros data nk Hk Hp Hd; cbn [temp_of_list].
    - unfold pairs. simpl. rewrite !app_nil_r. reflexivity.
    - destruct (Hk d) as (k & Ek); [left; reflexivity|]. inversion Hp as [|? ? Hp1 Hp2]; subst. rewrite Forall_forall in Hp1.
      assert (Ea : akey d = k) by (unfold akey; rewrite Ek; reflexivity).
      unfold temp_append. rewrite Ek. cbn [bind app]. unfold pairs, keyed in *. cbn [flat_map filter]. rewrite Ea. destruct k as [k|].
      + assert (Hn : kget k data = None) by (apply kget_None_all; intros k' e Hin; eapply Hd; [left; reflexivity|exact Ea|exact Hin]).
        rewrite Hn. cbn [ret bind app]. rewrite kset_end by exact Hn. rewrite IH.
        * cbn [bind app negb]. rewrite <- app_assoc. reflexivity.
        * intros; apply Hk; right; assumption.
        * exact Hp2.
        * intros d' x k' e Hin Hx Hin'. apply in_app_iff in Hin' as [Hin'|[Q|[]]]; [eapply Hd; [right; exact Hin|exact Hx|exact Hin']|].
          injection Q as <- <-. exact (Hp1 d' Hin k x Ea Hx).
      + cbn [ret bind app]. rewrite IH.
        * cbn [bind app negb]. rewrite <- app_assoc. reflexivity.
        * intros; apply Hk; right; assumption.
        * exact Hp2.
        * intros; eapply Hd; [right; eassumption|eassumption|eassumption].
  Qed.
  Lemma pairs_items l : map snd (pairs l) = filter keyed l.
  Proof. unfold pairs, keyed. induction l as [|d l IH]; [reflexivity|]. cbn [flat_map filter]. destruct (akey d); cbn [app map snd]; rewrite IH; reflexivity. Qed.

  Lemma insert_z_fst {V} (x : Z * V) l : map fst (insert_z x l) = insert_pos (fst x) (map fst l).
  Proof. induction l as [|y l IH]; simpl; [reflexivity|]. destruct (fst x <=? fst y)%Z; simpl; [reflexivity|]. rewrite IH. reflexivity. Qed.
  Lemma sort_z_fst {V} (l : list (Z * V)) : map fst (sort_z l) = fold_right insert_pos [] (map fst l).
  Proof. induction l as [|x l IH]; simpl; [reflexivity|]. rewrite insert_z_fst, IH. reflexivity. Qed.
  Lemma insert_z_in {V} (x y : Z * V) l : In y (insert_z x l) <-> y = x \/ In y l.
  Proof.
    induction l as [|z l IH]; simpl; [intuition|]. destruct (fst x <=? fst z)%Z; simpl; [intuition|]. rewrite IH. intuition.
  Qed.
  Lemma sort_z_in {V} (y : Z * V) l : In y (sort_z l) <-> In y l.
  Proof. induction l as [|x l IH]; simpl; [tauto|]. rewrite insert_z_in, IH. intuition. Qed.
  Lemma in_insert_pos i j l : In j (insert_pos i l) <-> j = i \/ In j l.
  Proof. induction l as [|z l IH]; simpl; [intuition|]. destruct (i <=? z)%Z; simpl; [intuition congruence|]. rewrite IH. intuition. Qed.
  Lemma insert_pos_NoDup i l : NoDup l -> ~ In i l -> NoDup (insert_pos i l).
  Proof.
    induction l as [|j l IH]; simpl; intros H Hi; [constructor; [exact Hi|exact H]|]. destruct (i <=? j)%Z; [constructor; [exact Hi|exact H]|].
    inversion H; subst. constructor; [|apply IH; tauto]. rewrite in_insert_pos. intros [-> |Q]; tauto.
  Qed.
  Lemma in_increasing {A} i (L : list (hpath * A)) : In i (increasing L) <-> In i (positions L).
  Proof. unfold increasing. induction (positions L) as [|j l IH]; simpl; [tauto|]. rewrite in_insert_pos, IH. intuition. Qed.
  Lemma increasing_NoDup {A} (L : list (hpath * A)) : NoDup (increasing L).
  Proof.
    unfold increasing. pose proof (positions_NoDup L) as H. induction (positions L) as [|j l IH]; simpl; [constructor|]. inversion H; subst.
    apply insert_pos_NoDup; [apply IH; assumption|]. intros Q. apply H2.
    assert (G : forall m, In j (fold_right insert_pos [] m) -> In j m).
    { induction m as [|z m IHm]; simpl; [tauto|]. rewrite in_insert_pos. intuition. }
    exact (G _ Q).
  Qed.

  Lemma Forall2_in_r {A B} (R : A -> B -> Prop) l m : Forall2 R l m -> forall b, In b m -> exists a, In a l /\ R a b.
  Proof. induction 1 as [|a b l m Hr _ IH]; intros x []; [subst; exists a; split; [left; reflexivity|exact Hr]|]. destruct (IH x H) as (y & Hy & Hr'). exists y. split; [right; exact Hy|exact Hr']. Qed.
  Lemma Forall2_filter {A B} (R : A -> B -> Prop) (f : A -> bool) (g : B -> bool) l m :
    Forall2 R l m -> (forall a b, In a l -> R a b -> f a = g b) -> Forall2 R (filter f l) (filter g m).
  Proof.
    induction 1 as [|a b l m Hr _ IH]; intros H; simpl; [constructor|]. rewrite <- (H a b); [|left; reflexivity|exact Hr].
    destruct (f a); [constructor; [exact Hr|]|]; apply IH; intros; apply H; try assumption; right; assumption.
  Qed.

  Definition fin_shows (n : rnode) : Prop := forall L, rshows L n -> ids_ok L -> exists n', fin false idn n = Ok n' [] /\ tshows L n'.
  Lemma rshows_nonempty L k d : rshows L (RDict d) -> In k (fields L) -> d <> [].
  Proof. intros H Hk E. inversion H as [|? ? _ Hf _|]; subst. rewrite <- Hf in Hk. destruct Hk. Qed.
  Lemma after_field_child L d k n : rshows L (RDict d) -> In (k, n) d -> after (HKey k) L <> [].
  Proof.
    intros H Hin. inversion H as [|? ? _ Hf _|]; subst. apply (in_map fst) in Hin. simpl in Hin. rewrite Hf in Hin.
    apply in_fields in Hin as (p & v & Hin). apply in_after in Hin. intros E. rewrite E in Hin. destruct Hin.
  Qed.
  Lemma rshows_dict_nonempty L d : rshows L (RDict d) -> L <> [] -> d <> [].
  Proof.
    intros H HL E. inversion H as [|? ? Hb Hf _|]; subst. destruct L as [|[p v] L]; [congruence|]. destruct (Hb p v) as (k & q & ->); [left; reflexivity|].
    simpl in Hf. discriminate.
  Qed.
  Lemma fin_dict_shows L d : rshows L (RDict d) -> ids_ok L -> Forall (fun kv => fin_shows (snd kv)) d ->
    exists d', fin_dict (fin false idn) d = Ok d' [] /\ tshows L (TDict d').
  Proof.
    intros H Hi HF. pose proof H as H0. inversion H as [|? ? Hb Hk Hc|]; subst.
    assert (G : forall e, incl e d -> exists e', fin_dict (fin false idn) e = Ok e' [] /\ map fst e' = map fst e /\
                 forall k n, In (k, n) e' -> tshows (after (HKey k) L) n).
    { induction e as [|[k n] e IH]; intros Hin.
      - exists []. split; [reflexivity|]. split; [reflexivity|intros ? ? []].
      - destruct IH as (e' & Ee & Ke & He); [intros z Hz; apply Hin; right; exact Hz|].
        assert (Hkn : In (k, n) d) by (apply Hin; left; reflexivity).
        rewrite Forall_forall in HF. destruct (HF _ Hkn _ (Hc _ _ Hkn) (ids_ok_after _ _ Hi)) as (n' & En & Hn). simpl in En.
        exists ((k, n') :: e'). split.
        + cbn [fin_dict]. destruct n as [c|[|x d0]|l]; try (rewrite En; cbn [bind]; rewrite Ee; reflexivity).
          exfalso. pose proof (Hc _ _ Hkn) as Hs. apply rshows_dict_nonempty in Hs; [congruence|]. eapply after_field_child; [exact H0|exact Hkn].
        + split; [simpl; rewrite Ke; reflexivity|]. intros k' m [Q|Q]; [injection Q as <- <-; exact Hn|eauto]. }
    destruct (G d (incl_refl _)) as (d' & Ed & Kd & Hd). exists d'. split; [exact Ed|]. constructor; [exact Hb|congruence|exact Hd].
  Qed.
  Theorem fin_shown n : fin_shows n.
  Proof.
    induction n as [c|d IH|l IH] using rnode_ind'; intros L H Hi.
    - inversion H; subst. exists (TCell c). split; [reflexivity|constructor].
    - destruct (fin_dict_shows L d H Hi IH) as (d' & Ed & Hd). exists (TDict d'). cbn [fin]. rewrite Ed. split; [reflexivity|exact Hd].
    - inversion H as [| |? ? HLne Hb Hk Hc]; subst.
      assert (G : forall e, incl e l -> exists e', fin_items (fin false idn) e = Ok e' [] /\ map fst e' = map fst e /\
                 forall i d, In (i, d) e' -> tshows (after (HPos i) L) (TDict d)).
      { induction e as [|[i d] e IHe]; intros Hin.
        - exists []. split; [reflexivity|]. split; [reflexivity|intros ? ? []].
        - destruct IHe as (e' & Ee & Ke & He); [intros z Hz; apply Hin; right; exact Hz|].
          assert (Hid : In (i, d) l) by (apply Hin; left; reflexivity).
          rewrite Forall_forall in IH. specialize (IH _ Hid). simpl in IH.
          destruct (fin_dict_shows _ d (Hc _ _ Hid) (ids_ok_after _ _ Hi) IH) as (d' & Ed & Hd').
          exists ((i, d') :: e'). split.
          + cbn [fin_items]. destruct d as [|x d0].
            * exfalso. pose proof (Hc _ _ Hid) as Hs. apply rshows_dict_nonempty in Hs; [congruence|].
              assert (Hp : In i (positions L)) by (rewrite <- Hk; apply (in_map fst) in Hid; exact Hid).
              apply in_positions in Hp as (p & v & Hp). apply in_after in Hp. intros E. rewrite E in Hp. destruct Hp.
            * rewrite Ed. cbn [bind]. rewrite Ee. reflexivity.
          + split; [simpl; rewrite Ke; reflexivity|]. intros j m [Q|Q]; [injection Q as <- <-; exact Hd'|eauto]. }
      destruct (G l (incl_refl _)) as (l' & El & Kl & Hl). clear G.
      set (ds := map snd (sort_z l')).
      assert (F : Forall2 (fun i d => tshows (after (HPos i) L) (TDict d)) (increasing L) ds).
      { unfold increasing. replace (positions L) with (map fst l') by (rewrite Kl; exact Hk). rewrite <- sort_z_fst. unfold ds.
        assert (Hs : forall i d, In (i, d) (sort_z l') -> tshows (after (HPos i) L) (TDict d)) by (intros i d Q; apply Hl, (proj1 (sort_z_in _ _)); exact Q).
        revert Hs. generalize (sort_z l'). induction l0 as [|[i d] l0 IH0]; intros Hs; simpl; constructor; [apply Hs; left; reflexivity|apply IH0; intros; apply Hs; right; assumption]. }
      destruct Hi as (He & Hv & Hdist).
      assert (Hkey : forall i d, tshows (after (HPos i) L) (TDict d) ->
                (exists c s, In ([HPos i; HKey idn], c) L /\ c_val c = CV s /\ item_key false idn d = Ok (Some s) []) \/
                ((forall q c, ~ In (HPos i :: HKey idn :: q, c) L) /\ item_key false idn d = Ok None [])).
      { intros i d Hd. destruct (ids_ok_after (HPos i) L (conj He (conj Hv Hdist))) as (He' & Hv' & _).
        destruct (item_key_shown _ _ Hd He' Hv') as [(c & s & Q & R)|[Q R]].
        - left. exists c, s. split; [exact (proj1 (in_after _ _ _ _) Q)|exact R].
        - right. split; [|exact R]. intros q c Hin. apply (Q q c). apply in_after. exact Hin. }
      assert (T : temp_of_list false idn ([], []) ds = Ok (pairs ds, filter (fun d => negb (keyed d)) ds) []).
      { change (pairs ds) with ([] ++ pairs ds). change (filter (fun d => negb (keyed d)) ds) with ([] ++ filter (fun d => negb (keyed d)) ds).
        apply temp_of_list_distinct.
        - intros d Hd. destruct (Forall2_in_r _ _ _ F d Hd) as (i & _ & Hi). destruct (Hkey i d Hi) as [(c & s & _ & _ & K)|[_ K]]; eauto.
        - pose proof (increasing_NoDup L) as Hnd. clear -F Hkey Hdist Hnd. induction F as [|i d li ds Hi F IHF]; [constructor|]. inversion Hnd; subst. constructor; [|apply IHF; assumption].
          apply Forall_forall. intros e Hin x y Hx Hy. destruct (Forall2_in_r _ _ _ F e Hin) as (j & Hj & Hje).
          unfold akey in Hx, Hy.
          destruct (Hkey i d Hi) as [(c1 & s1 & I1 & V1 & K1)|[_ K1]]; rewrite K1 in Hx; [|discriminate].
          destruct (Hkey j e Hje) as [(c2 & s2 & I2 & V2 & K2)|[_ K2]]; rewrite K2 in Hy; [|discriminate].
          injection Hx as <-. injection Hy as <-. apply (Hdist [] j i c2 c1 s2 s1); auto. intros ->. contradiction.
        - intros ? ? ? ? _ _ []. }
      exists (TTemp (pairs ds) (filter (fun d => negb (keyed d)) ds)). cbn [fin]. rewrite El. cbn [bind]. fold ds. rewrite T. cbn [bind fst snd ret app]. split; [reflexivity|].
      assert (Hok : forall d, In d ds -> item_key false idn d = Ok (akey d) []).
      { intros d Hd. destruct (Forall2_in_r _ _ _ F d Hd) as (i & _ & Hi). unfold akey. destruct (Hkey i d Hi) as [(c & s & _ & _ & K)|[_ K]]; rewrite K; reflexivity. }
      constructor; [exact HLne|exact Hb| |intros k d Hin; unfold pairs in Hin; apply in_flat_map in Hin as (e & He' & Hin); destruct (akey e) eqn:Ea; [destruct Hin as [Q|[]]|destruct Hin]; injection Q as <- <-; rewrite (Hok e He'), Ea; reflexivity
        |intros d Hin; apply filter_In in Hin as [Hin Hkd]; rewrite (Hok d Hin); unfold keyed in Hkd; destruct (akey d); [discriminate|reflexivity]].
      unfold temp_items. cbn [fst snd]. rewrite pairs_items. unfold ids_first.
      assert (W : forall i d, In i (increasing L) -> tshows (after (HPos i) L) (TDict d) -> with_id idn L i = keyed d).
      { intros i d _ Hd. unfold keyed, akey. destruct (Hkey i d Hd) as [(c & s & Q & _ & K)|[Q K]]; rewrite K.
        - unfold with_id. apply existsb_exists. exists ([HPos i; HKey idn], c). split; [exact Q|]. simpl. rewrite Z.eqb_refl. destruct (str_eqb_spec idn idn); [reflexivity|congruence].
        - unfold with_id. destruct (existsb _ L) eqn:Ex; [|reflexivity]. apply existsb_exists in Ex as ([p c] & Hin & Hp). simpl in Hp.
          destruct p as [|[k|j] [|[k2|j2] [|z p]]]; try discriminate. apply andb_true_iff in Hp as [H1 H2]. apply Z.eqb_eq in H1 as <-. apply str_eqb_true in H2 as ->.
          exfalso. exact (Q _ _ Hin). }
      apply Forall2_app; apply Forall2_filter; auto. intros i d Hin Hd. rewrite (W i d Hin Hd). reflexivity.
  Qed.
End Fin.
