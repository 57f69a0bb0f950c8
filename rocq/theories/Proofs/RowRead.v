(** Reading rows: whole rows and whole runs. *)
From Coq Require Import Lia Permutation.
From Verif.Base Require Import PyStr PyNum PyVal PyDict Outcome.
From Verif.Model Require Import Warn Lib Convert Input.
From Verif.Spec Require Import Headings Plain Ids Cells Rows.
From Verif.Proofs Require Import TreeInd Total RowBuild RowFin RunCells Grouping.
Local Open Scope res_scope.

Section Paths.
  Context {A B : Type}.
  Variable f : A -> B.
  Definition pmap (L : list (hpath * A)) : list (hpath * B) := map (fun pc => (fst pc, f (snd pc))) L.
  Lemma after_pmap s L : after s (pmap L) = pmap (after s L).
  Proof.
    unfold after, pmap. induction L as [|[[|a p] v] L IH]; simpl; [reflexivity|exact IH|]. rewrite map_app, IH. destruct (hstep_eqb a s); reflexivity.
  Qed.
  Lemma fields_pmap L : fields (pmap L) = fields L.
  Proof. unfold pmap. induction L as [|[[|[k|i] p] v] L IH]; simpl; try reflexivity; try exact IH. rewrite IH. reflexivity. Qed.
  Lemma positions_pmap L : positions (pmap L) = positions L.
  Proof. unfold pmap. induction L as [|[[|[k|i] p] v] L IH]; simpl; try reflexivity; try exact IH. rewrite IH. reflexivity. Qed.
  Lemma in_pmap p b L : In (p, b) (pmap L) <-> exists a, In (p, a) L /\ b = f a.
  Proof.
    unfold pmap. rewrite in_map_iff. split.
    - intros ([q a] & Q & Hin). injection Q as <- <-. eauto.
    - intros (a & Hin & ->). exists (p, a). auto.
  Qed.
  Lemma increasing_pmap L : increasing (pmap L) = increasing L.
  Proof. unfold increasing. rewrite positions_pmap. reflexivity. Qed.
  Lemma with_id_pmap idn L i : with_id idn (pmap L) i = with_id idn L i.
  Proof. unfold with_id, pmap. induction L as [|[p v] L IH]; simpl; [reflexivity|]. rewrite IH. reflexivity. Qed.
  Lemma ids_first_pmap idn L : ids_first idn (pmap L) = ids_first idn L.
  Proof.
    unfold ids_first. rewrite increasing_pmap. f_equal; apply filter_ext; intros i; rewrite with_id_pmap; reflexivity.
  Qed.
End Paths.

Lemma Forall2_map_r {A B C} (R : A -> C -> Prop) (g : B -> C) l m : Forall2 (fun a b => R a (g b)) l m -> Forall2 R l (map g m).
Proof. induction 1; simpl; constructor; auto. Qed.
Lemma Forall2_impl_in {A B} (R S : A -> B -> Prop) l m : (forall a b, In b m -> R a b -> S a b) -> Forall2 R l m -> Forall2 S l m.
Proof. intros H F. induction F; constructor; [apply H; [left; reflexivity|assumption]|apply IHF; intros; apply H; [right|]; assumption]. Qed.

Lemma Forall2_in_l {A B} (R : A -> B -> Prop) l m : Forall2 R l m -> forall a, In a l -> exists b, In b m /\ R a b.
Proof. induction 1 as [|a b l m Hr _ IH]; intros x []; [subst; exists b; split; [left; reflexivity|exact Hr]|]. destruct (IH x H) as (y & Hy & Hr'). exists y. split; [right; exact Hy|exact Hr']. Qed.
Definition vnode_of (n : tnode) : vnode := to_v (to_j n).
Definition vdict_of (d : tdict) : vdict := dict_to_v (dict_to_j d).
Lemma vnode_dict d : vnode_of (TDict d) = VDict (vdict_of d).
Proof. reflexivity. Qed.
Lemma in_vdict k n d : In (k, n) (vdict_of d) <-> exists m, In (k, m) d /\ n = vnode_of m.
Proof.
  unfold vdict_of, dict_to_v, dict_to_j. rewrite map_map. simpl. rewrite in_map_iff. split.
  - intros ([k' m] & Q & Hin). injection Q as <- <-. eauto.
  - intros (m & Hin & ->). exists (k, m). auto.
Qed.
Lemma vdict_keys d : map fst (vdict_of d) = map fst d.
Proof. unfold vdict_of, dict_to_v, dict_to_j. rewrite !map_map. reflexivity. Qed.
Lemma vnode_temp data nk : vnode_of (TTemp data nk) = VList (map vdict_of (temp_items (data, nk))).
Proof.
  unfold vnode_of, temp_items, vdict_of, dict_to_v, dict_to_j. cbn [to_j to_v fst snd]. f_equal. rewrite !map_app, !map_map. reflexivity.
Qed.

(** the object of a row as a value *)
Lemma tshows_shows idn n : forall L, tshows idn L n -> shows (ids_first idn) (pmap c_val L) (vnode_of n).
Proof.
  induction n as [c|d IH|data nk IHd IHn] using tnode_ind'; intros L H; inversion H as [|? ? Hb Hk Hc|? ? ? HLne Hb Hf]; subst.
  - constructor.
  - rewrite vnode_dict. constructor.
    + intros p v Hin. apply in_pmap in Hin as (a & Hin & _). eauto.
    + rewrite vdict_keys, fields_pmap. exact Hk.
    + intros k n Hin. apply in_vdict in Hin as (m & Hin & ->). rewrite after_pmap. unfold Pd in IH. rewrite Forall_forall in IH. apply (IH _ Hin). apply Hc. exact Hin.
  - rewrite vnode_temp. constructor.
    + intros Q. apply HLne. destruct L; [reflexivity|discriminate].
    + intros p v Hin. apply in_pmap in Hin as (a & Hin & _). eauto.
    + rewrite ids_first_pmap. apply Forall2_map_r. eapply Forall2_impl_in; [|exact Hf]. intros i d Hd Hs. rewrite after_pmap.
      assert (HF : Pd (fun n => forall L, tshows idn L n -> shows (ids_first idn) (pmap c_val L) (vnode_of n)) d).
      { unfold temp_items in Hd. simpl in Hd. apply in_app_iff in Hd as [Hd|Hd].
        - apply in_map_iff in Hd as (kd & <- & Hd). rewrite Forall_forall in IHd. exact (IHd _ Hd).
        - rewrite Forall_forall in IHn. exact (IHn _ Hd). }
      inversion Hs as [|? ? Hb' Hk' Hc'|]; subst. change (VDict (vdict_of d)) with (VDict (vdict_of d)). constructor.
      * intros p v Hin. apply in_pmap in Hin as (a & Hin & _). eauto.
      * rewrite vdict_keys, fields_pmap. exact Hk'.
      * intros k n Hin. apply in_vdict in Hin as (m & Hin & ->). rewrite after_pmap. unfold Pd in HF. rewrite Forall_forall in HF. apply (HF _ Hin). apply Hc'. exact Hin.
Qed.

(** every path has its cell in the object *)
Lemma tshows_cells xml idn : forall n L, tshows idn L n -> forall p c, In (p, c) L ->
  exists sp, In (sp, c) (tcells xml idn n) /\ (p = [] -> sp = []) /\ (forall k, last p (HPos 0) = HKey k -> last sp (Item None) = Key k).
Proof.
  assert (D : forall d, Pd (fun n => forall L, tshows idn L n -> forall p c, In (p, c) L ->
       exists sp, In (sp, c) (tcells xml idn n) /\ (p = [] -> sp = []) /\ (forall k, last p (HPos 0) = HKey k -> last sp (Item None) = Key k)) d ->
     forall L, tshows idn L (TDict d) -> forall p c, In (p, c) L ->
       exists sp, In (sp, c) (tdcells xml idn d) /\ sp <> [] /\ p <> [] /\ (forall k, last p (HPos 0) = HKey k -> last sp (Item None) = Key k)).
  { intros d HF L H p c Hin. inversion H as [|? ? Hb Hk Hc|]; subst. destruct (Hb _ _ Hin) as (k & q & ->).
    assert (Hf : In k (fields L)) by (apply in_fields; eauto). rewrite <- Hk in Hf. apply in_map_iff in Hf as ([k' n] & <- & Hn). simpl in *.
    unfold Pd in HF. rewrite Forall_forall in HF. destruct (HF _ Hn _ (Hc _ _ Hn) q c) as (sp & H1 & H2 & H3); [apply in_after; exact Hin|].
    exists (Key k' :: sp). split.
    - unfold tdcells. apply in_flat_map. exists (k', n). split; [exact Hn|]. unfold below. apply in_map_iff. exists (sp, c). auto.
    - split; [discriminate|]. split; [discriminate|]. intros k Hl. destruct q as [|a q].
      + simpl in Hl. injection Hl as ->. rewrite H2 by reflexivity. reflexivity.
      + specialize (H3 k). simpl in Hl. simpl in H3. specialize (H3 Hl). destruct sp as [|b sp]; [discriminate|]. exact H3. }
  intros n. induction n as [c|d IH|data nk IHd IHn] using tnode_ind'; intros L H p c' Hin.
  - inversion H; subst. destruct Hin as [Q|[]]. injection Q as <- <-. exists []. split; [left; reflexivity|]. split; [auto|]. simpl. discriminate.
  - destruct (D d IH L H p c' Hin) as (sp & H1 & _ & Hp & H3). exists sp. split; [exact H1|]. split; [contradiction|exact H3].
  - inversion H as [| |? ? ? _ Hb Hf]; subst. destruct (Hb _ _ Hin) as (i & q & ->).
    assert (Hi : In i (ids_first idn L)).
    { unfold ids_first. assert (In i (increasing L)) by (apply in_increasing, in_positions; eauto). apply in_app_iff. destruct (with_id idn L i) eqn:W; [left|right]; apply filter_In; rewrite W; auto. }
    destruct (Forall2_in_l _ _ _ Hf i Hi) as (d & Hd & Hs).
    assert (HF : exists sp, In (sp, c') (tdcells xml idn d) /\ sp <> [] /\ q <> [] /\ (forall k, last q (HPos 0) = HKey k -> last sp (Item None) = Key k)).
    { apply (D d) with (L := after (HPos i) L); [|exact Hs|apply in_after; exact Hin].
      unfold temp_items in Hd. simpl in Hd. apply in_app_iff in Hd as [Hd|Hd].
      - apply in_map_iff in Hd as (kd & <- & Hd). rewrite Forall_forall in IHd. exact (IHd _ Hd).
      - rewrite Forall_forall in IHn. exact (IHn _ Hd). }
    destruct HF as (sp & G1 & H2 & H3 & H4). exists (ilab xml idn d :: sp). split.
    + cbn [tcells]. unfold temp_items in Hd. simpl in Hd.
      assert (G : In (ilab xml idn d :: sp, c') (below (ilab xml idn d) (tdcells xml idn d))) by (unfold below; apply in_map_iff; exists (sp, c'); auto).
      apply in_app_iff. apply in_app_iff in Hd as [Hd|Hd].
      * left. apply in_map_iff in Hd as (kd & E & Hd). apply in_flat_map. exists kd. split; [exact Hd|]. rewrite E. exact G.
      * right. apply in_flat_map. exists d. split; [exact Hd|exact G].
    + split; [discriminate|]. intros k Hl. destruct q as [|a q]; [congruence|]. simpl in Hl. specialize (H4 k Hl). destruct sp as [|b sp]; [congruence|]. exact H4.
Qed.

(** ** A line of cells *)
Lemma settled_in {A} C W (acc rej : list (scalar * (hpath * A))) w : settled C W acc rej w -> forall x, In x C <-> In x acc \/ In x rej.
Proof. induction 1; simpl; intros z; [tauto| |]; rewrite IHsettled; tauto. Qed.
Lemma settled_incl {A} C W (acc rej : list (scalar * (hpath * A))) w : settled C W acc rej w -> incl acc C.
Proof. intros H x Hx. apply (settled_in _ _ _ _ _ H). left. exact Hx. Qed.
Lemma settled_named {A} C W (acc rej : list (scalar * (hpath * A))) w : settled C W acc rej w -> forall h p c, In (h, (p, c)) rej -> exists y, In y w /\ column_named y h p.
Proof.
  induction 1; simpl; intros h p z Hin; [destruct Hin| |].
  - destruct (IHsettled _ _ _ Hin) as (y & Hy & Hn). exists y. split; [apply in_or_app; right; exact Hy|exact Hn].
  - destruct Hin as [-> |Hin]; [exists y; split; [left; reflexivity|assumption]|]. destruct (IHsettled _ _ _ Hin) as (y' & Hy & Hn). exists y'. split; [right; exact Hy|exact Hn].
Qed.
Lemma settled_none {A} C W (acc : list (scalar * (hpath * A))) w : settled C W acc [] w -> acc = C /\ w = concat W.
Proof.
  intros H. remember [] as rej eqn:Er. revert Er. induction H; intros Er; [split; reflexivity| |discriminate].
  destruct (IHsettled Er) as [-> ->]. split; reflexivity.
Qed.
Lemma ids_ok_incl idn L M : ids_ok idn L -> incl M L -> ids_ok idn M.
Proof.
  intros (H1 & H2 & H3) Hi. split; [|split].
  - intros p v q r Hin. apply Hi in Hin. eauto.
  - intros q c Hin. apply Hi in Hin. eauto.
  - intros q i j c d x y Hc Hd. apply Hi in Hc, Hd. eauto.
Qed.
Lemma incl_map' {X Y} (f : X -> Y) l m : incl l m -> incl (map f l) (map f m).
Proof. intros H y Hy. apply in_map_iff in Hy as (x & <- & Hx). apply in_map. auto. Qed.

Theorem row_shown E types idn cells LL W : creads E types cells LL W -> NoDup (map fst (map snd LL)) -> ids_ok idn (map snd LL) ->
  exists d w acc rej, unflatten_row E types false idn cells = Ok d w /\ settled LL W acc rej w /\ tshows idn (map snd acc) (TDict d) /\
      (forall h p c, In (h, (p, c)) rej -> exists q c', In (q, c') (map snd acc) /\ ~ compatible q p).
Proof.
  intros HC Hnd Hi.
  destruct (build_row_shows E types cells LL W HC [] [] rshows_nil Hnd) as (cur & w & acc & rej & Hb & Hdl & Hs & Hr).
  assert (Hi' : ids_ok idn (map snd acc)) by (eapply ids_ok_incl; [exact Hi|apply incl_map'; eapply settled_incl; exact Hdl]).
  destruct (fin_dict_shows idn _ cur Hs Hi') as (d & Ed & Hd); [apply Forall_forall; intros; apply fin_shown|].
  exists d, w, acc, rej. unfold unflatten_row. rewrite Hb. cbn [bind]. rewrite Ed, app_nil_r. auto.
Qed.

(** ** From lines to cells *)
Lemma spelled_nonempty p l : spelled p l -> l <> [].
Proof. intros H. destruct H; discriminate. Qed.
Lemma spelled_last p l : spelled p l -> exists k, last p (HPos 0) = HKey k.
Proof.
  induction 1 as [k Hk|k p l Hk Hp (k' & IH)|k i t p l Hk Ht Hp (k' & IH)]; [exists k; reflexivity| |]; exists k'.
  - destruct p; [inversion Hp|exact IH].
  - destruct p; [inversion Hp|exact IH].
Qed.
Lemma heading_items E h p : heading_of h p -> spelled p (path_items E h).
Proof.
  intros (parts & -> & Hs & Hp). unfold path_items. cbn [py_str].
  change (u "/") with [47%N]. unfold slash. rewrite split_join; [exact Hp| |exact Hs].
  intros ->. apply spelled_nonempty in Hp. apply Hp. reflexivity.
Qed.
Lemma says_items E types h p : heading_says types h p -> exists q, spelled q (path_items E h) /\ p = completed types [] q.
Proof. intros (q & Hq & ->). exists q. split; [apply heading_items; exact Hq|reflexivity]. Qed.
Lemma says_last (E : conv_env) types h p : heading_says types h p -> exists k, last p (HPos 0) = HKey k.
Proof.
  intros H. apply (says_items E) in H as (q & Hq & ->).
  destruct (walk_completed E types h {| l_sheet := []; l_col := []; l_row := 0; l_heading := h |} q _ Hq [] [] eq_refl) as (l' & Hl & _). exact (spelled_last _ _ Hl).
Qed.
Lemma says_fits types h p : heading_of h p -> fits types p -> heading_says types h p.
Proof. intros H Hf. exists p. split; [exact H|]. symmetry. apply completed_fits. exact Hf. Qed.
Lemma convert_untyped_ok E v x w : blank v = false -> convert_type E [] (CV v) = Ok x w -> w = [] /\ exists s, x = CV s /\ hashable (CV s) = true.
Proof.
  intros Hb H. destruct (convert_untyped E (CV v)) as (s & Es & Hh & _).
  - simpl. rewrite (convert_nil E v Hb) in H. destruct v as [|b|z|d|f|t|n]; try exact I. destruct f; simpl; try exact I; discriminate.
  - rewrite Es in H. injection H as <- <-. eauto.
Qed.
Definition same_col (c : column) (l : col) : Prop := fst c = fst l /\ path_of c = fst (snd l) /\ snd (snd c) = c_val (snd (snd l)).

Section Line.
  Variable O : opts.
  Notation E := (o_conv O).
  Lemma line_creads sheet hs j line C W : reads E (o_types O) line C W -> forall k, (forall l, hs = Some l -> N.to_nat k + length line <= length l) ->
    exists cells LL, line_cells O sheet hs j k line = Ok cells [] /\ creads E (o_types O) cells LL W /\ Forall2 same_col C LL /\
      forall i h v, nth_error line i = Some (h, v) -> blank v = false ->
        exists p c w, In (h, (p, c)) LL /\ heading_says (o_types O) h p /\ convert_type E (o_types O (path_text p)) (CV v) = Ok (c_val c) w /\
          l_sheet (c_loc c) = sheet /\ l_row (c_loc c) = (j + 2)%N /\
          l_col (c_loc c) = (if o_vertical O then N_str (k + N.of_nat i + 1)%N else column_letter (k + N.of_nat i + 1)%N) /\
          match hs with None => l_heading (c_loc c) = h | Some l => nth_error l (N.to_nat k + i) = Some (l_heading (c_loc c)) end.
  Proof.
    induction 1 as [|h v line C W Hb HR IH|h v p x w line C W Hb Hp Hfit Hx Hbx HR IH]; intros k Hk; cbn [line_cells].
    - exists [], []. split; [reflexivity|]. split; [constructor|]. split; [constructor|]. intros [|i] h v; discriminate.
    - assert (Hhd : exists hd, (match hs with None => ret h | Some l => match nth_error l (N.to_nat k) with Some x => ret x | None => Raise EIndexError [] end end) = @Ok warning _ hd [] /\
                match hs with None => hd = h | Some l => nth_error l (N.to_nat k) = Some hd end).
      { destruct hs as [l|]; [|eexists; split; reflexivity]. specialize (Hk l eq_refl). simpl in Hk. destruct (nth_error l (N.to_nat k)) eqn:En; [eexists; split; reflexivity|]. apply nth_error_None in En. lia. }
      destruct Hhd as (hd & -> & Hhd).
      destruct (IH (k + 1)%N) as (cells & LL & Ec & Hc & F & Hn). { intros l El. specialize (Hk l El). simpl in Hk. lia. }
      rewrite Ec. cbn [bind ret app]. eexists. exists LL. split; [reflexivity|]. split; [apply cr_blank; [exact Hb|exact Hc]|]. split; [exact F|].
      intros [|i] h' v' Hi Hb'; simpl in Hi; [injection Hi as <- <-; congruence|].
      destruct (Hn i h' v' Hi Hb') as (p & c & w & A1 & A2 & A3 & A4 & A5 & A6 & A7). exists p, c, w. repeat (split; [assumption|]).
      replace (k + N.of_nat (S i) + 1)%N with (k + 1 + N.of_nat i + 1)%N by lia. split; [exact A6|]. destruct hs as [l|]; [|exact A7]. rewrite <- A7. f_equal. lia.
    - assert (Hhd : exists hd, (match hs with None => ret h | Some l => match nth_error l (N.to_nat k) with Some x => ret x | None => Raise EIndexError [] end end) = @Ok warning _ hd [] /\
                match hs with None => hd = h | Some l => nth_error l (N.to_nat k) = Some hd end).
      { destruct hs as [l|]; [|eexists; split; reflexivity]. specialize (Hk l eq_refl). simpl in Hk. destruct (nth_error l (N.to_nat k)) eqn:En; [eexists; split; reflexivity|]. apply nth_error_None in En. lia. }
      destruct Hhd as (hd & -> & Hhd).
      destruct (IH (k + 1)%N) as (cells & LL & Ec & Hc & F & Hn). { intros l El. specialize (Hk l El). simpl in Hk. lia. }
      rewrite Ec. cbn [bind ret app]. eexists. eexists. split; [reflexivity|]. split.
      { eapply cr_cell; [exact Hb|apply says_items; exact Hp|exact Hfit|exact Hx|exact Hbx|exact Hc]. }
      split; [constructor; [repeat split|exact F]|].
      intros [|i] h' v' Hi Hb'; simpl in Hi.
      + injection Hi as <- <-. eexists. eexists. eexists. split; [left; reflexivity|]. split; [exact Hp|]. split; [exact Hx|]. simpl. rewrite N.add_0_r, Nat.add_0_r.
        repeat (split; [reflexivity|]). destruct hs; [exact Hhd|symmetry; congruence].
      + destruct (Hn i h' v' Hi Hb') as (p' & c & w' & A1 & A2 & A3 & A4 & A5 & A6 & A7). exists p', c, w'. split; [right; exact A1|]. repeat (split; [assumption|]).
        replace (k + N.of_nat (S i) + 1)%N with (k + 1 + N.of_nat i + 1)%N by lia. split; [exact A6|]. destruct hs as [l|]; [|exact A7]. rewrite <- A7. f_equal. lia.
  Qed.

  Lemma same_paths C LL : Forall2 same_col C LL -> map path_of C = map fst (map snd LL).
  Proof. induction 1 as [|c l C LL (_ & H & _) _ IH]; simpl; [reflexivity|]. rewrite H, IH. reflexivity. Qed.
  Lemma same_pmap C LL : Forall2 same_col C LL -> map snd C = pmap c_val (map snd LL).
  Proof.
    induction 1 as [|[h [p x]] [h' [p' c]] C LL (H1 & H2 & H3) _ IH]; simpl; [reflexivity|]. unfold path_of in H2. simpl in *. rewrite IH. subst. reflexivity.
  Qed.
  Lemma same_ids_ok C LL : Forall2 same_col C LL -> ids_plain (o_id_name O) (map snd C) ->
    id_ends (o_id_name O) (map snd C) -> ids_distinct (o_id_name O) (map snd C) -> ids_ok (o_id_name O) (map snd LL).
  Proof.
    intros F Hv He Hd. rewrite (same_pmap _ _ F) in He, Hd, Hv. split; [|split].
    - intros p v q r Hin. apply (He p (c_val v) q r). apply in_pmap. eauto.
    - intros q c Hin. destruct (Hv q (c_val c)) as (s & Es & Hh); [apply in_pmap; eauto|]. rewrite Es in Hh. eauto.
    - intros q i j c d x y Hc Hd' Ex Ey. apply (Hd q i j x y); apply in_pmap; eauto.
  Qed.
  Lemma same_settled C LL : Forall2 same_col C LL -> forall W a b w, settled LL W a b w -> exists a' b', settled C W a' b' w /\ Forall2 same_col a' a /\ Forall2 same_col b' b.
  Proof.
    intros F W a b w D. revert C F. induction D as [|x wc l W a b w D IH|x wc y l W a b w Hy D IH]; intros C F; inversion F as [|c ? C' ? Hs F']; subst.
    - exists [], []. repeat constructor.
    - destruct (IH _ F') as (a' & b' & D' & A' & B'). exists (c :: a'), b'. split; [apply settled_kept; exact D'|]. split; [constructor; assumption|exact B'].
    - destruct (IH _ F') as (a' & b' & D' & A' & B'). exists a', (c :: b'). split; [|split; [exact A'|constructor; assumption]].
      apply settled_refused; [|exact D']. destruct Hs as (Q1 & Q2 & _). unfold path_of in Q2. rewrite Q1, Q2. exact Hy.
  Qed.
  Lemma reads_blank_line line C W : reads E (o_types O) line C W -> (C = [] <-> forallb (fun kv => blank (snd kv)) line = true).
  Proof.
    induction 1 as [|h v line C W Hb _ IH|h v p x w line C W Hb _ _ _ _ _ IH]; simpl; [tauto| |].
    - rewrite Hb. exact IH.
    - rewrite Hb. simpl. split; discriminate.
  Qed.
End Line.

(** ids without a type in the schema are plain, and such conversions say nothing *)
Lemma reads_ids_plain E types idn line C W : reads E types line C W -> (forall q, types (path_text (q ++ [HKey idn])) = []) -> ids_plain idn (map snd C).
Proof.
  intros HR Ht. induction HR as [|h v line C W Hb HR IH|h v p x w line C W Hb Hp Hfit Hx Hbx HR IH]; intros q y Hin; [destruct Hin|exact (IH q y Hin)|].
  cbn [map snd] in Hin. destruct Hin as [Q|Hin]; [|exact (IH q y Hin)]. injection Q as -> ->. rewrite Ht in Hx.
  destruct (convert_untyped_ok E v _ w Hb Hx) as (_ & s & -> & Hh). eauto.
Qed.
Lemma reads_silent E types line C W : reads E types line C W -> (forall x, types x = []) -> concat W = [].
Proof.
  intros HR Ht. induction HR as [|h v line C W Hb HR IH|h v p x w line C W Hb Hp Hfit Hx Hbx HR IH]; [reflexivity|exact IH|].
  rewrite Ht in Hx. destruct (convert_untyped_ok E v _ w Hb Hx) as (-> & _). exact IH.
Qed.
Lemma untyped_fits types p : (forall x, types x = []) -> fits types p.
Proof. intros H q k r _. cbv zeta. rewrite H. destruct r as [|[|] r]; [split; discriminate|left; reflexivity|left; reflexivity]. Qed.
