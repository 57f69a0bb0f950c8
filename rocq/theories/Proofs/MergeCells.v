(** merge loses and invents no cell *)
From Coq Require Import QArith Permutation.
From Verif.Base Require Import PyStr PyNum PyVal PyDict Outcome.
From Verif.Model Require Import Warn Lib Convert Input.
From Verif.Spec Require Import Ids Cells.
From Verif.Proofs Require Import TreeInd RowWf Distinct IdInv.

Lemma in_below {A} s (l : list (spot * A)) p c : In (p, c) (below s l) <-> exists q, p = s :: q /\ In (q, c) l.
Proof.
  unfold below. rewrite in_map_iff. split.
  - intros ([q c'] & E & H). injection E as <- <-. eauto.
  - intros (q & -> & H). exists (q, c). auto.
Qed.
(** Python-equal ids have the same canonical form *)
Lemma kid_of_eqb a b : py_eqb a b = true -> kid_of a = kid_of b.
Proof.
  unfold py_eqb, kid_of. destruct (num_val a) as [x|] eqn:Ea, (num_val b) as [y|] eqn:Eb; try discriminate.
  - destruct x as [p|m|], y as [q|n|]; simpl; try discriminate.
    + intros H. apply Qeq_bool_iff in H. f_equal. apply Qred_complete. exact H.
    + intros H. apply Bool.eqb_prop in H. congruence.
  - destruct a, b; try discriminate; try reflexivity.
    + intros H. apply str_eqb_eq in H. congruence.
    + intros H. apply N.eqb_eq in H. congruence.
Qed.
Lemma kid_of_sameK a b : sameK a b -> kid_of a = kid_of b.
Proof. intros [->|H]; [reflexivity|apply kid_of_eqb; exact H]. Qed.

Section Labelled.
Variables (xml : bool) (idn : str).
Notation tcells := (Cells.tcells xml idn).
Notation tdcells := (Cells.tdcells xml idn).
Notation icells := (Cells.icells xml idn).
Notation ilab := (Cells.ilab xml idn).

Lemma in_tdcells p c d :
  In (p, c) (tdcells d) <-> exists k n q, In (k, n) d /\ p = Key k :: q /\ In (q, c) (tcells n).
Proof.
  unfold Cells.tdcells. rewrite in_flat_map. split.
  - intros ([k n] & Hin & Hm). apply in_below in Hm as (q & -> & Hq). exists k, n, q. auto.
  - intros (k & n & q & Hin & -> & Hq). exists (k, n). split; [exact Hin|]. apply in_below. exists q. auto.
Qed.
Lemma tcells_dict d : tcells (TDict d) = tdcells d.
Proof. reflexivity. Qed.
Lemma tcells_temp data nk : tcells (TTemp data nk) = flat_map icells (map snd data ++ nk).
Proof.
  cbn [Cells.tcells]. rewrite flat_map_app. f_equal. induction data as [|[k d] data IH]; simpl; [reflexivity|]. rewrite IH. reflexivity.
Qed.
Lemma in_items p c (l : list tdict) : In (p, c) (flat_map icells l) <-> exists d q, In d l /\ p = ilab d :: q /\ In (q, c) (tdcells d).
Proof.
  rewrite in_flat_map. split.
  - intros (d & Hd & H). apply in_below in H as (q & -> & Hq). eauto.
  - intros (d & q & Hd & -> & Hq). exists d. split; [exact Hd|]. apply in_below. eauto.
Qed.

Lemma extends_refl c : extends c c.
Proof. repeat split. apply incl_refl. Qed.
Lemma extends_trans a b c : extends a b -> extends b c -> extends a c.
Proof.
  intros (H1 & H2 & H3) (G1 & G2 & G3). repeat split; [congruence|congruence|]. eapply incl_tran; eassumption.
Qed.
Lemma extends_locs a b : extends a b -> incl (cell_locs b) (cell_locs a).
Proof.
  intros (_ & H2 & H3) l [H|H]; [left; congruence|]. right. apply in_map_iff in H as (x & <- & Hx). apply in_map. auto.
Qed.
Lemma extends_carries a b c : extends a b -> carries b c -> carries a c.
Proof.
  intros He (H1 & H2). split; [eapply extends_locs; eassumption|]. destruct He as (E & _). rewrite E. exact H2.
Qed.
Lemma carries_refl c : carries c c.
Proof. split; [left; reflexivity|left; reflexivity]. Qed.
Lemma extends_add_sub b c : extends (add_sub b c) b.
Proof. repeat split. intros x Hx. simpl. apply in_or_app. left. exact Hx. Qed.

(** the [ignored] warnings name every cell *)
Lemma map_snd_below {A} st (l : list (spot * A)) : map snd (below st l) = map snd l.
Proof. unfold below. rewrite map_map. reflexivity. Qed.
Lemma node_cells_tcells n : node_cells n = map snd (tcells n).
Proof.
  assert (Hd : forall d, Pd (fun n => node_cells n = map snd (tcells n)) d ->
            (fix go (d : tdict) := match d with [] => [] | (_, n) :: d' => node_cells n ++ go d' end) d = map snd (tdcells d)).
  { intros d. induction 1 as [|[k n'] d Hn _ IH]; [reflexivity|].
    unfold Cells.tdcells in *. cbn [flat_map]. cbn [snd] in Hn. rewrite map_app, map_snd_below, <- IH. cbn [snd]. rewrite <- Hn. reflexivity. }
  induction n as [c|d IH|data nk IHd IHn] using tnode_ind'; [reflexivity| |].
  - apply (Hd d IH).
  - cbn [node_cells Cells.tcells]. rewrite map_app. f_equal.
    + induction IHd as [|[k d] l Hk _ IH]; [reflexivity|]. cbn [flat_map snd]. rewrite map_app, map_snd_below, IH. f_equal. apply (Hd d Hk).
    + induction IHn as [|d l Hk _ IH]; [reflexivity|]. cbn [flat_map snd]. rewrite map_app, map_snd_below, IH. f_equal. apply (Hd d Hk).
Qed.
Lemma ignored_names v y p q c :
  In (q, c) (tcells v) -> exists x, In x (ignored v y) /\ named_by x p c.
Proof.
  intros H. exists (WIgnored (l_heading (c_loc c)) y). split; [|reflexivity].
  unfold ignored. apply in_map_iff. exists c. split; [reflexivity|]. rewrite node_cells_tcells.
  apply in_map_iff. exists (q, c). auto.
Qed.

(** keeps: all cells of [a] are still in [b] *)
Definition keeps (a b : list (spot * cell)) : Prop :=
  forall p c, In (p, c) a -> exists c', In (p, c') b /\ extends c' c.
Definition covered (a : list (spot * cell)) (b : list (spot * cell)) (w : list warning) : Prop :=
  forall p c, In (p, c) a ->
    (exists c', In (p, c') b /\ carries c' c) \/ (exists x, In x w /\ named_by x p c).
(** every cell of [b] is a cell of [a] or [m] with extra locations, which are
    those of cells of [m] with an equal value at the same path *)
Definition from (b a m : list (spot * cell)) : Prop :=
  forall p c', In (p, c') b ->
    exists c, (In (p, c) a \/ In (p, c) m) /\ c_val c' = c_val c /\ c_loc c' = c_loc c /\
      forall x, In x (c_sub c') -> In x (c_sub c) \/
        exists cm, In (p, cm) m /\ x = (c_val cm, c_loc cm) /\ cv_eqb (c_val c') (c_val cm) = true.

Lemma keeps_refl a : keeps a a.
Proof. intros p c H. exists c. split; [exact H|apply extends_refl]. Qed.
Lemma keeps_trans a b c : keeps a b -> keeps b c -> keeps a c.
Proof.
  intros H1 H2 p x Hx. destruct (H1 p x Hx) as (y & Hy & E1). destruct (H2 p y Hy) as (z & Hz & E2).
  exists z. split; [exact Hz|eapply extends_trans; eassumption].
Qed.
Lemma keeps_incl a b : incl a b -> keeps a b.
Proof. intros H p c Hc. exists c. split; [apply H; exact Hc|apply extends_refl]. Qed.
Lemma covered_keeps a b b' w w' : covered a b w -> keeps b b' -> covered a b' (w ++ w').
Proof.
  intros H K p c Hc. destruct (H p c Hc) as [(c' & Hin & Hca)|(x & Hx & Hn)].
  - left. destruct (K p c' Hin) as (c2 & H2 & E). exists c2. split; [exact H2|eapply extends_carries; eassumption].
  - right. exists x. split; [apply in_or_app; left; exact Hx|exact Hn].
Qed.
Lemma covered_incl a b w : incl a b -> covered a b w.
Proof. intros H p c Hc. left. exists c. split; [apply H; exact Hc|apply carries_refl]. Qed.
Lemma covered_app a a' b w : covered a b w -> covered a' b w -> covered (a ++ a') b w.
Proof. intros H1 H2 p c Hc. apply in_app_or in Hc as [Hc|Hc]; auto. Qed.
Lemma covered_weak a b w w' : covered a b w -> incl w w' -> covered a b w'.
Proof. intros H Hi p c Hc. destruct (H p c Hc) as [G|(x & Hx & Hn)]; [left; exact G|right; exists x; auto]. Qed.

Lemma from_incl b a m : incl b a -> from b a m.
Proof. intros H p c Hc. exists c. split; [left; apply H; exact Hc|]. repeat split. intros x Hx. left. exact Hx. Qed.
Lemma from_l a m : from a a m.
Proof. apply from_incl, incl_refl. Qed.
Lemma from_weak b a m a' m' : from b a m -> incl a a' -> incl m m' -> from b a' m'.
Proof.
  intros H Ha Hm p c Hc. destruct (H p c Hc) as (x & Hx & Hv & Hl & Hs).
  exists x. split; [destruct Hx; auto|]. repeat split; auto. intros y Hy.
  destruct (Hs y Hy) as [G|(cm & G1 & G2 & G3)]; [left; exact G|right; exists cm; auto].
Qed.
Lemma from_trans c b a m1 m2 :
  (forall p x, In (p, x) m1 -> c_sub x = []) -> (forall p x, In (p, x) m2 -> c_sub x = []) ->
  from b a m1 -> from c b m2 -> from c a (m1 ++ m2).
Proof.
  intros N1 N2 H1 H2 p x Hx. destruct (H2 p x Hx) as (y & [Hy|Hy] & Hv & Hl & Hs).
  - destruct (H1 p y Hy) as (z & Hz & Gv & Gl & Gs). exists z. split.
    { destruct Hz; [left; assumption|right; apply in_or_app; left; assumption]. }
    repeat split; [congruence|congruence|]. intros s Hsx. destruct (Hs s Hsx) as [F|(cm & F1 & F2 & F3)].
    + destruct (Gs s F) as [D|(cm & D1 & D2 & D3)]; [left; exact D|].
      right. exists cm. repeat split; [apply in_or_app; left; exact D1|exact D2|rewrite Hv; exact D3].
    + right. exists cm. repeat split; [apply in_or_app; right; exact F1|exact F2|exact F3].
  - exists y. split; [right; apply in_or_app; right; exact Hy|]. repeat split; auto.
    intros s Hsx. destruct (Hs s Hsx) as [F|(cm & F1 & F2 & F3)]; [left; exact F|].
    right. exists cm. repeat split; [apply in_or_app; right; exact F1|exact F2|exact F3].
Qed.

(** cells of a dict after setting a key *)
Lemma in_sset_iff {V} k (n : V) d kv : NoDup (map fst d) ->
  (In kv (sset k n d) <-> kv = (k, n) \/ (In kv d /\ fst kv <> k)).
Proof.
  intros Hnd. induction d as [|[k' n'] d IH]; unfold sset in *; simpl.
  - split; [intros [<-|[]]; auto|intros [->|[[] _]]; auto].
  - inversion Hnd as [|? ? Hni Hnd']; subst. specialize (IH Hnd').
    destruct (str_eqb_spec k k') as [->|Hne]; simpl.
    + split.
      * intros [<-|H]; [auto|]. right. split; [auto|]. intros E. apply Hni. rewrite <- E. apply in_map. exact H.
      * intros [->|[[<-|H] Hk]]; [auto| simpl in Hk; congruence | auto].
    + rewrite IH. split.
      * intros [<-|[->|[H Hk]]]; [right; split; [auto|simpl; congruence]|auto|right; auto].
      * intros [->|[[<-|H] Hk]]; auto.
Qed.

(** well-formed trees: keys of dicts are distinct.  Needed only because dicts
    are modelled by lists. *)
Fixpoint twf (n : tnode) : Prop :=
  match n with
  | TCell _ => True
  | TDict d => NoDup (map fst d) /\ (fix go (d : tdict) := match d with [] => True | (_, n) :: d' => twf n /\ go d' end) d
  | TTemp data nk =>
    (fix god (l : list (scalar * tdict)) := match l with [] => True | (_, d) :: l' =>
       (NoDup (map fst d) /\ (fix go (d : tdict) := match d with [] => True | (_, n) :: d' => twf n /\ go d' end) d) /\ god l' end) data
    /\ (fix gon (l : list tdict) := match l with [] => True | d :: l' =>
       (NoDup (map fst d) /\ (fix go (d : tdict) := match d with [] => True | (_, n) :: d' => twf n /\ go d' end) d) /\ gon l' end) nk
  end.
Definition tdwf (d : tdict) : Prop := NoDup (map fst d) /\ forall k n, In (k, n) d -> twf n.
Lemma twf_dict d : twf (TDict d) <-> tdwf d.
Proof.
  cbn [twf]. unfold tdwf. apply and_iff_compat_l.
  induction d as [|[k n] d IH]; simpl; [split; [intros _ ? ? []|auto]|].
  rewrite IH. split.
  - intros [H1 H2] k' n' [E|Hin]; [congruence|eauto].
  - intros H. split; [eapply H; left; reflexivity|intros; eapply H; right; eassumption].
Qed.
Lemma twf_temp data nk : twf (TTemp data nk) <-> (forall d, In d (map snd data ++ nk) -> tdwf d).
Proof.
  assert (Hd : forall d, (NoDup (map fst d) /\ (fix go (d : tdict) := match d with [] => True | (_, n) :: d' => twf n /\ go d' end) d) <-> tdwf d)
    by (intros d; apply (twf_dict d)).
  cbn [twf]. split.
  - intros [H1 H2] d Hin. apply in_app_or in Hin as [Hin|Hin].
    + induction data as [|[k d'] data IH]; simpl in Hin; [contradiction|]. destruct H1 as [G1 G2].
      destruct Hin as [<-|Hin]; [apply Hd; exact G1|auto].
    + induction nk as [|d' nk IH]; simpl in Hin; [contradiction|]. destruct H2 as [G1 G2].
      destruct Hin as [<-|Hin]; [apply Hd; exact G1|auto].
  - intros H. split.
    + induction data as [|[k d'] data IH]; [exact I|]. split; [apply Hd; apply H; left; reflexivity|].
      apply IH. intros d Hd'. apply H. right. exact Hd'.
    + induction nk as [|d' nk IH]; [exact I|]. split; [apply Hd; apply H; apply in_or_app; right; left; reflexivity|].
      apply IH. intros d Hd'. apply H. apply in_app_or in Hd' as [?|?]; apply in_or_app; [left; assumption|right; right; assumption].
Qed.

Lemma tdwf_sset k n d : tdwf d -> twf n -> tdwf (sset k n d).
Proof.
  intros [H1 H2] Hn. split; [apply sset_NoDup; exact H1|].
  intros k' n' Hin. apply sset_In in Hin as [E|Hin]; [congruence|eauto].
Qed.
Lemma tdwf_get k n d : tdwf d -> sget k d = Some n -> twf n.
Proof. intros [_ H] E. apply sget_In in E. eauto. Qed.

(** facts about setting one key *)
Lemma tdcells_sset k n d p c : NoDup (map fst d) ->
  (In (p, c) (tdcells (sset k n d)) <->
   (exists q, p = Key k :: q /\ In (q, c) (tcells n)) \/ (In (p, c) (tdcells d) /\ hd_error p <> Some (Key k))).
Proof.
  intros Hnd. rewrite !in_tdcells. split.
  - intros (k' & n' & q & Hin & -> & Hq). apply (in_sset_iff _ _ _ _ Hnd) in Hin as [E|[Hin Hk]].
    + injection E as -> ->. left. eauto.
    + right. split; [exists k', n', q; auto|]. simpl in *. congruence.
  - intros [(q & -> & Hq)|[(k' & n' & q & Hin & -> & Hq) Hk]].
    + exists k, n, q. split; [apply in_sset_iff; auto|auto].
    + exists k', n', q. split; [apply in_sset_iff; [exact Hnd|]|auto]. right. split; [exact Hin|]. simpl in *. congruence.
Qed.
Lemma tdcells_get k b d p c : NoDup (map fst d) -> sget k d = Some b ->
  In (Key k :: p, c) (tdcells d) -> In (p, c) (tcells b).
Proof.
  intros Hnd Hb H. apply in_tdcells in H as (k' & n' & q & Hin & E & Hq). injection E as <- <-.
  apply In_sget in Hin; [|exact Hnd]. rewrite Hb in Hin. injection Hin as ->. exact Hq.
Qed.
Lemma tdcells_get' k b d p c : sget k d = Some b -> In (p, c) (tcells b) -> In (Key k :: p, c) (tdcells d).
Proof. intros Hb H. apply in_tdcells. exists k, b, p. split; [apply sget_In; exact Hb|auto]. Qed.

Lemma keeps_sset k b n d : NoDup (map fst d) -> sget k d = Some b ->
  keeps (tcells b) (tcells n) -> keeps (tdcells d) (tdcells (sset k n d)).
Proof.
  intros Hnd Hb H p c Hc. apply in_tdcells in Hc as Hc'. destruct Hc' as (k' & n' & q & Hin & -> & Hq).
  destruct (str_eqb_spec k' k) as [->|Hne].
  - pose proof (tdcells_get _ _ _ _ _ Hnd Hb Hc) as Hb'. destruct (H q c Hb') as (c' & Hc2 & E).
    exists c'. split; [|exact E]. apply tdcells_sset; [exact Hnd|]. left. eauto.
  - exists c. split; [|apply extends_refl]. apply tdcells_sset; [exact Hnd|]. right. split; [exact Hc|]. simpl. congruence.
Qed.
Lemma keeps_sset_new k n d : sget k d = None -> keeps (tdcells d) (tdcells (sset k n d)).
Proof.
  intros Hb. rewrite sset_new by exact Hb. apply keeps_incl. intros x Hx. unfold Cells.tdcells. rewrite flat_map_app.
  apply in_or_app. left. exact Hx.
Qed.

Lemma named_cons x k q c : q <> [] -> named_by x q c -> named_by x (k :: q) c.
Proof.
  intros Hq. destruct x; simpl; auto. intros (H1 & H2). split; [|exact H2]. destruct q; [congruence|exact H1].
Qed.
Lemma tdcells_nonempty d p c : In (p, c) (tdcells d) -> p <> [].
Proof. intros H. apply in_tdcells in H as (k & n & q & _ & -> & _). discriminate. Qed.

Section Merge.
  Variable dbg : debug.
  Definition nosub (l : list (spot * cell)) : Prop := forall p c, In (p, c) l -> c_sub c = [].

  Record good (a b m : list (spot * cell)) (w : list warning) : Prop := {
    g_keeps : keeps a b;
    g_cov : covered m b w;
    g_from : from b a m }.

  Definition item_good (v : tnode) : Prop :=
    forall k base base' w, tdwf base -> iokd xml idn base -> twf v -> iok xml idn v -> nosub (tcells v) ->
      merge_item dbg k v base = Ok base' w ->
      tdwf base' /\ good (tdcells base) (tdcells base') (below (Key k) (tcells v)) w.

  Lemma good_trans a b c m1 m2 w1 w2 :
    nosub m1 -> nosub m2 ->
    good a b m1 w1 -> good b c m2 w2 -> good a c (m1 ++ m2) (w1 ++ w2).
  Proof.
    intros N1 N2 [K1 C1 F1] [K2 C2 F2]. constructor.
    - eapply keeps_trans; eassumption.
    - apply covered_app; [eapply covered_keeps; eassumption|].
      eapply covered_weak; [exact C2|]. intros x Hx. apply in_or_app. right. exact Hx.
    - eapply from_trans; eassumption.
  Qed.

  Lemma nosub_prefix k l : nosub l -> nosub (below (Key k) l).
  Proof. intros H p c Hc. apply in_below in Hc as (q & _ & Hq). eauto. Qed.

  Lemma merge_list_good d :
    Forall (fun kv => item_good (snd kv)) d -> tdwf d -> iokd xml idn d -> nosub (tdcells d) ->
    forall base base' w, tdwf base -> iokd xml idn base -> merge_list (merge_item dbg) d base = Ok base' w ->
      tdwf base' /\ good (tdcells base) (tdcells base') (tdcells d) w.
  Proof.
    intros HF. induction HF as [|[k v] d Hv _ IH]; intros Hwf Hio Hns base base' w Hb Hbi; simpl.
    - intros [= <- <-]. split; [exact Hb|]. constructor; [apply keeps_refl|intros p c []|apply from_l].
    - intros H. apply bind_ok in H as (b1 & w1 & w2 & H1 & H2 & ->).
      assert (Hv' : twf v) by (destruct Hwf as [_ G]; eapply G; left; reflexivity).
      assert (Hd' : tdwf d).
      { destruct Hwf as [G1 G2]. simpl in G1. inversion G1; subst. split; [assumption|]. intros; eapply G2; right; eassumption. }
      assert (N1 : nosub (below (Key k) (tcells v))).
      { intros p c Hc. apply (Hns p c). unfold Cells.tdcells. simpl. apply in_or_app. left. exact Hc. }
      assert (N1' : nosub (tcells v)).
      { intros p c Hc. apply (N1 (Key k :: p) c). apply in_below. eauto. }
      assert (N2 : nosub (tdcells d)).
      { intros p c Hc. apply (Hns p c). unfold Cells.tdcells. simpl. apply in_or_app. right. exact Hc. }
      assert (Hvi : iok xml idn v) by (eapply Hio; left; reflexivity).
      assert (Hdi : iokd xml idn d) by (intros k' n' Hin; eapply Hio; right; exact Hin).
      destruct (Hv k base b1 w1 Hb Hbi Hv' Hvi N1' H1) as [Hb1 G1].
      assert (Hb1i : iokd xml idn b1) by (exact (merge_item_iok xml idn dbg v k base b1 w1 Hbi Hvi H1)).
      destruct (IH Hd' Hdi N2 b1 base' w2 Hb1 Hb1i H2) as [Hb2 G2]. split; [exact Hb2|].
      change (tdcells ((k, v) :: d)) with (below (Key k) (tcells v) ++ tdcells d).
      eapply good_trans; eassumption.
  Qed.

  (** lifting [good] along replacement of an item inside a list of items *)
  Lemma good_items_replace a x y b m w :
    ilab x = ilab y -> (forall p c, In (p, c) m -> p <> []) ->
    good (tdcells x) (tdcells y) m w ->
    good (flat_map icells (a ++ x :: b)) (flat_map icells (a ++ y :: b)) (below (ilab x) m) w.
  Proof.
    intros Hl Hne [K C F]. constructor.
    - intros p c Hc. apply in_items in Hc as (d & q & Hd & -> & Hc). apply in_app_or in Hd as [Hd|[<-|Hd]].
      + exists c. split; [|apply extends_refl]. apply in_items. exists d, q. split; [apply in_or_app; auto|auto].
      + destruct (K q c Hc) as (c' & Hc' & E). exists c'. split; [|exact E]. apply in_items. exists y, q. rewrite Hl.
        split; [apply in_or_app; right; left; reflexivity|auto].
      + exists c. split; [|apply extends_refl]. apply in_items. exists d, q. split; [apply in_or_app; right; right; exact Hd|auto].
    - intros p c Hc. apply in_below in Hc as (q & -> & Hc). destruct (C q c Hc) as [(c' & Hc' & E)|(z & Hz & G)].
      + left. exists c'. split; [|exact E]. apply in_items. exists y, q. rewrite Hl. split; [apply in_or_app; right; left; reflexivity|auto].
      + right. exists z. split; [exact Hz|]. apply named_cons; [eapply Hne; exact Hc|exact G].
    - intros p c Hc. apply in_items in Hc as (d & q & Hd & -> & Hc). apply in_app_or in Hd as [Hd|[<-|Hd]].
      + exists c. split; [left; apply in_items; exists d, q; split; [apply in_or_app; auto|auto]|]. repeat split. auto.
      + destruct (F q c Hc) as (c0 & H0 & Hv & Hlo & Hs). exists c0. split.
        * destruct H0 as [H0|H0]; [left; apply in_items; exists x, q; rewrite Hl; split; [apply in_or_app; right; left; reflexivity|auto]|].
          right. apply in_below. exists q. rewrite Hl. auto.
        * repeat split; auto. intros z Hz. destruct (Hs z Hz) as [D|(cm & D1 & D2)]; [left; exact D|]. right. exists cm. split; [|exact D2].
          apply in_below. exists q. rewrite Hl. auto.
      + exists c. split; [left; apply in_items; exists d, q; split; [apply in_or_app; right; right; exact Hd|auto]|]. repeat split. auto.
  Qed.
  Lemma good_app a m : good a (a ++ m) m [].
  Proof.
    constructor.
    - apply keeps_incl. intros x Hx. apply in_or_app. left. exact Hx.
    - apply covered_incl. intros x Hx. apply in_or_app. right. exact Hx.
    - intros p c Hc. exists c. split; [apply in_app_or in Hc; exact Hc|]. repeat split. auto.
  Qed.
  Lemma good_equiv a a' b b' m m' w :
    (forall x, In x a <-> In x a') -> (forall x, In x b <-> In x b') -> (forall x, In x m <-> In x m') ->
    good a b m w -> good a' b' m' w.
  Proof.
    intros Ha Hb Hm [K C F]. constructor.
    - intros p c Hc. apply Ha in Hc. destruct (K p c Hc) as (c' & Hc' & E). exists c'. split; [apply Hb; exact Hc'|exact E].
    - intros p c Hc. apply Hm in Hc. destruct (C p c Hc) as [(c' & Hc' & E)|G]; [|right; exact G]. left. exists c'. split; [apply Hb; exact Hc'|exact E].
    - intros p c Hc. apply Hb in Hc. destruct (F p c Hc) as (c0 & H0 & G1 & G2 & G3). exists c0. split; [destruct H0; [left; apply Ha|right; apply Hm]; assumption|].
      repeat split; auto. intros x Hx. destruct (G3 x Hx) as [D|(cm & D1 & D2)]; [left; exact D|]. right. exists cm. split; [apply Hm; exact D1|exact D2].
  Qed.

  Lemma in_app_swap {A} (a b : list A) x : In x (a ++ b) <-> In x (b ++ a).
  Proof. rewrite !in_app_iff. tauto. Qed.

  Lemma merge_data_good data :
    Forall (fun kd : scalar * tdict => Forall (fun kv => item_good (snd kv)) (snd kd)) data ->
    (forall d, In d (map snd data) -> tdwf d) -> nosub (flat_map icells (map snd data)) ->
    (forall k d, In (k, d) data -> (exists i, id_of xml idn d = Some i /\ sameK k i) /\ iokd xml idn d) ->
    forall b bnk b' w, (forall d, In d (map snd b) -> tdwf d) -> iokt xml idn (b, bnk) -> merge_data (merge_item dbg) data b = Ok b' w ->
      (forall d, In d (map snd b') -> tdwf d) /\
      good (flat_map icells (map snd b)) (flat_map icells (map snd b')) (flat_map icells (map snd data)) w.
  Proof.
    intros HF. induction HF as [|[k d] data Hd _ IH]; intros Hwf Hns Hio b bnk b' w Hb Hbt; simpl.
    - intros [= <- <-]. split; [exact Hb|]. constructor; [apply keeps_refl|intros p c []|apply from_l].
    - simpl in Hns, Hwf.
      assert (N1 : nosub (icells d)) by (intros p c Hc; apply (Hns p c); apply in_or_app; left; exact Hc).
      assert (N1' : nosub (tdcells d)) by (intros p c Hc; apply (N1 (ilab d :: p) c); apply in_below; eauto).
      assert (N2 : nosub (flat_map icells (map snd data))) by (intros p c Hc; apply (Hns p c); apply in_or_app; right; exact Hc).
      destruct (Hio k d (or_introl eq_refl)) as [(i & Hi & Hki) Hdi].
      assert (Hio' : forall k d, In (k, d) data -> (exists i, id_of xml idn d = Some i /\ sameK k i) /\ iokd xml idn d)
        by (intros k0 d0 H0; apply Hio; right; exact H0).
      destruct (kget k b) as [old|] eqn:E; intros H.
      + apply bind_ok in H as (b1 & w1 & w2 & H1 & H2 & ->).
        assert (Hold : iokd xml idn old).
        { destruct (kget_In _ _ _ E) as (k2 & Hin & _). apply (it_sub _ _ _ Hbt). unfold temp_items. simpl. apply in_or_app. left.
          apply in_map_iff. exists (k2, old). auto. }
        assert (Hbt1 : iokt xml idn (kset k b1 b, bnk)).
        { eapply iokt_old; [exact Hbt|exact E| |].
          - intros k' Hin _. destruct (it_key _ _ _ Hbt k' old Hin) as (i' & Hi' & Hk'). exists i'. split; [eapply merge_list_id; eassumption|exact Hk'].
          - eapply merge_iok; [exact Hold|exact Hdi|exact H1]. }
        destruct (kset_old k b1 b old E) as (x & k' & y & Eb & Ek & Hkk & _). rewrite Ek in H2, Hbt1.
        assert (Hio2 : exists io, id_of xml idn old = Some io /\ sameK k' io).
        { apply (it_key _ _ _ Hbt). simpl. rewrite Eb. apply in_or_app. right. left. reflexivity. }
        destruct Hio2 as (io & Hio2 & Hko).
        assert (Hl1 : ilab old = ilab b1).
        { unfold Cells.ilab. rewrite Hio2, (merge_list_id _ _ _ _ _ _ _ _ H1 Hio2). reflexivity. }
        assert (Hl2 : ilab d = ilab old).
        { unfold Cells.ilab. rewrite Hio2, Hi. simpl. do 2 f_equal. apply kid_of_sameK in Hki, Hko. apply kid_of_eqb in Hkk. congruence. }
        rewrite Eb in *.
        rewrite map_app in Hb. simpl in Hb.
        assert (Ho : tdwf old) by (apply Hb; apply in_or_app; right; left; reflexivity).
        destruct (merge_list_good d Hd (Hwf d (or_introl eq_refl)) Hdi N1' old b1 w1 Ho Hold H1) as [Hb1 G1].
        assert (Hb' : forall d0, In d0 (map snd (x ++ (k', b1) :: y)) -> tdwf d0).
        { intros d0 H0. rewrite map_app in H0. simpl in H0. apply in_app_or in H0 as [H0|[<-|H0]]; [|exact Hb1|];
            apply Hb; apply in_or_app; [left; exact H0|right; right; exact H0]. }
        destruct (IH (fun d0 H0 => Hwf d0 (or_intror H0)) N2 Hio' _ _ _ _ Hb' Hbt1 H2) as [Hb2 G2]. split; [exact Hb2|].
        eapply good_trans; [exact N1|exact N2| |exact G2].
        rewrite !map_app. simpl. unfold Cells.icells at 3. rewrite Hl2. apply good_items_replace; [exact Hl1| |exact G1].
        intros p c Hc. eapply tdcells_nonempty. exact Hc.
      + assert (Hbt1 : iokt xml idn (kset k d b, bnk)) by (apply iokt_new; eauto).
        rewrite kset_new in H, Hbt1 by exact E.
        assert (Hb' : forall d0, In d0 (map snd (b ++ [(k, d)])) -> tdwf d0).
        { intros d0 H0. rewrite map_app in H0. apply in_app_or in H0 as [H0|[<-|[]]]; [apply Hb; exact H0|]. apply Hwf. left. reflexivity. }
        destruct (IH (fun d0 H0 => Hwf d0 (or_intror H0)) N2 Hio' _ _ _ _ Hb' Hbt1 H) as [Hb2 G2]. split; [exact Hb2|].
        rewrite <- (app_nil_l w). eapply good_trans; [exact N1|exact N2| |exact G2].
        rewrite map_app, flat_map_app. simpl. rewrite app_nil_r. apply good_app.
  Qed.

  (** replacing the value of an existing key *)
  Lemma good_sset k b n d m w : NoDup (map fst d) -> sget k d = Some b ->
    (forall p c, In (p, c) m -> p <> []) ->
    good (tcells b) (tcells n) m w -> good (tdcells d) (tdcells (sset k n d)) (below (Key k) m) w.
  Proof.
    intros Hnd Hb Hne [K C F]. constructor.
    - eapply keeps_sset; eassumption.
    - intros p c Hc. apply in_below in Hc as (q & -> & Hq). destruct (C q c Hq) as [(c' & Hc' & E)|(x & Hx & Hn)].
      + left. exists c'. split; [|exact E]. apply tdcells_sset; [exact Hnd|]. left. eauto.
      + right. exists x. split; [exact Hx|]. apply named_cons; [eapply Hne; exact Hq|exact Hn].
    - intros p c Hc. apply tdcells_sset in Hc as [(q & -> & Hq)|[Hc Hk]]; [| |exact Hnd].
      + destruct (F q c Hq) as (c0 & H0 & G1 & G2 & G3). exists c0. split.
        * destruct H0 as [H0|H0]; [left; eapply tdcells_get'; eassumption|right; apply in_below; eauto].
        * repeat split; auto. intros x Hx. destruct (G3 x Hx) as [D|(cm & D1 & D2)]; [left; exact D|].
          right. exists cm. split; [apply in_below; eauto|exact D2].
      + exists c. split; [left; exact Hc|]. repeat split. auto.
  Qed.
  Lemma good_ignored d v y k : good (tdcells d) (tdcells d) (below (Key k) (tcells v)) (ignored v y).
  Proof.
    constructor; [apply keeps_refl| |apply from_l].
    intros p c Hc. apply in_below in Hc as (q & -> & Hq). right. eapply ignored_names; exact Hq.
  Qed.

  Lemma good_new k v base : sget k base = None -> good (tdcells base) (tdcells (sset k v base)) (below (Key k) (tcells v)) [].
  Proof.
    intros Eb. rewrite sset_new by exact Eb. unfold Cells.tdcells. rewrite flat_map_app.
    cbn [flat_map fst snd]. rewrite app_nil_r. apply good_app.
  Qed.

  Lemma merge_item_good v : item_good v.
  Proof.
    induction v as [c|d IH|data nk IHd IHn] using tnode_ind'; intros k base base' w Hb Hbi Hv Hvi Hns; cbn [merge_item];
      destruct (sget k base) as [b|] eqn:Eb;
      try (intros [= <- <-]; split; [apply tdwf_sset; assumption|apply good_new; exact Eb]).
    - assert (Hsame : forall y, tdwf base /\ good (tdcells base) (tdcells base) (below (Key k) (tcells (TCell c))) (ignored (TCell c) y))
        by (intros y; split; [exact Hb|apply good_ignored]).
      destruct b as [bc|bd|bdata bnk].
      + destruct (match c_val c with CGeo _ => true | _ => false end) eqn:Eg.
        { destruct (c_val c); try discriminate Eg. intros [= <- <-]; apply Hsame. }
        assert (Hm : forall r, (match c_val c, TCell bc with
                   | CGeo _, _ => Ok base (ignored (TCell c) (WhyObject k))
                   | cv, TCell bc0 => if cv_eqb (c_val bc0) cv then ret (sset k (TCell (add_sub bc0 c)) base)
                      else Ok base [WDuplicate (dbg_root_id dbg) (dbg_root dbg) (dbg_id_name dbg) (dbg_id dbg) k (dbg_sheet dbg) (c_val bc0) cv]
                   | _, _ => Ok base (ignored (TCell c) WhyContainer) end) = r ->
                 r = if cv_eqb (c_val bc) (c_val c) then ret (sset k (TCell (add_sub bc c)) base)
                     else Ok base [WDuplicate (dbg_root_id dbg) (dbg_root dbg) (dbg_id_name dbg) (dbg_id dbg) k (dbg_sheet dbg) (c_val bc) (c_val c)]).
        { intros r <-. destruct (c_val c); try reflexivity. discriminate Eg. }
        intros H. apply Hm in H. clear Hm. destruct (cv_eqb (c_val bc) (c_val c)) eqn:Ev.
        * injection H as -> ->. split; [apply tdwf_sset; [exact Hb|exact I]|].
          destruct Hb as [Hnd _]. constructor.
          -- eapply keeps_sset; [exact Hnd|exact Eb|]. intros p x [E|[]]. injection E as <- <-.
             exists (add_sub bc c). split; [left; reflexivity|apply extends_add_sub].
          -- intros p x Hx. apply in_below in Hx as (q & -> & [E|[]]). injection E as <- <-. left.
             exists (add_sub bc c). split; [apply tdcells_sset; [exact Hnd|left; exists []; split; [reflexivity|left; reflexivity]]|].
             split; [|right; exact Ev]. right. simpl. rewrite map_app. apply in_or_app. right. left. reflexivity.
          -- intros p x Hx. apply tdcells_sset in Hx as [(q & -> & [E|[]])|[Hx _]]; [| |exact Hnd].
             ++ injection E as <- <-. exists bc. split; [left; eapply tdcells_get'; [exact Eb|left; reflexivity]|].
                repeat split. intros y Hy. simpl in Hy. apply in_app_or in Hy as [Hy|[<-|[]]]; [left; exact Hy|].
                right. exists c. split; [apply in_below; exists []; split; [reflexivity|left; reflexivity]|]. split; [reflexivity|exact Ev].
             ++ exists x. split; [left; exact Hx|]. repeat split. auto.
        * injection H as -> ->. split; [exact Hb|]. constructor; [apply keeps_refl| |apply from_l].
          intros p x Hx. apply in_below in Hx as (q & -> & [E|[]]). injection E as <- <-. right.
          eexists. split; [left; reflexivity|]. simpl. auto.
      + destruct (c_val c); intros [= <- <-]; apply Hsame.
      + destruct (c_val c); intros [= <- <-]; apply Hsame.
    - destruct b as [bc|bd|bdata bnk]; try (intros [= <- <-]; split; [exact Hb|apply good_ignored]).
      intros H. apply bind_ok in H as (bd' & w1 & w2 & H1 & H2 & ->). injection H2 as <- <-. rewrite app_nil_r.
      pose proof (tdwf_get _ _ _ Hb Eb) as Hbd. rewrite twf_dict in Hv, Hbd.
      assert (Hbdi : iokd xml idn bd) by (apply iok_dict_iff; eapply Hbi; apply sget_In; exact Eb).
      apply iok_dict_iff in Hvi.
      destruct (merge_list_good d IH Hv Hvi Hns bd bd' w1 Hbd Hbdi H1) as [Hbd' G].
      split; [apply tdwf_sset; [exact Hb|apply twf_dict; exact Hbd']|].
      eapply good_sset; [apply Hb|exact Eb| |exact G]. intros p c Hc. eapply tdcells_nonempty. exact Hc.
    - destruct b as [bc|bd|bdata bnk]; try (intros [= <- <-]; split; [exact Hb|apply good_ignored]).
      intros H. apply bind_ok in H as (bd' & w1 & w2 & H1 & H2 & ->). injection H2 as <- <-. rewrite app_nil_r.
      pose proof (tdwf_get _ _ _ Hb Eb) as Hbd. rewrite twf_temp in Hv, Hbd.
      assert (Hbt : iokt xml idn (bdata, bnk)) by (apply iok_temp_iff; eapply Hbi; apply sget_In; exact Eb).
      apply iok_temp_iff in Hvi.
      rewrite tcells_temp, flat_map_app in Hns.
      assert (Hd1 : forall d, In d (map snd data) -> tdwf d) by (intros d0 H0; apply Hv; apply in_or_app; left; exact H0).
      assert (N1 : nosub (flat_map icells (map snd data))) by (intros p c Hc; apply (Hns p c); apply in_or_app; left; exact Hc).
      assert (Hb1 : forall d, In d (map snd bdata) -> tdwf d) by (intros d0 H0; apply Hbd; apply in_or_app; left; exact H0).
      assert (Hio : forall k d, In (k, d) data -> (exists i, id_of xml idn d = Some i /\ sameK k i) /\ iokd xml idn d).
      { intros k0 d0 Hin. split; [exact (it_key _ _ _ Hvi k0 d0 Hin)|]. apply (it_sub _ _ _ Hvi). unfold temp_items. simpl. apply in_or_app. left.
        apply in_map_iff. exists (k0, d0). auto. }
      destruct (merge_data_good data IHd Hd1 N1 Hio bdata bnk bd' w1 Hb1 Hbt H1) as [Hbd' G].
      assert (Hn : twf (TTemp bd' (bnk ++ nk))).
      { apply twf_temp. intros d0 H0. apply in_app_or in H0 as [H0|H0]; [auto|]. apply in_app_or in H0 as [H0|H0];
          [apply Hbd|apply Hv]; apply in_or_app; right; exact H0. }
      split; [apply tdwf_sset; [exact Hb|exact Hn]|].
      eapply good_sset; [apply Hb|exact Eb| |].
      + intros p c Hc. rewrite tcells_temp in Hc. apply in_items in Hc as (d0 & q & _ & -> & Hc). discriminate.
      + rewrite !tcells_temp. rewrite !flat_map_app.
        assert (G' : good (flat_map icells (map snd bdata) ++ flat_map icells bnk)
                          (flat_map icells (map snd bd') ++ flat_map icells bnk) (flat_map icells (map snd data)) w1).
        { destruct G as [K C F]. constructor.
          - intros p c Hc. apply in_app_or in Hc as [Hc|Hc].
            + destruct (K p c Hc) as (c' & Hc' & E). exists c'. split; [apply in_or_app; left; exact Hc'|exact E].
            + exists c. split; [apply in_or_app; right; exact Hc|apply extends_refl].
          - intros p c Hc. destruct (C p c Hc) as [(c' & Hc' & E)|D]; [|right; exact D]. left. exists c'. split; [apply in_or_app; left; exact Hc'|exact E].
          - intros p c Hc. apply in_app_or in Hc as [Hc|Hc].
            + destruct (F p c Hc) as (c0 & [H0|H0] & Hr); exists c0; (split; [|exact Hr]); [left; apply in_or_app; left; exact H0|right; exact H0].
            + exists c. split; [left; apply in_or_app; right; exact Hc|]. repeat split. auto. }
        rewrite <- (app_nil_r w1). eapply good_equiv; [| | |eapply good_trans; [exact N1| |exact G'|apply (good_app _ (flat_map icells nk))]].
        * intros x. reflexivity.
        * intros x. rewrite !in_app_iff. tauto.
        * intros x. reflexivity.
        * intros p c Hc. apply (Hns p c). apply in_or_app. right. exact Hc.
  Qed.

  Theorem merge_good base m base' w : tdwf base -> iokd xml idn base -> tdwf m -> iokd xml idn m -> nosub (tdcells m) ->
    merge dbg base m = Ok base' w -> tdwf base' /\ good (tdcells base) (tdcells base') (tdcells m) w.
  Proof.
    intros Hb Hbi Hm Hmi Hns. apply merge_list_good; auto. apply Forall_forall. intros [k v] _. apply merge_item_good.
  Qed.
End Merge.

(** [tall] gives well-formedness and the predicate on all cells *)
Lemma tall_twf P n : tall P n -> twf n.
Proof.
  induction 1 as [c Hc|d Hnd Hd IH|data nk H1 H2 IH].
  - exact I.
  - apply twf_dict. split; assumption.
  - apply twf_temp. intros d Hd. split; [apply H1; exact Hd|]. exact (IH d Hd).
Qed.
Lemma tall_cells P n : tall P n -> forall p c, In (p, c) (tcells n) -> P c.
Proof.
  induction 1 as [c Hc|d Hnd Hd IH|data nk H1 H2 IH]; intros p x Hx.
  - destruct Hx as [E|[]]. injection E as _ <-. exact Hc.
  - apply in_tdcells in Hx as (k & n & q & Hin & _ & Hq). eapply IH; eassumption.
  - rewrite tcells_temp in Hx. apply in_items in Hx as (d & q0 & Hd & _ & Hx). apply in_tdcells in Hx as (k & n & q & Hin & _ & Hq).
    eapply IH; eassumption.
Qed.
Lemma talld_tdwf P d : talld P d -> tdwf d.
Proof. intros [H1 H2]. split; [exact H1|]. intros k n Hin. eapply tall_twf. eapply H2; exact Hin. Qed.
Lemma talld_cells P d : talld P d -> forall p c, In (p, c) (tdcells d) -> P c.
Proof. intros [H1 H2] p c Hc. apply in_tdcells in Hc as (k & n & q & Hin & _ & Hq). eapply tall_cells; [eapply H2|]; eassumption. Qed.
End Labelled.
