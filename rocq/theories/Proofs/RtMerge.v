(** The round trip: trees that show a part of a document, and merging them. *)
From Coq Require Import Permutation Lia.
From Verif.Base Require Import PyStr PyNum PyVal PyDict Outcome.
From Verif.Model Require Import Warn Lib Convert Input Flatten.
From Verif.Spec Require Import Paths RoundTrip Alike.
From Verif.Proofs Require Import TreeInd RowFin RowRead.
Local Open Scope res_scope.

Inductive xstep := XKey (k : str) | XIdx (i : nat).
Definition xpath := list xstep.
Fixpoint at_x (v : jv) (q : xpath) : option jv :=
  match q with
  | [] => Some v
  | XKey k :: q' => match v with JO d => match sget k d with Some x => at_x x q' | None => None end | _ => None end
  | XIdx i :: q' => match v with JA l => match nth_error l i with Some (JO d) => at_x (JO d) q' | _ => None end | _ => None end
  end.
Lemma at_x_app q : forall v r, at_x v (q ++ r) = match at_x v q with Some x => at_x x r | None => None end.
Proof.
  induction q as [|[k|i] q IH]; intros v r; cbn [app at_x]; [reflexivity| |]; destruct v as [s|l|d]; try reflexivity.
  - destruct (sget k d); [apply IH|reflexivity].
  - destruct (nth_error l i) as [[|?|d]|]; try reflexivity. apply IH.
Qed.

Lemma plain_eqb x y : plain_value x -> plain_value y -> py_eqb x y = true <-> x = y.
Proof.
  intros [(s & -> & _)|(a & ->)] [(t & -> & _)|(b & ->)].
  - rewrite py_eqb_str. destruct (str_eqb_spec s t); split; congruence.
  - split; intros Q; [apply py_eqb_str_l in Q|]; discriminate Q.
  - split; intros Q; [rewrite py_eqb_sym in Q; apply py_eqb_str_l in Q|]; discriminate Q.
  - rewrite py_eqb_int. rewrite Z.eqb_eq. split; congruence.
Qed.
Lemma plain_refl x : plain_value x -> py_eqb x x = true.
Proof. intros H. apply plain_eqb; auto. Qed.
Lemma plain_basic x : plain_value x -> basic x = true.
Proof. intros [(s & -> & _)|(a & ->)]; reflexivity. Qed.

(** ** Values that are the same as one are equal *)
Lemma same_value_eqb a x y : same_value a x -> same_value a y -> py_eqb x y = true.
Proof.
  intros H K.
  assert (N : number a = true -> py_eqb x y = true).
  { intros Hn. assert (A : py_eqb a x = true /\ py_eqb a y = true).
    { destruct a; try discriminate Hn; cbn [same_value] in H, K; split; tauto. }
    destruct A as [A B]. rewrite py_eqb_sym in A. exact (py_eqb_trans _ _ _ A B). }
  destruct a as [|b|z|d|f|s|d]; try (apply N; reflexivity).
  - cbn in H. destruct H; discriminate.
  - destruct x; cbn in H; try (destruct H; discriminate). destruct y; cbn in K; try (destruct K; discriminate). subst. apply py_eqb_refl. reflexivity.
  - destruct x; cbn in H; try (destruct H; discriminate). destruct y; cbn in K; try (destruct K; discriminate). subst. rewrite py_eqb_str. apply str_eqb_refl.
  - cbn in H. destruct H; discriminate.
Qed.
Lemma same_items_eqb l : forall m n, Forall2 same_item l m -> Forall2 same_item l n -> list_eqb py_eqb m n = true.
Proof.
  induction l as [|x l IH]; intros m n H K; inversion H; subst; inversion K; subst; [reflexivity|]. cbn [list_eqb].
  destruct x as [a| |]; cbn [same_item] in *; try contradiction. erewrite same_value_eqb; try eassumption. apply IH; assumption.
Qed.
Lemma same_leaf_eqb y v w : leaf y -> same_leaf y v -> same_leaf y w -> cv_eqb v w = true.
Proof.
  destruct y as [a|l|d]; [| |intros []].
  - intros _. destruct v as [x|m|m|g]; try contradiction; destruct w as [y|n|n|h]; try contradiction. apply same_value_eqb.
  - intros [Hne _]. destruct v as [x|m|m|g]; try contradiction; destruct w as [y|n|n|h]; try contradiction; cbn [same_leaf cv_eqb].
    + apply same_items_eqb.
    + intros H K. exfalso. inversion H as [|[a| |] ? ? ? H1 H2]; subst; [congruence| |destruct H1|destruct H1]. inversion K; subst. contradiction.
    + intros H K. exfalso. inversion K as [|[a| |] ? ? ? H1 H2]; subst; [congruence| |destruct H1|destruct H1]. inversion H; subst. contradiction.
    + clear Hne. revert m n. induction l as [|x l IH]; intros m n H K; inversion H; subst; inversion K; subst; [reflexivity|]. cbn [list_eqb].
      destruct x as [|li|]; try contradiction. erewrite same_items_eqb by eassumption. apply IH; assumption.
Qed.

Lemma same_leaf_fair : fair same_leaf.
Proof. split; [exact same_leaf_eqb|]. intros y g H. destruct y; exact H. Qed.

Section View.
  Context {alike : jv -> cellval -> Prop}.
  Variable idn : str.
  Notation tidy := (tidy idn).

  Lemma tidy_JO d : tidy (JO d) -> d <> [] /\ NoDup (map fst d) /\ (forall k v, In (k, v) d -> heading_key k /\ tidy v) /\ (forall v, sget idn d = Some v -> has_value (Some v)).
  Proof. intros H. inversion H as [? F|? A B C D|]; subst; [destruct F|auto]. Qed.
  Lemma leaf_no_objects l o : leaf (JA l) -> ~ In (JO o) l.
  Proof. intros [_ [H|H]] Hin; [specialize (H _ Hin); discriminate|]. destruct (H _ Hin) as (l' & Q & _). discriminate. Qed.
  Lemma tidy_items l o : tidy (JA l) -> In (JO o) l -> l <> [] /\ (forall y, In y l -> tidy y /\ has_value (id_field idn y)) /\ NoDup (map (id_field idn) l).
  Proof. intros H Hin. inversion H as [? Hl| |? A B C]; subst; [|auto]. exfalso. exact (leaf_no_objects l o Hl Hin). Qed.
  Lemma tidy_JA l : tidy (JA l) -> leaf (JA l) \/ (l <> [] /\ (forall y, In y l -> tidy y /\ has_value (id_field idn y)) /\ NoDup (map (id_field idn) l) /\ forall y, In y l -> exists o, y = JO o).
  Proof.
    intros H. inversion H as [? Hl| |? A B C]; subst; [left; exact Hl|right]. split; [exact A|]. split; [exact B|]. split; [exact C|].
    intros y Hy. destruct (B y Hy) as [_ (s & Hs & _)]. destruct y; try discriminate. eauto.
  Qed.

  Lemma tidy_at q : forall v x, tidy v -> at_x v q = Some x -> tidy x.
  Proof.
    induction q as [|[k|i] q IH]; intros v x Ht H; cbn [at_x] in H; [congruence| |]; destruct v as [s|l|d]; try discriminate.
    - destruct (sget k d) as [y|] eqn:E; [|discriminate]. apply tidy_JO in Ht as (_ & _ & Ha & _). apply sget_In in E. destruct (Ha _ _ E) as [_ Hy]. eauto.
    - destruct (nth_error l i) as [[|?|o]|] eqn:E; try discriminate. apply nth_error_In in E. destruct (tidy_items l o Ht E) as (_ & Ha & _). destruct (Ha _ E) as [Hy _]. eauto.
  Qed.

  (** item [i] of the array, with its id *)
  Definition item_at (l : list jv) (i : nat) (s : scalar) (o : jobj) : Prop := nth_error l i = Some (JO o) /\ sget idn o = Some (JS s).
  Lemma item_plain l i s o : tidy (JA l) -> item_at l i s o -> plain_value s /\ tidy (JO o).
  Proof.
    intros Ht [Hn Hi]. apply nth_error_In in Hn. destruct (tidy_items l o Ht Hn) as (_ & Ha & _). destruct (Ha _ Hn) as [Ho (s' & Es & Hs)]. split; [|exact Ho].
    cbn [id_field] in Es. congruence.
  Qed.
  Lemma item_same l i j s o o' : tidy (JA l) -> item_at l i s o -> item_at l j s o' -> i = j /\ o = o'.
  Proof.
    intros Ht [H1 H2] [H3 H4]. destruct (tidy_items l o Ht (nth_error_In _ _ H1)) as (_ & _ & Hnd).
    assert (i = j) as ->; [|split; [reflexivity|congruence]].
    assert (Hlt : (i < length l)%nat) by (apply nth_error_Some; congruence).
    eapply (proj1 (NoDup_nth_error _) Hnd); [rewrite map_length; exact Hlt|].
    rewrite (map_nth_error _ _ _ H1), (map_nth_error _ _ _ H3). cbn [id_field]. congruence.
  Qed.
  Lemma item_get l i o : tidy (JA l) -> nth_error l i = Some (JO o) -> exists s, item_at l i s o.
  Proof.
    intros Ht Hn. pose proof (nth_error_In _ _ Hn) as Hin. destruct (tidy_items l o Ht Hin) as (_ & Ha & _). destruct (Ha _ Hin) as [_ (s & Hs & _)].
    exists s. split; assumption.
  Qed.
  Lemma item_not_leaf l i s o : item_at l i s o -> ~ leaf (JA l).
  Proof. intros [Hn _] Hl. apply nth_error_In in Hn. exact (leaf_no_objects l o Hl Hn). Qed.

  Inductive view (ord : Prop) : jv -> tnode -> Prop :=
  | vw_leaf y c : leaf y -> alike y (c_val c) -> view ord y (TCell c)
  | vw_dict o d : NoDup (map fst d) -> (forall k n, sget k d = Some n -> exists x, sget k o = Some x /\ view ord x n) -> view ord (JO o) (TDict d)
  | vw_list l data idx : ~ leaf (JA l) -> NoDup idx -> (ord -> idx = seq 0 (length idx)) ->
      Forall2 (fun i kd => exists o, item_at l i (fst kd) o /\ view ord (JO o) (TDict (snd kd))) idx data -> view ord (JA l) (TTemp data []).

  (** the places of the document that the tree has *)
  Fixpoint has (x : jv) (n : tnode) (q : xpath) : Prop :=
    match q with
    | [] => True
    | XKey k :: q' =>
      match x, n with
      | JO o, TDict d => match sget k o, sget k d with Some y, Some m => has y m q' | _, _ => False end
      | _, _ => False
      end
    | XIdx i :: q' =>
      match x, n with
      | JA l, TTemp data _ =>
        match nth_error l i with
        | Some (JO o) => match sget idn o with
                         | Some (JS s) => match kget s data with Some d => has (JO o) (TDict d) q' | None => False end
                         | _ => False
                         end
        | _ => False
        end
      | _, _ => False
      end
    end.

  (** arrays have one item *)
  Inductive single : tnode -> Prop :=
  | sg_cell c : single (TCell c)
  | sg_dict d : (forall k n, sget k d = Some n -> single n) -> single (TDict d)
  | sg_temp k d nk : single (TDict d) -> single (TTemp [(k, d)] nk).

  Definition ready (x : jv) (b v : tnode) : Prop := forall a j, has x v (a ++ [XIdx j]) -> forall i, (i < j)%nat -> has x b (a ++ [XIdx i]).

  Lemma has_app q : forall r x n, has x n (q ++ r) -> has x n q.
  Proof.
    clear alike.
    induction q as [|[k|i] q IH]; intros r x n; cbn [app has]; [intros _; exact I| |].
    - destruct x as [|l|o]; try tauto. destruct n as [|d|]; try tauto. destruct (sget k o); [|tauto]. destruct (sget k d); [|tauto]. apply IH.
    - destruct x as [|l|o]; try tauto. destruct n as [|d|]; try tauto. destruct (nth_error l i) as [[|?|o]|]; try tauto.
      destruct (sget idn o) as [[s|?|?]|]; try tauto. destruct (kget s data); [|tauto]. apply IH.
  Qed.
  Lemma has_at q : forall x n, has x n q -> exists y, at_x x q = Some y.
  Proof.
    clear alike.
    induction q as [|[k|i] q IH]; intros x n H; cbn [has at_x] in *; [eauto| |].
    - destruct x as [|l|o]; try tauto. destruct n as [|d|]; try tauto. destruct (sget k o); [|tauto]. destruct (sget k d); [|tauto]. eauto.
    - destruct x as [|l|o]; try tauto. destruct n as [|d|]; try tauto. destruct (nth_error l i) as [[|?|o]|]; try tauto.
      destruct (sget idn o) as [[s|?|?]|]; try tauto. destruct (kget s data); [|tauto]. eauto.
  Qed.

  (** lookup in the items of an array *)
  Lemma kget_plain {V} s (data : list (scalar * V)) : plain_value s -> (forall k d, In (k, d) data -> plain_value k) ->
    forall d, kget s data = Some d -> In (s, d) data.
  Proof.
    intros Hs. unfold kget. induction data as [|[k e] data IH]; intros Hp d; cbn [aget]; [discriminate|]. destruct (py_eqb s k) eqn:E.
    - intros [= <-]. left. apply plain_eqb in E; [congruence|exact Hs|]. eapply Hp. left. reflexivity.
    - intros H. right. apply IH; [|exact H]. intros; eapply Hp; right; eassumption.
  Qed.
  Lemma In_kget {V} s (data : list (scalar * V)) : plain_value s -> (forall k d, In (k, d) data -> plain_value k) -> NoDup (map fst data) ->
    forall d, In (s, d) data -> kget s data = Some d.
  Proof.
    intros Hs. unfold kget. induction data as [|[k e] data IH]; intros Hp Hn d; [intros []|]. cbn [map fst] in Hn. inversion Hn as [|? ? Hn1 Hn2]; subst. intros [Q|Hin]; cbn [aget].
    - injection Q as -> ->. rewrite plain_refl by exact Hs. reflexivity.
    - destruct (py_eqb s k) eqn:E.
      + exfalso. apply plain_eqb in E; [|exact Hs|eapply Hp; left; reflexivity]. subst. apply Hn1. apply (in_map fst) in Hin. exact Hin.
      + apply IH; [intros; eapply Hp; right; eassumption|exact Hn2|exact Hin].
  Qed.
  Lemma kget_kset {V} s t (v : V) data : plain_value s -> plain_value t -> (forall k d, In (k, d) data -> plain_value k) ->
    kget s (kset t v data) = if py_eqb s t then Some v else kget s data.
  Proof.
    intros Hs Ht. unfold kget, kset. induction data as [|[k e] data IH]; intros Hp; cbn [aget aset].
    - destruct (py_eqb s t); reflexivity.
    - assert (Hk : plain_value k) by (eapply Hp; left; reflexivity). destruct (py_eqb t k) eqn:E; cbn [aget].
      + apply plain_eqb in E; [|exact Ht|exact Hk]. subst k. destruct (py_eqb s t); reflexivity.
      + destruct (py_eqb s k) eqn:E2.
        * destruct (py_eqb s t) eqn:E3; [|reflexivity]. apply plain_eqb in E2; [|exact Hs|exact Hk]. apply plain_eqb in E3; [|exact Hs|exact Ht]. subst. rewrite plain_refl in E by exact Hk. discriminate.
        * apply IH. intros; eapply Hp; right; eassumption.
  Qed.

  Lemma list_plain ord l data idx : tidy (JA l) -> Forall2 (fun i kd => exists o, item_at l i (fst kd) o /\ view ord (JO o) (TDict (snd kd))) idx data ->
    forall k d, In (k, d) data -> plain_value k.
  Proof.
    intros Ht F. induction F as [|i [k0 d0] idx data (o & Ho & _) F IH]; intros k d; [intros []|]. intros [Q|Hin]; [|eauto].
    injection Q as -> ->. destruct (item_plain _ _ _ _ Ht Ho). assumption.
  Qed.
  Notation items ord l := (Forall2 (fun i kd => exists o, item_at l i (fst kd) o /\ view ord (JO o) (TDict (snd kd)))).
  Lemma list_keys ord l data idx : tidy (JA l) -> NoDup idx -> items ord l idx data -> NoDup (map fst data).
  Proof.
    intros Ht Hn F. induction F as [|i [k d] idx data (o & Ho & _) F IH]; cbn [map fst]; [constructor|]. inversion Hn as [|? ? Hn1 Hn2]; subst. constructor; [|apply IH; exact Hn2].
    intros Hin. apply in_map_iff in Hin as ([k' d'] & Q & Hin). cbn [fst] in Q. subst k'. apply Hn1.
    destruct (Forall2_in_r _ _ _ F _ Hin) as (j & Hj & (o' & Ho' & _)). destruct (item_same _ _ _ _ _ _ Ht Ho Ho') as [-> _]. exact Hj.
  Qed.
  Lemma kset_old2 {V} (R : nat -> scalar * V -> Prop) k b b' data idx : plain_value k -> (forall k d, In (k, d) data -> plain_value k) ->
    kget k data = Some b -> (forall i, R i (k, b) -> R i (k, b')) -> Forall2 R idx data -> Forall2 R idx (kset k b' data).
  Proof.
    intros Hk Hp Hg HR F. revert Hp Hg. unfold kget, kset. induction F as [|i [k0 d0] idx data Hi F IH]; intros Hp; cbn [aget aset]; [discriminate|].
    destruct (py_eqb k k0) eqn:E.
    - apply plain_eqb in E; [|exact Hk|eapply Hp; left; reflexivity]. subst k0. intros [= ->]. constructor; [apply HR; exact Hi|exact F].
    - intros Hg. constructor; [exact Hi|]. apply IH; [intros; eapply Hp; right; eassumption|exact Hg].
  Qed.
  Lemma list_get ord l data idx i s o d : tidy (JA l) -> items ord l idx data -> item_at l i s o -> kget s data = Some d -> In i idx /\ view ord (JO o) (TDict d).
  Proof.
    intros Ht F Hi Hg. destruct (item_plain _ _ _ _ Ht Hi) as [Hs _]. apply kget_plain in Hg; [|exact Hs|eapply list_plain; eassumption].
    destruct (Forall2_in_r _ _ _ F _ Hg) as (j & Hj & (o' & Ho' & Hv)). cbn [fst snd] in *. destruct (item_same _ _ _ _ _ _ Ht Hi Ho') as [-> ->]. auto.
  Qed.
  Lemma list_none ord l data idx i s o : tidy (JA l) -> NoDup idx -> items ord l idx data -> item_at l i s o -> kget s data = None -> ~ In i idx.
  Proof.
    intros Ht Hn F Hi Hg Hin. destruct (item_plain _ _ _ _ Ht Hi) as [Hs _].
    destruct (Forall2_in_l _ _ _ F _ Hin) as ([k d] & Hd & (o' & Ho' & _)). cbn [fst snd] in *.
    assert (k = s) as -> by (destruct Hi as [A B], Ho' as [C D]; congruence).
    rewrite (In_kget s data Hs (list_plain _ _ _ _ Ht F) (list_keys _ _ _ _ Ht Hn F) d Hd) in Hg. discriminate.
  Qed.

  (** a fragment put where nothing was *)
  Lemma promote (ord : Prop) n : forall x, tidy x -> view False x n -> single n -> (ord -> forall a j, has x n (a ++ [XIdx j]) -> j = 0%nat) -> view ord x n.
  Proof.
    assert (D : forall d, Pd (fun n => forall x, tidy x -> view False x n -> single n -> (ord -> forall a j, has x n (a ++ [XIdx j]) -> j = 0%nat) -> view ord x n) d ->
              forall o, tidy (JO o) -> view False (JO o) (TDict d) -> single (TDict d) -> (ord -> forall a j, has (JO o) (TDict d) (a ++ [XIdx j]) -> j = 0%nat) -> view ord (JO o) (TDict d)).
    { intros d IH o Ht Hv Hs H0. inversion Hv as [|? ? Hn Hc|]; subst. inversion Hs as [|? Hsc|]; subst. constructor; [exact Hn|]. intros k m Hk.
      destruct (Hc k m Hk) as (y & Hy & Hvy). exists y. split; [exact Hy|]. unfold Pd in IH. rewrite Forall_forall in IH. pose proof (sget_In _ _ _ Hk) as Hin.
      apply (IH _ Hin y); [|exact Hvy|eauto|].
      - apply (tidy_at [XKey k] (JO o) y Ht). cbn [at_x]. rewrite Hy. reflexivity.
      - intros Ho a j Hh. apply (H0 Ho (XKey k :: a) j). cbn [app has]. rewrite Hy, Hk. exact Hh. }
    induction n as [c|d IH|data nk IHd IHn] using tnode_ind'; intros x Ht Hv Hs H0.
    - inversion Hv; subst. constructor; assumption.
    - inversion Hv; subst. apply D; assumption.
    - inversion Hv as [| |l ? idx Hnl Hnd _ F]; subst. inversion Hs as [| |k d ? Hsd]; subst.
      inversion F as [|i ? idx0 ? (o & Ho & Hvo) F0]; subst. inversion F0; subst. cbn [fst snd] in *.
      inversion IHd as [|? ? IH1 _]; subst. cbn [snd] in IH1. destruct (item_plain _ _ _ _ Ht Ho) as [Hk Hto].
      assert (Hstep : forall q, has (JO o) (TDict d) q -> has (JA l) (TTemp [(k, d)] []) (XIdx i :: q)).
      { intros q Hh. cbn [has]. destruct Ho as [E1 E2]. rewrite E1, E2. unfold kget. cbn [aget]. rewrite plain_refl by exact Hk. exact Hh. }
      apply vw_list with (idx := [i]); [exact Hnl|exact Hnd| |].
      + intros Ho'. cbn. f_equal. apply (H0 Ho' [] i). cbn [app]. apply Hstep. exact I.
      + constructor; [|constructor]. exists o. split; [exact Ho|]. apply D; [exact IH1|exact Hto|exact Hvo|exact Hsd|].
        intros Ho' a j Hh. apply (H0 Ho' (XIdx i :: a) j). cbn [app]. apply Hstep. exact Hh.
  Qed.
  Lemma view_any ord x n : view True x n -> view ord x n.
  Proof.
    revert x. assert (D : forall d, Pd (fun n => forall x, view True x n -> view ord x n) d -> forall o, view True (JO o) (TDict d) -> view ord (JO o) (TDict d)).
    { intros d IH o Hv. inversion Hv as [|? ? Hn Hc|]; subst. constructor; [exact Hn|]. intros k m Hk. destruct (Hc k m Hk) as (y & Hy & Hvy). exists y. split; [exact Hy|].
      unfold Pd in IH. rewrite Forall_forall in IH. exact (IH _ (sget_In _ _ _ Hk) y Hvy). }
    induction n as [c|d IH|data nk IHd IHn] using tnode_ind'; intros x Hv; inversion Hv as [|? ? Hn Hc|l ? idx Hnl Hnd Hs F]; subst.
    - constructor; assumption.
    - apply D; assumption.
    - apply vw_list with (idx := idx); [exact Hnl|exact Hnd|auto|]. eapply Forall2_impl_in; [|exact F]. intros i [k d] Hin (o & Ho & Hvo). exists o. split; [exact Ho|].
      rewrite Forall_forall in IHd. specialize (IHd _ Hin). apply D; assumption.
  Qed.

  Section Merge.
    Hypothesis Hfair : fair alike.
    Variables (ord : Prop) (dbg : debug).
    Definition merges (v : tnode) : Prop := forall x, tidy x -> view False x v -> single v -> forall b, view ord x b -> (ord -> ready x b v) ->
      forall k base, sget k base = Some b ->
      exists b', merge_item dbg k v base = Ok (sset k b' base) [] /\ view ord x b' /\ forall q, has x b' q <-> has x b q \/ has x v q.

    Lemma ready_more x b b' v : (forall q, has x b q -> has x b' q) -> ready x b v -> ready x b' v.
    Proof. intros H R a j Hj i Hi. apply H. exact (R a j Hj i Hi). Qed.
    Lemma ready_less x b v v' : (forall q, has x v' q -> has x v q) -> ready x b v -> ready x b v'.
    Proof. intros H R a j Hj i Hi. eapply R; [apply H; exact Hj|exact Hi]. Qed.

    Lemma has_dict o d q k q' : q = XKey k :: q' -> has (JO o) (TDict d) q <-> exists y m, sget k o = Some y /\ sget k d = Some m /\ has y m q'.
    Proof.
      intros ->. cbn [has]. destruct (sget k o) as [y|]; [|split; [tauto|intros (? & ? & Q & _); discriminate]].
      destruct (sget k d) as [m|]; [|split; [tauto|intros (? & ? & _ & Q & _); discriminate]]. split; [eauto|]. intros (? & ? & [= <-] & [= <-] & H). exact H.
    Qed.
    Lemma has_not_idx o d i q : ~ has (JO o) (TDict d) (XIdx i :: q).
    Proof. cbn [has]. tauto. Qed.

    Lemma merge_dict d : Pd merges d -> forall o bd, tidy (JO o) -> view False (JO o) (TDict d) -> single (TDict d) -> view ord (JO o) (TDict bd) ->
      (ord -> ready (JO o) (TDict bd) (TDict d)) ->
      exists bd', merge_list (merge_item dbg) d bd = Ok bd' [] /\ view ord (JO o) (TDict bd') /\
        forall q, has (JO o) (TDict bd') q <-> has (JO o) (TDict bd) q \/ has (JO o) (TDict d) q.
    Proof.
      induction d as [|[k n] d IHd]; intros IH o bd Ht Hv Hs Hb Hr.
      - exists bd. split; [reflexivity|]. split; [exact Hb|]. intros q. split; [tauto|]. intros [H|H]; [exact H|]. destruct q as [|[k|i] q]; [exact I| |destruct H]. cbn in H. destruct (sget k o); destruct H.
      - inversion IH as [|? ? IHk IHd']; subst. cbn [snd] in IHk. inversion Hv as [|? ? Hn Hc|]; subst. inversion Hs as [|? Hsc|]; subst.
        cbn [map fst] in Hn. inversion Hn as [|? ? Hnk Hnd]; subst.
        assert (Hget : sget k ((k, n) :: d) = Some n) by (unfold sget; cbn [aget]; rewrite str_eqb_refl; reflexivity).
        assert (Hrest : forall k' m, sget k' d = Some m -> sget k' ((k, n) :: d) = Some m).
        { intros k' m Hk'. apply In_sget; [exact Hn|]. right. apply sget_In. exact Hk'. }
        destruct (Hc k n Hget) as (y & Hy & Hvy). pose proof (Hsc k n Hget) as Hsn.
        assert (Hty : tidy y) by (apply (tidy_at [XKey k] (JO o) y Ht); cbn [at_x]; rewrite Hy; reflexivity).
        assert (Hv' : view False (JO o) (TDict d)) by (constructor; [exact Hnd|intros k' m Hk'; apply Hc; auto]).
        assert (Hs' : single (TDict d)) by (constructor; intros k' m Hk'; apply (Hsc k'); auto).
        assert (Hcons : forall q, has (JO o) (TDict ((k, n) :: d)) q <-> (q = [] \/ (exists q', q = XKey k :: q' /\ has y n q')) \/ has (JO o) (TDict d) q).
        { intros [|[k'|i] q]; [cbn; tauto| |split; [intros []|intros [[Q|(? & Q & _)]|[]]; discriminate]].
          rewrite (has_dict o ((k, n) :: d) _ k' q eq_refl), (has_dict o d _ k' q eq_refl). split.
          - intros (y' & m & A & B & C). destruct (str_eqb_spec k k') as [<-|Hne].
            + left. right. exists q. split; [reflexivity|]. rewrite Hget in B. injection B as <-. rewrite Hy in A. injection A as <-. exact C.
            + right. exists y', m. split; [exact A|]. split; [|exact C]. unfold sget in *. cbn [aget] in B. destruct (str_eqb_spec k' k); [congruence|exact B].
          - intros [[Q|(q' & Q & C)]|(y' & m & A & B & C)]; [discriminate| |exists y', m; auto]. injection Q as -> ->. exists y, n. auto. }
        inversion Hb as [|? ? Hbn Hbc|]; subst.
        assert (Hstep : exists bd1, merge_item dbg k n bd = Ok bd1 [] /\ view ord (JO o) (TDict bd1) /\
                  forall q, has (JO o) (TDict bd1) q <-> has (JO o) (TDict bd) q \/ (exists q', q = XKey k :: q' /\ has y n q')).
        { destruct (sget k bd) as [b|] eqn:Eb.
          - destruct (Hbc k b Eb) as (y' & Hy' & Hvb). assert (y' = y) as -> by congruence.
            destruct (IHk y Hty Hvy Hsn b Hvb) with (k := k) (base := bd) as (b' & Em & Hvb' & Hh); [|exact Eb|].
            { intros Ho a j Hj i Hi. specialize (Hr Ho (XKey k :: a) j). cbn [app has] in Hr. rewrite Hy, Hget, Eb in Hr. exact (Hr Hj i Hi). }
            exists (sset k b' bd). split; [exact Em|]. split.
            + constructor; [apply sset_NoDup; exact Hbn|]. intros k' m Hk'. destruct (str_eqb_spec k' k) as [-> |Hne].
              * rewrite sget_sset_eq in Hk'. injection Hk' as <-. exists y. auto.
              * rewrite sget_sset_neq in Hk' by exact Hne. auto.
            + intros [|[k'|i] q]; [cbn; tauto| |split; [intros []|intros [[]|(? & Q & _)]; discriminate]].
              rewrite (has_dict o (sset k b' bd) _ k' q eq_refl), (has_dict o bd _ k' q eq_refl). destruct (str_eqb_spec k' k) as [-> |Hne].
              * rewrite sget_sset_eq. split.
                -- intros (? & ? & A & B & C). rewrite Hy in A. injection A as <-. injection B as <-. apply Hh in C as [C|C]; [left; exists y, b; auto|right; eauto].
                -- intros [(? & ? & A & B & C)|(q' & Q & C)].
                   ++ rewrite Hy in A. injection A as <-. rewrite Eb in B. injection B as <-. exists y, b'. split; [exact Hy|]. split; [reflexivity|]. apply Hh. left. exact C.
                   ++ injection Q as ->. exists y, b'. split; [exact Hy|]. split; [reflexivity|]. apply Hh. right. exact C.
              * rewrite sget_sset_neq by exact Hne. split; [tauto|]. intros [H|(q' & Q & _)]; [exact H|]. congruence.
          - exists (sset k n bd). split; [destruct n; cbn [merge_item]; rewrite Eb; reflexivity|]. split.
            + constructor; [apply sset_NoDup; exact Hbn|]. intros k' m Hk'. destruct (str_eqb_spec k' k) as [-> |Hne].
              * rewrite sget_sset_eq in Hk'. injection Hk' as <-. exists y. split; [exact Hy|]. apply promote; [exact Hty|exact Hvy|exact Hsn|].
                intros Ho a j Hj. destruct j as [|j]; [reflexivity|]. exfalso. specialize (Hr Ho (XKey k :: a) (S j)). cbn [app has] in Hr. rewrite Hy, Hget, Eb in Hr.
                apply (Hr Hj 0%nat). lia.
              * rewrite sget_sset_neq in Hk' by exact Hne. auto.
            + intros [|[k'|i] q]; [cbn; tauto| |split; [intros []|intros [[]|(? & Q & _)]; discriminate]].
              rewrite (has_dict o (sset k n bd) _ k' q eq_refl), (has_dict o bd _ k' q eq_refl). destruct (str_eqb_spec k' k) as [-> |Hne].
              * rewrite sget_sset_eq. split.
                -- intros (? & ? & A & B & C). rewrite Hy in A. injection A as <-. injection B as <-. right. eauto.
                -- intros [(? & ? & A & B & C)|(q' & Q & C)]; [congruence|]. injection Q as ->. exists y, n. auto.
              * rewrite sget_sset_neq by exact Hne. split; [tauto|]. intros [H|(q' & Q & _)]; [exact H|]. congruence. }
        destruct Hstep as (bd1 & E1 & Hv1 & H1).
        destruct (IHd IHd' o bd1 Ht Hv' Hs' Hv1) as (bd' & E2 & Hv2 & H2).
        { intros Ho. eapply ready_more; [|eapply ready_less; [|exact (Hr Ho)]].
          - intros q Hq. apply H1. left. exact Hq.
          - intros q Hq. apply Hcons. right. exact Hq. }
        exists bd'. split; [cbn [merge_list]; rewrite E1; cbn [bind]; rewrite E2; reflexivity|]. split; [exact Hv2|].
        intros q. rewrite H2, H1, Hcons. assert (q = [] -> has (JO o) (TDict bd) q) by (intros ->; exact I). tauto.
    Qed.

    Lemma merge_view v : merges v.
    Proof.
      induction v as [c|d IH|data nk IHd IHn] using tnode_ind'; intros x Ht Hv Hs b Hb Hr k base Hk.
      - inversion Hv as [s ? Hl Hc| |]; subst. inversion Hb as [? bc _ Hbc|o bd|l data idx Hnl]; subst; [|destruct Hl|contradiction]. exists (TCell (add_sub bc c)). cbn [merge_item]. rewrite Hk.
        pose proof (proj1 Hfair x (c_val bc) (c_val c) Hl Hbc Hc) as E. split.
        { destruct (c_val c) as [s|m|m|g] eqn:Ec; try (rewrite E; reflexivity). exfalso. exact (proj2 Hfair _ _ Hc). } split; [constructor; [exact Hl|exact Hbc]|]. intros [|[k'|i] q]; destruct x; cbn; tauto.
      - inversion Hv as [|o ? Hn Hc|]; subst. inversion Hb as [? ? F|? bd Hbn Hbc|]; subst; [destruct F|].
        destruct (merge_dict d IH o bd Ht Hv Hs Hb Hr) as (bd' & E & Hv' & Hh). exists (TDict bd'). cbn [merge_item]. rewrite Hk.
        change (merge_list (fun k v base => merge_item dbg k v base)) with (merge_list (merge_item dbg)). rewrite E. split; [reflexivity|]. auto.
      - inversion Hv as [| |l ? idx Hnl Hnd _ F]; subst. inversion Hs as [| |i0 d ? Hsd]; subst. inversion Hb as [| |? bdata bidx _ Hbn Hbo Fb]; subst; [contradiction|].
        inversion F as [|i ? idx0 ? (o & Ho & Hvo) F0]; subst. inversion F0; subst. cbn [fst snd] in *.
        inversion IHd as [|? ? IH1 _]; subst. cbn [snd] in IH1. destruct (item_plain _ _ _ _ Ht Ho) as [Hk0 Hto].
        pose proof (list_plain _ _ _ _ Ht Fb) as Hbp.
        assert (Hone : forall q, has (JA l) (TTemp [(i0, d)] []) (XIdx i :: q) <-> has (JO o) (TDict d) q).
        { intros q. cbn [has]. destruct Ho as [E1 E2]. rewrite E1, E2. unfold kget. cbn [aget]. rewrite plain_refl by exact Hk0. tauto. }
        assert (Hother : forall j q, j <> i -> ~ has (JA l) (TTemp [(i0, d)] []) (XIdx j :: q)).
        { intros j q Hne. cbn [has]. destruct (nth_error l j) as [[|?|o']|] eqn:Ej; try tauto. destruct (item_get _ _ _ Ht Ej) as (s & Ho'). destruct Ho' as [_ Es].
          rewrite Es. unfold kget. cbn [aget]. destruct (py_eqb s i0) eqn:Eq; [|tauto]. exfalso. apply Hne.
          destruct (item_plain l j s o' Ht (conj Ej Es)) as [Hs' _]. apply plain_eqb in Eq; [|exact Hs'|exact Hk0]. subst s.
          exact (proj1 (item_same l j i i0 o' o Ht (conj Ej Es) Ho)). }
        assert (Hget : forall data' j q, has (JA l) (TTemp data' []) (XIdx j :: q) <-> exists s o', item_at l j s o' /\ exists e, kget s data' = Some e /\ has (JO o') (TDict e) q).
        { intros data' j q. cbn [has]. destruct (nth_error l j) as [[|?|o']|] eqn:Ej; try (split; [tauto|intros (? & ? & [Q _] & _); congruence]).
          destruct (item_get _ _ _ Ht Ej) as (s & Ho'). destruct Ho' as [_ Es]. rewrite Es. split.
          - destruct (kget s data') as [e|] eqn:Ek; [|tauto]. intros H. exists s, o'. split; [split; assumption|]. eauto.
          - intros (s' & o2 & [A B] & e & C & D). assert (o2 = o') by congruence. subst o2. assert (s' = s) by congruence. subst s'. rewrite C. exact D. }
        cbn [merge_item]. rewrite Hk. cbn [merge_data].
        assert (G : exists bdata' bidx', (match kget i0 bdata with Some b => b' <- merge_list (merge_item dbg) d b ;; ret (kset i0 b' bdata) | None => ret (kset i0 d bdata) end) = @Ok warning _ bdata' [] /\
                  NoDup bidx' /\ (ord -> bidx' = seq 0 (length bidx')) /\ items ord l bidx' bdata' /\
                  forall q, has (JA l) (TTemp bdata' []) q <-> has (JA l) (TTemp bdata []) q \/ has (JA l) (TTemp [(i0, d)] []) q).
        { destruct (kget i0 bdata) as [b|] eqn:Eb.
          - destruct (list_get _ _ _ _ _ _ _ _ Ht Fb Ho Eb) as [Hin Hvb].
            destruct (merge_dict d IH1 o b Hto Hvo Hsd Hvb) as (b' & E & Hv' & Hh).
            { intros Hor a j Hj i1 Hi. specialize (Hr Hor (XIdx i :: a) j (proj2 (Hone _) Hj) i1 Hi). cbn [app] in Hr.
              rewrite Hget in Hr. destruct Hr as (s' & o2 & Ho2 & e & C & D). destruct Ho as [A1 A2], Ho2 as [B1 B2].
              assert (o2 = o) by congruence. subst o2. assert (s' = i0) by congruence. subst s'. rewrite Eb in C. injection C as <-. exact D. }
            exists (kset i0 b' bdata), bidx. rewrite E. split; [reflexivity|]. split; [exact Hbn|]. split; [exact Hbo|]. split.
            + eapply kset_old2; [exact Hk0|exact Hbp|exact Eb| |exact Fb]. cbn [fst snd]. intros j (o2 & Ho2 & _). exists o2. split; [exact Ho2|].
              destruct (item_same _ _ _ _ _ _ Ht Ho Ho2) as [_ <-]. exact Hv'.
            + intros [|[k'|j] q]; [cbn; tauto|cbn; tauto|]. rewrite !Hget. split.
              * intros (s' & o2 & Ho2 & e & C & D). destruct (item_plain _ _ _ _ Ht Ho2) as [Hs2 _]. rewrite kget_kset in C by assumption. destruct (py_eqb s' i0) eqn:Eq.
                -- apply plain_eqb in Eq; [|assumption|assumption]. subst s'. destruct (item_same _ _ _ _ _ _ Ht Ho Ho2) as [<- <-]. injection C as <-. apply Hh in D as [D|D].
                   ++ left. exists i0, o. split; [exact Ho|]. eauto.
                   ++ right. exists i0, o. split; [exact Ho|]. exists d. split; [|exact D]. unfold kget. cbn [aget]. rewrite plain_refl by exact Hk0. reflexivity.
                -- left. exists s', o2. eauto.
              * intros [(s' & o2 & Ho2 & e & C & D)|(s' & o2 & Ho2 & e & C & D)]; destruct (item_plain _ _ _ _ Ht Ho2) as [Hs2 _].
                -- exists s', o2. split; [exact Ho2|]. rewrite kget_kset by assumption. destruct (py_eqb s' i0) eqn:Eq; [|eauto].
                   apply plain_eqb in Eq; [|assumption|assumption]. subst s'. destruct (item_same _ _ _ _ _ _ Ht Ho Ho2) as [<- <-]. rewrite Eb in C. injection C as <-.
                   exists b'. split; [reflexivity|]. apply Hh. left. exact D.
                -- unfold kget in C. cbn [aget] in C. destruct (py_eqb s' i0) eqn:Eq; [|discriminate]. injection C as <-.
                   apply plain_eqb in Eq; [|assumption|assumption]. subst s'. destruct (item_same _ _ _ _ _ _ Ht Ho Ho2) as [<- <-].
                   exists i0, o. split; [exact Ho|]. exists b'. split; [rewrite kget_kset by assumption; rewrite plain_refl by exact Hk0; reflexivity|]. apply Hh. right. exact D.
          - pose proof (list_none _ _ _ _ _ _ _ Ht Hbn Fb Ho Eb) as Hni.
            assert (Hlow : ord -> forall j, (j < i)%nat -> In j bidx).
            { intros Hor j Hj. specialize (Hr Hor [] i). cbn [app] in Hr. assert (Hb0 : has (JA l) (TTemp bdata []) [XIdx j]) by (apply Hr; [apply Hone; exact I|exact Hj]).
              rewrite Hget in Hb0. destruct Hb0 as (s' & o2 & Ho2 & e & C & _). exact (proj1 (list_get _ _ _ _ _ _ _ _ Ht Fb Ho2 C)). }
            exists (kset i0 d bdata), (bidx ++ [i]). rewrite kset_end by exact Eb. split; [reflexivity|]. split; [apply NoDup_snoc; assumption|].
            assert (Hi : ord -> i = length bidx).
            { intros Hor. specialize (Hbo Hor). specialize (Hlow Hor). rewrite Hbo in Hni, Hlow. rewrite in_seq in Hni.
              destruct (Nat.lt_trichotomy i (length bidx)) as [L|[L|L]]; [exfalso; apply Hni; lia|exact L|]. specialize (Hlow _ L). apply in_seq in Hlow. lia. }
            split; [intros Hor; rewrite app_length; cbn [length]; rewrite seq_app; cbn [seq]; rewrite Nat.add_0_l, <- (Hi Hor); f_equal; rewrite (Hi Hor); exact (Hbo Hor)|]. split.
            + apply Forall2_app; [exact Fb|]. constructor; [|constructor]. exists o. split; [exact Ho|]. cbn [snd]. apply promote; [exact Hto|exact Hvo|exact Hsd|].
              intros Hor a j Hj. destruct j as [|j]; [reflexivity|]. exfalso.
              assert (Hb0 : has (JA l) (TTemp bdata []) ((XIdx i :: a) ++ [XIdx 0])) by (apply (Hr Hor (XIdx i :: a) (S j)); [cbn [app]; apply Hone; exact Hj|lia]).
              cbn [app] in Hb0. rewrite Hget in Hb0. destruct Hb0 as (s' & o2 & Ho2 & e & C & _). exact (Hni (proj1 (list_get _ _ _ _ _ _ _ _ Ht Fb Ho2 C))).
            + rewrite <- kset_end by exact Eb. intros [|[k'|j] q]; [cbn; tauto|cbn; tauto|]. rewrite !Hget. split.
              * intros (s' & o2 & Ho2 & e & C & D). destruct (item_plain _ _ _ _ Ht Ho2) as [Hs2 _]. rewrite kget_kset in C by assumption. destruct (py_eqb s' i0) eqn:Eq.
                -- apply plain_eqb in Eq; [|assumption|assumption]. subst s'. injection C as <-. right. exists i0, o2. split; [exact Ho2|]. exists d. split; [|exact D].
                   unfold kget. cbn [aget]. rewrite plain_refl by exact Hk0. reflexivity.
                -- left. exists s', o2. eauto.
              * intros [(s' & o2 & Ho2 & e & C & D)|(s' & o2 & Ho2 & e & C & D)]; destruct (item_plain _ _ _ _ Ht Ho2) as [Hs2 _].
                -- exists s', o2. split; [exact Ho2|]. rewrite kget_kset by assumption. destruct (py_eqb s' i0) eqn:Eq; [|eauto].
                   apply plain_eqb in Eq; [|assumption|assumption]. subst s'. congruence.
                -- unfold kget in C. cbn [aget] in C. destruct (py_eqb s' i0) eqn:Eq; [|discriminate]. injection C as <-.
                   exists s', o2. split; [exact Ho2|]. exists d. split; [rewrite kget_kset by assumption; rewrite Eq; reflexivity|exact D]. }
        destruct G as (bdata' & bidx' & E & Hn' & Ho' & F' & Hh). exists (TTemp bdata' []).
        split; [|split; [apply vw_list with (idx := bidx'); assumption|exact Hh]].
        transitivity (bind (@Ok warning _ bdata' []) (fun z => ret (sset k (TTemp z ([] ++ [])) base))); [|reflexivity]. rewrite <- E. reflexivity.
    Qed.
    Lemma merge_objects o d bd : tidy (JO o) -> view False (JO o) (TDict d) -> single (TDict d) -> view ord (JO o) (TDict bd) ->
      (ord -> ready (JO o) (TDict bd) (TDict d)) ->
      exists bd', merge dbg bd d = Ok bd' [] /\ view ord (JO o) (TDict bd') /\ forall q, has (JO o) (TDict bd') q <-> has (JO o) (TDict bd) q \/ has (JO o) (TDict d) q.
    Proof. apply merge_dict. apply Forall_forall. intros kv _. apply merge_view. Qed.
  End Merge.
End View.
