(** Values that come back as nearby ones. *)
From Coq Require Import Permutation.
From Verif.Base Require Import PyStr PyNum PyVal PyDict Outcome.
From Verif.Model Require Import Warn Lib Convert Input Flatten.
From Verif.Spec Require Import Sites Paths Headings RoundTrip Typed Trip Alike Near.
From Verif.Proofs Require Import TreeInd JvInd ConvertFacts RtMerge RtTrip RtTyped.

Lemma near_fair near : fair (near_leaf near).
Proof.
  split.
  - intros y v w Hl Hv Hw. destruct y as [a|l|d]; [|exact (same_leaf_eqb _ v w Hl Hv Hw)..]. cbn [near_leaf same_leaf] in Hv, Hw. destruct v as [x|m|m|g]; try contradiction; destruct w as [y|n|n|h]; try contradiction. exact (same_value_eqb _ _ _ Hv Hw).
  - intros y g H. destruct y; exact H.
Qed.
Lemma sget_map {A B} (f : A -> B) k o : sget k (map (fun kv => (fst kv, f (snd kv))) o) = option_map f (sget k o).
Proof. unfold sget. induction o as [|[k' x] o IH]; [reflexivity|]. cbn [map aget fst snd]. destruct (str_eqb k k'); [reflexivity|exact IH]. Qed.
Lemma keys_map {A B} (f : A -> B) (o : list (str * A)) : map fst (map (fun kv => (fst kv, f (snd kv))) o) = map fst o.
Proof. induction o as [|[k x] o IH]; [reflexivity|]. cbn [map fst]. rewrite IH. reflexivity. Qed.

Section Near.
  Variable near : scalar -> scalar.
  Variable arranged : list jv -> list jv -> Prop.
  Hypothesis Harr : forall f l l', arranged l l' -> arranged (map f l) (map f l').
  Lemma comes_near n : forall x, comes (near_leaf near) arranged x n -> same arranged (nearby near x) n.
  Proof.
    assert (D : forall d, Pvd (fun n => forall x, comes (near_leaf near) arranged x n -> same arranged (nearby near x) n) d -> forall x, comes (near_leaf near) arranged x (VDict d) -> (exists o, x = JO o) /\ same arranged (nearby near x) (VDict d)).
    { intros d IH x H. inversion H as [|o e Hn Hk Hc|]; subst. split; [eauto|]. cbn [nearby]. apply same_object; [exact Hn|intros k; rewrite keys_map; apply Hk|]. intros k x n0 Hx Hg. rewrite sget_map in Hx. destruct (sget k o) as [y|] eqn:Ey; [|discriminate Hx]. injection Hx as <-.
      pose proof (sget_In _ _ _ Hg) as Hin. unfold Pvd in IH. rewrite Forall_forall in IH. exact (IH _ Hin y (Hc k y n0 Ey Hg)). }
    induction n as [c|d IH|l IH] using vnode_ind'; intros x H.
    - inversion H as [y v Hy| |]; subst. apply same_value_leaf. destruct x as [a|l|o]; [exact Hy| |destruct c; destruct Hy]. cbn [near_leaf] in Hy. cbn [nearby].
      replace (map _ l) with l; [exact Hy|]. symmetry. rewrite <- (map_id l) at 2. apply map_ext_in. intros x Hx. destruct x as [a|l'|o]; [reflexivity|reflexivity|exfalso]. destruct c as [b|m|m|g]; try contradiction; cbn [same_leaf] in Hy; clear H; induction Hy as [|y z l m Hyz F IH]; try (destruct Hx; fail); destruct Hx as [-> |Hx]; try exact Hyz; exact (IH Hx).
    - exact (proj2 (D d IH x H)).
    - inversion H as [| |l0 l1 m Ha F]; subst. cbn [nearby]. eapply same_array; [apply Harr; exact Ha|]. clear -F IH D. induction F as [|x d l1 m Hx F IHF]; [constructor|]. inversion IH as [|? ? H1 H2]; subst. cbn [map]. destruct (D d H1 x Hx) as ((o & ->) & Hs). constructor; [exact Hs|exact (IHF H2)].
  Qed.
  Lemma records_near docs out : records_come (near_leaf near) arranged docs out -> same_records arranged (map (nearby_doc near) docs) out.
  Proof. intros H. apply comes_near in H. unfold same_records. cbn [nearby] in H. rewrite map_map in *. exact H. Qed.
End Near.

(** ** nothing changes *)
Lemma nearby_id v : nearby (fun s => s) v = v.
Proof.
  induction v as [s|l IH|o IH] using jv_ind'; [reflexivity| |]; cbn [nearby]; f_equal.
  - induction IH as [|x l Hx _ IH]; [reflexivity|]. cbn [map]. rewrite IH. destruct x; rewrite ?Hx; reflexivity.
  - induction IH as [|[k x] o Hx _ IH]; [reflexivity|]. cbn [map fst snd] in *. rewrite IH, Hx. reflexivity.
Qed.
Lemma nearby_doc_id docs : map (nearby_doc (fun s => s)) docs = docs.
Proof. rewrite <- (map_id docs) at 2. apply map_ext. intros o. pose proof (nearby_id (JO o)) as H. cbn [nearby] in H. injection H as H. exact H. Qed.
Lemma survive_come O P write docs : survive O P write docs -> come (near_leaf (fun s => s)) O P write docs.
Proof.
  intros (A & B & C & D & E). split; [exact A|]. split; [exact B|]. split; [exact C|]. split; [|exact E].
  intros d Q k y c Hd Ha Hl Hc. destruct (D d Q k y c Hd Ha Hl Hc) as (F1 & F2 & v & F3 & F4 & F5 & F6). split; [exact F1|]. split; [exact F2|]. exists v. split; [exact F3|]. split; [exact F4|]. split; [destruct y; exact F5|exact F6].
Qed.

(** ** by types *)
Lemma float_self n m e : same_value (SDec (flt_dec (FFin n m e))) (SDec (flt_dec (FFin n m e))).
Proof.
  cbn [same_value]. split; [reflexivity|]. split; [reflexivity|]. destruct (flt_dec_ok n m e) as (q & p & E1 & _). destruct (flt_dec (FFin n m e)) as [n1 c1 e1| |]; [|discriminate E1..]. apply py_eqb_refl. reflexivity.
Qed.
Lemma whole_decimal z f : py_eqb (SInt z) (SFlt f) = true -> same_value (SDec (flt_dec f)) (SInt z).
Proof.
  intros H. destruct (float_decimal (SInt z) f I H) as (Q & _). cbn [same_value] in *. destruct Q as (_ & _ & Q). split; [reflexivity|]. split; [reflexivity|]. rewrite py_eqb_sym. exact Q.
Qed.
Lemma comes_cell_near O E F back ty y : of_type ty y -> leaf y /\ exists c, leaf_cell O y = Some (JS c) /\ (cell_gives_near F ty c (back c) ->
    blank (back c) = false /\ exists v, convert_type E ty (CV (back c)) = Ok v [] /\ cv_blank v = false /\ near_leaf (float_near back) y v).
Proof.
  intros H. destruct (comes_cell O E F ty y H) as (L & c & Ec & G). split; [exact L|]. exists c. split; [exact Ec|]. intros Hw.
  assert (K : back c = c \/ back c = SStr (py_str F c) -> blank (back c) = false /\ exists v, convert_type E ty (CV (back c)) = Ok v [] /\ cv_blank v = false /\ near_leaf (float_near back) y v).
  { intros Hb. destruct (G (back c)) as (Hb1 & v & Ev & Bv & Sv & _); [destruct Hb; [left|right; left]; assumption|]. split; [exact Hb1|]. exists v. split; [exact Ev|]. split; [exact Bv|].
    destruct y as [a|l|o]; [|exact Sv..]. cbn [near_leaf]. injection Ec as ->. assert (Q : float_near back c = c); [|unfold near_leaf; rewrite Q; exact Sv]. clear -Hb. unfold float_near. destruct c; try reflexivity; destruct Hb as [H|H]; rewrite H; reflexivity. }
  destruct Hw as [Hw|[Hw|(n & m & e & Hw & [-> |(-> & z & Hz)])]]; [apply K; auto|apply K; auto| |].
  - remember (u "number") as ty eqn:Ety. clear G K. destruct H as [ty t Hty Hne|z|s Hs|b|ty l Hty Hne Hne2 F1|l Hne F1|ty L1 Hty F1 Hl|L1 F1 Hl];
      try discriminate Ety; try (exfalso; rewrite Ety in Hty; cbn [In] in Hty; intuition discriminate).
    injection Ec as <-. rewrite Hw. split; [reflexivity|]. exists (CV (SDec (flt_dec (FFin n m e)))). split; [reflexivity|]. split; [reflexivity|]. cbn [near_leaf same_leaf].
    assert (Q : float_near back s = SDec (flt_dec (FFin n m e))) by (clear -Hw Hs; unfold float_near; destruct s; try destruct Hs; rewrite Hw; reflexivity). rewrite Q. apply float_self.
  - remember (u "integer") as ty eqn:Ety. clear G K. destruct H as [ty t Hty Hne|z0|s Hs|b|ty l Hty Hne Hne2 F1|l Hne F1|ty L1 Hty F1 Hl|L1 F1 Hl];
      try discriminate Ety; try (exfalso; rewrite Ety in Hty; cbn [In] in Hty; intuition discriminate).
    injection Ec as <-. rewrite Hw in Hz |- *. split; [reflexivity|]. exists (CV (SInt z)). split; [|split; [reflexivity|]].
    + unfold convert_type. cbn -[to_int]. rewrite (float_integer z _ Hz). reflexivity.
    + cbn [near_leaf same_leaf]. unfold float_near. rewrite Hw. apply whole_decimal. exact Hz.
Qed.

(** every field has the type of the schema, its cell is read as [back] says (cells
    of ids exactly) *)
Theorem typed_come_near O P F back docs : o_xml P = false -> o_id_name P = po_id_name O -> o_root_id P = po_root_id O -> documents O docs ->
  Forall (has_types (o_types P)) docs -> (forall d Q, In d docs -> at_path (JO d) (Q ++ [(po_id_name O, None)]) <> None -> type_at (o_types P) (Q ++ [(po_id_name O, None)]) <> u "number") ->
  (forall d Q k y c, In d docs -> at_path (JO d) (Q ++ [(k, None)]) = Some y -> leaf_cell O y = Some (JS c) ->
     cell_gives_near F (type_at (o_types P) (Q ++ [(k, None)])) c (back c) /\ (k = po_id_name O -> cell_gives F (type_at (o_types P) (Q ++ [(k, None)])) c (back c))) ->
  (forall d s, In d docs -> root_key O d = Some (JS s) -> back s = s \/ back s = SStr (py_str F s)) ->
  ((forall d s, In d docs -> root_key O d = Some (JS s) -> exists t, s = SStr t) \/ (forall d s, In d docs -> root_key O d = Some (JS s) -> exists z, s = SInt z)) ->
  come (near_leaf (float_near back)) O P back docs.
Proof.
  intros Hx Hi Hr HD HT Hn Hw Hw2 Hk. pose proof HD as (_ & _ & FD & _). rewrite Forall_forall in FD, HT.
  split; [exact Hx|]. split; [exact Hi|]. split; [exact Hr|]. split; [|exact (typed_roots O F back docs HD Hw2 Hk)].
  intros d Q k y c Hd Ha Hl Hc. destruct (FD d Hd) as (Ht & _).
  pose proof (typed_leaf (o_types P) d Q k y (HT d Hd) Ha Hl) as Hy. destruct (Hw d Q k y c Hd Ha Hc) as (W1 & W2).
  destruct (comes_cell_near O (o_conv P) F back _ y Hy) as (_ & c' & Ec & G). rewrite Ec in Hc. injection Hc as ->.
  destruct (G W1) as (Hb & v & Ev & Hbv & Hs).
  split; [apply (typed_fits (po_id_name O) _ d (HT d Hd) Ht Q k y Ha Hy)|]. split; [exact Hb|]. exists v. split; [exact Ev|]. split; [exact Hbv|]. split; [exact Hs|].
  intros El. rewrite heading_path_app in El. change (heading_path [(k, None)]) with [HKey k] in El. rewrite last_last in El. injection El as ->. rewrite Hi in *.
  destruct (comes_cell O (o_conv P) F _ y Hy) as (_ & c2 & Ec2 & G2). rewrite Ec in Ec2. injection Ec2 as <-.
  destruct (G2 (back c) (W2 eq_refl)) as (_ & v2 & Ev2 & _ & _ & Hid). unfold type_at in Ev2, Ev. rewrite Ev in Ev2. injection Ev2 as <-. apply Hid.
  + apply Hn with d; [exact Hd|]. rewrite Ha. discriminate.
  + exact (typed_id (po_id_name O) d Q y Ht Ha).
Qed.
(** the nearby documents have finite numbers *)
Lemma float_near_finite back s : finite s -> (forall f, back s = SFlt f -> exists n m e, f = FFin n m e) -> finite (float_near back s).
Proof.
  intros Hs Hb. destruct s as [|b|z|d|f|t|t]; try destruct Hs; unfold float_near; destruct (back _) as [|b|z'|d'|f|t|t]; try exact I; try exact Hs; destruct (Hb f eq_refl) as (n & m & e & ->); destruct (flt_dec_ok n m e) as (q & p & E1 & _); destruct (flt_dec (FFin n m e)); [exact I|discriminate E1|discriminate E1|exact I|discriminate E1|discriminate E1].
Qed.
