(** Reading one row: the tree built from its headings. *)
From Coq Require Import Lia.
From Verif.Base Require Import PyStr PyNum PyVal PyDict Outcome.
From Verif.Model Require Import Warn Lib Convert Input.
From Verif.Spec Require Import Headings Plain.
From Verif.Proofs Require Import TreeInd Total.
Local Open Scope res_scope.

Lemma hstep_eqb_eq a b : hstep_eqb a b = true <-> a = b.
Proof.
  destruct a, b; simpl; split; try discriminate; intros H.
  - destruct (str_eqb_spec k k0); congruence.
  - injection H as ->. destruct (str_eqb_spec k0 k0); congruence.
  - apply Z.eqb_eq in H. congruence.
  - injection H as ->. apply Z.eqb_refl.
Qed.
Lemma hstep_eqb_refl a : hstep_eqb a a = true.
Proof. apply hstep_eqb_eq. reflexivity. Qed.
Lemma hstep_eqb_neq a b : a <> b -> hstep_eqb a b = false.
Proof. intros H. destruct (hstep_eqb a b) eqn:E; [|reflexivity]. apply hstep_eqb_eq in E. contradiction. Qed.

Lemma compatible_sym p : forall q, compatible p q -> compatible q p.
Proof.
  induction p as [|a p IH]; intros [|b q]; simpl; auto.
  destruct (hstep_eqb a b) eqn:E.
  - apply hstep_eqb_eq in E as ->. rewrite hstep_eqb_refl. apply IH.
  - rewrite (hstep_eqb_neq b a); [destruct a, b; simpl; congruence|]. intros ->. rewrite hstep_eqb_refl in E. discriminate.
Qed.
Lemma compatible_irrefl p : ~ compatible p p.
Proof. induction p as [|a p IH]; simpl; [tauto|]. rewrite hstep_eqb_refl. exact IH. Qed.

Section After.
  Context {A : Type}.
  Notation PL := (list (hpath * A)).
  Lemma after_app s (L M : PL) : after s (L ++ M) = after s L ++ after s M.
  Proof. unfold after. apply flat_map_app. Qed.
  Lemma after_here s p (v : A) : after s [(s :: p, v)] = [(p, v)].
  Proof. unfold after. simpl. rewrite hstep_eqb_refl. reflexivity. Qed.
  Lemma after_other s t p (v : A) : t <> s -> after s [(t :: p, v)] = [].
  Proof. intros H. unfold after. simpl. rewrite hstep_eqb_neq by exact H. reflexivity. Qed.
  Lemma in_after s (L : PL) p v : In (p, v) (after s L) <-> In (s :: p, v) L.
  Proof.
    unfold after. rewrite in_flat_map. split.
    - intros ([q w] & Hin & H). simpl in H. destruct q as [|a q]; [destruct H|]. destruct (hstep_eqb a s) eqn:E; [|destruct H].
      destruct H as [[= -> ->]|[]]. apply hstep_eqb_eq in E as ->. exact Hin.
    - intros H. exists (s :: p, v). split; [exact H|]. simpl. rewrite hstep_eqb_refl. left. reflexivity.
  Qed.
  Lemma in_fields k (L : PL) : In k (fields L) <-> exists p v, In (HKey k :: p, v) L.
  Proof.
    induction L as [|[q w] L IH]; simpl; [split; [intros []|intros (?&?&[])]|].
    destruct q as [|[k'|i] q].
    - rewrite IH. split; intros (p & v & H); exists p, v; [right; exact H|destruct H as [H|H]; [discriminate|exact H]].
    - simpl. rewrite filter_In, IH. split.
      + intros [-> |[(p & v & H) _]]; [exists q, w; left; reflexivity|exists p, v; right; exact H].
      + intros (p & v & [H|H]).
        * injection H as -> _ _. left. reflexivity.
        * destruct (str_eqb_spec k' k) as [->|Hne]; [left; reflexivity|right]. split; [eauto|]. destruct (str_eqb_spec k' k); [contradiction|reflexivity].
    - rewrite IH. split; intros (p & v & H); exists p, v; [right; exact H|destruct H as [H|H]; [discriminate|exact H]].
  Qed.
  Lemma in_positions i (L : PL) : In i (positions L) <-> exists p v, In (HPos i :: p, v) L.
  Proof.
    induction L as [|[q w] L IH]; simpl; [split; [intros []|intros (?&?&[])]|].
    destruct q as [|[k'|j] q].
    - rewrite IH. split; intros (p & v & H); exists p, v; [right; exact H|destruct H as [H|H]; [discriminate|exact H]].
    - rewrite IH. split; intros (p & v & H); exists p, v; [right; exact H|destruct H as [H|H]; [discriminate|exact H]].
    - simpl. rewrite filter_In, IH. split.
      + intros [-> |[(p & v & H) _]]; [exists q, w; left; reflexivity|exists p, v; right; exact H].
      + intros (p & v & [H|H]).
        * injection H as -> _ _. left. reflexivity.
        * destruct (Z.eqb_spec j i) as [->|Hne]; [left; reflexivity|right]. split; [eauto|]. destruct (Z.eqb_spec j i); [contradiction|reflexivity].
  Qed.
  Lemma NoDup_filter' {B} (f : B -> bool) l : NoDup l -> NoDup (filter f l).
  Proof. apply NoDup_filter. Qed.
  Lemma fields_NoDup (L : PL) : NoDup (fields L).
  Proof.
    induction L as [|[[|[k|i] q] w] L IH]; simpl; try constructor; auto; [|apply NoDup_filter; exact IH].
    rewrite filter_In. intros [_ H]. destruct (str_eqb_spec k k); [discriminate|congruence].
  Qed.
  Lemma positions_NoDup (L : PL) : NoDup (positions L).
  Proof.
    induction L as [|[[|[k|i] q] w] L IH]; simpl; try constructor; auto; [|apply NoDup_filter; exact IH].
    rewrite filter_In. intros [_ H]. rewrite Z.eqb_refl in H. discriminate.
  Qed.
  Lemma filter_snoc {B} (f : B -> bool) l x : filter f (l ++ [x]) = filter f l ++ (if f x then [x] else []).
  Proof. rewrite filter_app. reflexivity. Qed.
  Lemma fields_snoc_new (L : PL) k p v : ~ In k (fields L) -> fields (L ++ [(HKey k :: p, v)]) = fields L ++ [k].
  Proof.
    induction L as [|[[|[k'|i] q] w] L IH]; simpl; auto. intros H.
    destruct (str_eqb_spec k' k) as [->|Hne]; [exfalso; apply H; left; reflexivity|].
    rewrite IH. { rewrite filter_snoc. destruct (str_eqb_spec k' k); [contradiction|]. reflexivity. }
    intros Hk. apply H. right. apply filter_In. split; [exact Hk|]. destruct (str_eqb_spec k' k); [contradiction|reflexivity].
  Qed.
  Lemma fields_snoc_old (L : PL) k p v : In k (fields L) -> fields (L ++ [(HKey k :: p, v)]) = fields L.
  Proof.
    induction L as [|[[|[k'|i] q] w] L IH]; simpl; auto; [intros []|]. intros H. f_equal.
    destruct (str_eqb_spec k' k) as [->|Hne].
    - destruct (in_dec (list_eq_dec N.eq_dec) k (fields L)) as [Hk|Hk]; [rewrite IH by exact Hk; reflexivity|].
      rewrite fields_snoc_new by exact Hk. rewrite filter_snoc. destruct (str_eqb_spec k k); [|congruence]. simpl. apply app_nil_r.
    - destruct H as [H|H]; [contradiction|]. apply filter_In in H as [H _]. rewrite IH by exact H. reflexivity.
  Qed.
  Lemma positions_snoc_new (L : PL) k p v : ~ In k (positions L) -> positions (L ++ [(HPos k :: p, v)]) = positions L ++ [k].
  Proof.
    induction L as [|[[|[k'|i] q] w] L IH]; simpl; auto. intros H.
    destruct (Z.eqb_spec i k) as [->|Hne]; [exfalso; apply H; left; reflexivity|].
    rewrite IH. { rewrite filter_snoc. destruct (Z.eqb_spec i k); [contradiction|]. reflexivity. }
    intros Hk. apply H. right. apply filter_In. split; [exact Hk|]. destruct (Z.eqb_spec i k); [contradiction|reflexivity].
  Qed.
  Lemma positions_snoc_old (L : PL) k p v : In k (positions L) -> positions (L ++ [(HPos k :: p, v)]) = positions L.
  Proof.
    induction L as [|[[|[k'|i] q] w] L IH]; simpl; auto; [intros []|]. intros H. f_equal.
    destruct (Z.eqb_spec i k) as [->|Hne].
    - destruct (in_dec Z.eq_dec k (positions L)) as [Hk|Hk]; [rewrite IH by exact Hk; reflexivity|].
      rewrite positions_snoc_new by exact Hk. rewrite filter_snoc. rewrite Z.eqb_refl. simpl. apply app_nil_r.
    - destruct H as [H|H]; [contradiction|]. apply filter_In in H as [H _]. rewrite IH by exact H. reflexivity.
  Qed.
End After.

(** ** Trees under construction *)
Inductive rshows : list (hpath * cell) -> rnode -> Prop :=
| rsh_leaf c : rshows [([], c)] (RCell c)
| rsh_object L d : begin_with_field L -> map fst d = fields L ->
    (forall k n, In (k, n) d -> rshows (after (HKey k) L) n) -> rshows L (RDict d)
| rsh_array L l : L <> [] -> begin_with_position L -> map fst l = positions L ->
    (forall i d, In (i, d) l -> rshows (after (HPos i) L) (RDict d)) -> rshows L (RLad l).

Lemma rshows_nil : rshows [] (RDict []).
Proof. constructor; [intros p v []|reflexivity|intros k n []]. Qed.

Lemma aset_same_gen {K V} (eqb : K -> K -> bool) (Heq : forall a b, eqb a b = true -> a = b) k (v : V) d : aget eqb k d = Some v -> aset eqb k v d = d.
Proof.
  induction d as [|[k' v'] d IH]; simpl; [discriminate|]. destruct (eqb k k') eqn:E; [intros [= ->]; reflexivity|]. intros H. rewrite IH by exact H. reflexivity.
Qed.
Lemma str_eqb_true a b : str_eqb a b = true -> a = b.
Proof. destruct (str_eqb_spec a b); [auto|discriminate]. Qed.
Lemma sset_same {V} k (v : V) d : sget k d = Some v -> sset k v d = d.
Proof. apply aset_same_gen, str_eqb_true. Qed.
Lemma Zeqb_true a b : (a =? b)%Z = true -> a = b.
Proof. apply Z.eqb_eq. Qed.
Lemma zset_same {V} k (v : V) d : zget k d = Some v -> zset k v d = d.
Proof. apply aset_same_gen, Zeqb_true. Qed.
Lemma zget_In' {V} k (v : V) d : zget k d = Some v -> In (k, v) d.
Proof.
  induction d as [|[k' v'] d IH]; unfold zget in *; simpl; [discriminate|]. destruct (Z.eqb_spec k k') as [->|]; [intros [= ->]; auto|auto].
Qed.
Lemma zget_None {V} k (d : list (Z * V)) : zget k d = None -> ~ In k (map fst d).
Proof.
  induction d as [|[k' v'] d IH]; unfold zget in *; simpl; [tauto|]. destruct (Z.eqb_spec k k') as [->|Hn]; [discriminate|]. intros H [Q|Q]; [congruence|]. exact (IH H Q).
Qed.
Lemma zset_new {V} k (v : V) d : zget k d = None -> zset k v d = d ++ [(k, v)].
Proof.
  induction d as [|[k' v'] d IH]; unfold zget, zset in *; simpl; [reflexivity|]. destruct (Z.eqb_spec k k') as [->|Hn]; [discriminate|]. intros H. rewrite IH by exact H. reflexivity.
Qed.
Lemma zset_keys {V} k (v : V) d w : zget k d = Some w -> map fst (zset k v d) = map fst d.
Proof.
  induction d as [|[k' v'] d IH]; unfold zget, zset in *; simpl; [discriminate|]. destruct (Z.eqb_spec k k') as [->|Hn]; [reflexivity|]. intros H. simpl. rewrite IH by exact H. reflexivity.
Qed.
Lemma zset_In {V} k (v : V) d j x : NoDup (map fst d) -> In (j, x) (zset k v d) -> (j = k /\ x = v) \/ (j <> k /\ In (j, x) d).
Proof.
  induction d as [|[k' v'] d IH]; unfold zset in *; simpl; intros Hnd.
  - intros [Q|[]]. injection Q as -> ->. auto.
  - inversion Hnd; subst. destruct (Z.eqb_spec k k') as [->|Hn].
    + intros [Q|Q]; [injection Q as -> ->; auto|]. right. split; [|auto]. intros ->. apply H1. apply (in_map fst) in Q. exact Q.
    + intros [Q|Q]; [injection Q as -> ->; right; auto|]. destruct (IH H2 Q) as [?|[? ?]]; auto.
Qed.
Lemma sset_In_nodup {V} k (v : V) d j x : NoDup (map fst d) -> In (j, x) (sset k v d) -> (j = k /\ x = v) \/ (j <> k /\ In (j, x) d).
Proof.
  induction d as [|[k' v'] d IH]; unfold sset in *; simpl; intros Hnd.
  - intros [Q|[]]. injection Q as -> ->. auto.
  - inversion Hnd; subst. destruct (str_eqb_spec k k') as [->|Hn].
    + intros [Q|Q]; [injection Q as -> ->; auto|]. right. split; [|auto]. intros ->. apply H1. apply (in_map fst) in Q. exact Q.
    + intros [Q|Q]; [injection Q as -> ->; right; auto|]. destruct (IH H2 Q) as [?|[? ?]]; auto.
Qed.

(** putting a field: the paths gain one that begins with [k] *)
Lemma rshows_put L cur k p c n : rshows L (RDict cur) ->
  rshows (after (HKey k) L ++ [(p, c)]) n -> rshows (L ++ [(HKey k :: p, c)]) (RDict (sset k n cur)).
Proof.
  intros H Hn. inversion H as [|? ? Hb Hk Hc|]; subst.
  assert (Hnd : NoDup (map fst cur)) by (rewrite Hk; apply fields_NoDup).
  constructor.
  - intros q v Hin. apply in_app_iff in Hin as [Hin|[Q|[]]]; [eauto|]. injection Q as <- <-. eauto.
  - destruct (sget k cur) as [m|] eqn:Eg.
    + rewrite sset_keys by congruence. rewrite Hk. symmetry. apply fields_snoc_old. rewrite <- Hk. apply sget_In in Eg. apply (in_map fst) in Eg. exact Eg.
    + rewrite sset_new by exact Eg. rewrite map_app. simpl. rewrite Hk. symmetry. apply fields_snoc_new. rewrite <- Hk. apply sget_None. exact Eg.
  - intros j m Hj. apply sset_In_nodup in Hj; [|exact Hnd]. rewrite after_app. destruct Hj as [[-> ->]|[Hne Hj]].
    + rewrite after_here. exact Hn.
    + rewrite after_other by congruence. rewrite app_nil_r. auto.
Qed.
Lemma rshows_put_pos L l i p c d : begin_with_position L -> map fst l = positions L ->
    (forall i d, In (i, d) l -> rshows (after (HPos i) L) (RDict d)) ->
  rshows (after (HPos i) L ++ [(p, c)]) (RDict d) -> rshows (L ++ [(HPos i :: p, c)]) (RLad (zset i d l)).
Proof.
  intros Hb Hk Hc Hn.
  assert (Hnd : NoDup (map fst l)) by (rewrite Hk; apply positions_NoDup).
  constructor.
  - intros Q. apply app_eq_nil in Q as [_ Q]. discriminate.
  - intros q v Hin. apply in_app_iff in Hin as [Hin|[Q|[]]]; [eauto|]. injection Q as <- <-. eauto.
  - destruct (zget i l) as [m|] eqn:Eg.
    + rewrite (zset_keys _ _ _ _ Eg). rewrite Hk. symmetry. apply positions_snoc_old. rewrite <- Hk. apply zget_In' in Eg. apply (in_map fst) in Eg. exact Eg.
    + rewrite zset_new by exact Eg. rewrite map_app. simpl. rewrite Hk. symmetry. apply positions_snoc_new. rewrite <- Hk. apply zget_None. exact Eg.
  - intros j m Hj. apply zset_In in Hj; [|exact Hnd]. rewrite after_app. destruct Hj as [[-> ->]|[Hne Hj]].
    + rewrite after_here. exact Hn.
    + rewrite after_other by congruence. rewrite app_nil_r. auto.
Qed.
Lemma after_empty L cur k : rshows L (RDict cur) -> sget k cur = None -> after (HKey k) L = [].
Proof.
  intros H Eg. inversion H as [|? ? Hb Hk Hc|]; subst. apply sget_None in Eg. rewrite Hk in Eg.
  destruct (after (HKey k) L) as [|[p v] M] eqn:E; [reflexivity|]. exfalso. apply Eg. apply in_fields. exists p, v. apply in_after. rewrite E. left. reflexivity.
Qed.
Lemma after_pos_empty L (l : list (Z * rdict)) i : map fst l = positions L -> zget i l = None -> after (HPos i) L = @nil (hpath * cell).
Proof.
  intros Hk Eg. apply zget_None in Eg. rewrite Hk in Eg.
  destruct (after (HPos i) L) as [|[p v] M] eqn:E; [reflexivity|]. exfalso. apply Eg. apply in_positions. exists p, v. apply in_after. rewrite E. left. reflexivity.
Qed.
Lemma rshows_field L cur k n : rshows L (RDict cur) -> sget k cur = Some n -> rshows (after (HKey k) L) n /\ after (HKey k) L <> [].
Proof.
  intros H Eg. apply sget_In in Eg. inversion H as [|? ? Hb Hk Hc|]; subst. split; [auto|].
  assert (In k (fields L)) by (rewrite <- Hk; apply (in_map fst) in Eg; exact Eg).
  apply in_fields in H0 as (p & v & Hin). apply in_after in Hin. intros E. rewrite E in Hin. destruct Hin.
Qed.

Section Walk.
  Variable E : conv_env.
  Variable types : str -> str.

  Lemma field_not_int k : field_name k -> isint k = false.
  Proof. intros [_ H]. unfold isint. rewrite H. reflexivity. Qed.
  Lemma spelled_head p l : spelled p l -> exists k p' l', p = HKey k :: p' /\ l = k :: l' /\ field_name k.
  Proof. intros H. destruct H; eauto 8. Qed.
  Lemma path_till_text p l : spelled p l -> path_till l = path_text p.
  Proof.
    intros H. unfold path_till, path_text. f_equal. induction H as [k Hk|k p l Hk _ IH|k i t p l Hk Ht _ IH]; cbn [filter flat_map app]; rewrite (field_not_int k Hk); cbn [negb].
    - reflexivity.
    - rewrite IH. reflexivity.
    - unfold isint at 1. rewrite Ht. cbn [negb]. rewrite IH. reflexivity.
  Qed.

  Definition keys (p : hpath) : list str := flat_map (fun s => match s with HKey k => [k] | HPos _ => [] end) p.
  Lemma keys_app p q : keys (p ++ q) = keys p ++ keys q.
  Proof. apply flat_map_app. Qed.
  (** the types below a path already seen *)
  Definition fits_from (sp p : hpath) : Prop :=
    forall q k r, p = q ++ HKey k :: r ->
      let t := types (path_text (sp ++ q ++ [HKey k])) in
      match r with
      | [] => t <> u "object" /\ t <> u "array"
      | HKey _ :: _ => t = [] \/ t = u "object"
      | HPos _ :: _ => t = [] \/ t = u "array"
      end.
  Lemma fits_from_step sp a p : fits_from sp (a :: p) -> fits_from (sp ++ [a]) p.
  Proof. intros H q k r E0. specialize (H (a :: q) k r). rewrite <- app_assoc. apply H. rewrite E0. reflexivity. Qed.
  Lemma till_text seen sp k : field_name k -> filter (fun x => negb (isint x)) seen = keys sp -> path_till (seen ++ [k]) = path_text (sp ++ [HKey k]).
  Proof.
    intros Hk H. unfold path_till, path_text. fold (keys (sp ++ [HKey k])). rewrite keys_app, filter_app, H. cbn [filter keys flat_map app]. rewrite (field_not_int k Hk). reflexivity.
  Qed.

  Section Col.
    Variables (h : scalar) (lc : loc) (v x : cellval) (wv : list warning) (ty : str).
    Hypothesis Hconv : convert_type E ty v = Ok x wv.
    Hypothesis Hx : cv_blank x = false.
    Let c := mk_cell x lc.

    Definition clash (y : warning) (full : list str) : Prop :=
      match y with
      | WColumnArray h' _ | WColumnObject h' _ => h' = h
      | WColumnValue t => t = path_till full
      | _ => False
      end.

    Lemma walk_shows p l : spelled p l -> forall seen sp cur L, filter (fun x => negb (isint x)) seen = keys sp -> fits_from sp p -> types (path_text (sp ++ p)) = ty ->
      rshows L (RDict cur) -> (forall q c', In (q, c') L -> q <> p) ->
      ((forall q c', In (q, c') L -> compatible q p) /\
         exists cur', walk E types false h lc seen l v cur = Ok cur' wv /\ rshows (L ++ [(p, c)]) (RDict cur')) \/
      ((exists q c', In (q, c') L /\ ~ compatible q p) /\
         exists y, walk E types false h lc seen l v cur = Ok cur [y] /\ clash y (seen ++ l)).
    Proof.
      induction 1 as [k Hk|k p l Hk Hp IH|k i t p l Hk Ht Hp IH]; intros seen sp cur L Hseen Hfit Hty HL Hd; [| |remember (t :: l) as tl eqn:Etl]; cbn [walk]; rewrite (field_not_int k Hk); cbn [negb andb];
        pose proof (Hfit [] k _ eq_refl) as Hk0; cbn [app] in Hk0; rewrite (till_text seen sp k Hk Hseen); set (ct := types (path_text (sp ++ [HKey k]))) in *.
      - (* a value *)
        change (parse_int []) with (@None Z). destruct Hk0 as [Ho Ha]. subst ty.
        replace (str_eqb ct (u "array")) with false by (symmetry; destruct (str_eqb_spec ct (u "array")); [contradiction|reflexivity]).
        replace (str_eqb ct (u "object")) with false by (symmetry; destruct (str_eqb_spec ct (u "object")); [contradiction|reflexivity]).
        cbn [orb andb is_empty negb]. rewrite !andb_false_r.
        destruct (sget k cur) as [n|] eqn:Eg.
        + destruct (rshows_field _ _ _ _ HL Eg) as [Hn Hne].
          assert (Hrej : (exists q c', In (q, c') L /\ ~ compatible q [HKey k])).
          { destruct (after (HKey k) L) as [|[q c'] M] eqn:Ea; [congruence|]. exists (HKey k :: q), c'. split; [apply in_after; rewrite Ea; left; reflexivity|].
            simpl. destruct (str_eqb_spec k k); [|congruence]. destruct q; tauto. }
          destruct n as [c0|d|l0].
          * inversion Hn as [c1 E1| |]; subst. exfalso. apply (Hd [HKey k] c0); [|reflexivity]. apply in_after. rewrite <- E1. left. reflexivity.
          * right. split; [exact Hrej|]. eexists. cbn [bind]. split; [reflexivity|]. symmetry. apply till_text; assumption.
          * right. split; [exact Hrej|]. eexists. cbn [bind]. split; [reflexivity|]. symmetry. apply till_text; assumption.
        + left. split.
          * intros q c' Hin. inversion HL as [|? ? Hb Hk' Hc|]; subst. destruct (Hb _ _ Hin) as (k' & q' & ->). simpl.
            destruct (str_eqb_spec k' k) as [->|]; [|reflexivity]. exfalso. apply sget_None in Eg. apply Eg. rewrite Hk'. apply in_fields. eauto.
          * rewrite Hconv. cbn [bind]. rewrite Hx. cbn [ret]. simpl. eexists. rewrite !app_nil_r. split; [reflexivity|].
            apply rshows_put; [exact HL|]. rewrite (after_empty _ _ _ HL Eg). constructor.
      - (* an object *)
        destruct (spelled_head _ _ Hp) as (k2 & p2 & l2 & -> & -> & Hk2).
        replace (parse_int k2) with (@None Z) by (symmetry; apply Hk2).
        assert (Hne2 : is_empty k2 = false) by (destruct Hk2 as [Hk2 _]; destruct k2; [congruence|reflexivity]). rewrite Hne2.
        assert (Hsel : str_eqb ct (u "array") = false /\ str_eqb ct (u "object") || is_empty ct && negb false = true) by (destruct Hk0 as [-> | ->]; split; reflexivity).
        destruct Hsel as [Hs1 Hs2]. rewrite Hs1, Hs2.
        assert (Hseen' : filter (fun x => negb (isint x)) (seen ++ [k]) = keys (sp ++ [HKey k])) by (rewrite filter_app, keys_app, Hseen; cbn [filter keys flat_map app]; rewrite (field_not_int k Hk); reflexivity).
        assert (Hty' : types (path_text ((sp ++ [HKey k]) ++ HKey k2 :: p2)) = ty) by (rewrite <- app_assoc; exact Hty).
        apply fits_from_step in Hfit.
        destruct (sget k cur) as [n|] eqn:Eg.
        + destruct (rshows_field _ _ _ _ HL Eg) as [Hn Hne].
          destruct n as [c0|d|l0].
          * right. inversion Hn as [c1 E1| |]; subst. split.
            { exists [HKey k], c0. split; [apply in_after; rewrite <- E1; left; reflexivity|]. simpl. destruct (str_eqb_spec k k); tauto. }
            eexists. cbn [bind]. split; [reflexivity|]. simpl. reflexivity.
          * destruct (IH (seen ++ [k]) (sp ++ [HKey k]) d (after (HKey k) L) Hseen' Hfit Hty' Hn) as [[Hc (cur' & Hw & Hs)]|[(q & c' & Hin & Hc) (y & Hw & Hy)]].
            { intros q c' Hin. apply in_after in Hin. apply Hd in Hin. congruence. }
            -- left. split.
               ++ intros q c' Hin. inversion HL as [|? ? Hb Hk' Hc'|]; subst. destruct (Hb _ _ Hin) as (k' & q' & ->). cbn [compatible hstep_eqb same_kind].
                  destruct (str_eqb_spec k' k) as [->|]; [|reflexivity]. apply (Hc q' c'). apply in_after. exact Hin.
               ++ rewrite Hw. cbn [bind ret app]. rewrite app_nil_r. eexists. split; [reflexivity|]. apply rshows_put; assumption.
            -- right. split.
               ++ exists (HKey k :: q), c'. split; [apply in_after; exact Hin|]. cbn [compatible hstep_eqb]. destruct (str_eqb_spec k k); [exact Hc|congruence].
               ++ rewrite Hw. cbn [bind ret app]. rewrite sset_same by exact Eg. eexists. split; [reflexivity|]. rewrite <- app_assoc in Hy. exact Hy.
          * right. inversion Hn as [| |? ? HLne Hb Hm Hc]; subst. split.
            { destruct (after (HKey k) L) as [|[q c'] M] eqn:Ea; [congruence|]. destruct (Hb q c') as (i & q' & ->); [left; reflexivity|].
              exists (HKey k :: HPos i :: q'), c'. split; [apply in_after; rewrite Ea; left; reflexivity|].
              cbn [compatible hstep_eqb same_kind]. destruct (str_eqb_spec k k); [|congruence]. cbn. congruence. }
            eexists. cbn [bind]. split; [reflexivity|]. simpl. reflexivity.
        + left. pose proof (after_empty _ _ _ HL Eg) as Ea. split.
          * intros q c' Hin. inversion HL as [|? ? Hb Hk' Hc'|]; subst. destruct (Hb _ _ Hin) as (k' & q' & ->). cbn [compatible hstep_eqb same_kind].
            destruct (str_eqb_spec k' k) as [->|]; [|reflexivity]. apply in_after in Hin. rewrite Ea in Hin. destruct Hin.
          * destruct (IH (seen ++ [k]) (sp ++ [HKey k]) [] [] Hseen' Hfit Hty' rshows_nil) as [[_ (cur' & Hw & Hs)]|[(q & c' & [] & _) _]]; [intros q c' []|].
            rewrite Hw. cbn [bind ret app]. rewrite app_nil_r. eexists. split; [reflexivity|]. apply rshows_put; [exact HL|]. rewrite Ea. exact Hs.
      - (* an array *)
        replace (match tl with [] => [] | n :: _ => n end) with t by (rewrite Etl; reflexivity). rewrite Ht. cbn [orb negb].
        assert (Hsel : negb (is_empty ct) && negb (str_eqb ct (u "array")) = false) by (destruct Hk0 as [-> | ->]; reflexivity). rewrite Hsel.
        assert (Hseen' : filter (fun x => negb (isint x)) ((seen ++ [k]) ++ [t]) = keys ((sp ++ [HKey k]) ++ [HPos i])).
        { rewrite !filter_app, !keys_app, Hseen; cbn [filter keys flat_map app]. rewrite (field_not_int k Hk). unfold isint. rewrite Ht. reflexivity. }
        assert (Hty' : types (path_text (((sp ++ [HKey k]) ++ [HPos i]) ++ p)) = ty) by (rewrite <- !app_assoc; exact Hty).
        apply fits_from_step, fits_from_step in Hfit.
        assert (Hstep : forall sub, walk E types false h lc (seen ++ [k]) tl v sub = walk E types false h lc ((seen ++ [k]) ++ [t]) l v sub).
        { intros sub. rewrite Etl. cbn [walk]. unfold isint. rewrite Ht. destruct (seen ++ [k]) eqn:Es; [destruct seen; discriminate|]. apply (bind_ret_l tt). }
        destruct (sget k cur) as [n|] eqn:Eg.
        + destruct (rshows_field _ _ _ _ HL Eg) as [Hn Hne].
          destruct n as [c0|d|l0].
          * right. inversion Hn as [c1 E1| |]; subst. split.
            { exists [HKey k], c0. split; [apply in_after; rewrite <- E1; left; reflexivity|]. simpl. destruct (str_eqb_spec k k); tauto. }
            eexists. cbn [bind]. split; [reflexivity|]. simpl. reflexivity.
          * right. inversion Hn as [|? ? Hb Hm Hc|]; subst. split.
            { destruct (after (HKey k) L) as [|[q c'] M] eqn:Ea; [congruence|]. destruct (Hb q c') as (k2 & q' & ->); [left; reflexivity|].
              exists (HKey k :: HKey k2 :: q'), c'. split; [apply in_after; rewrite Ea; left; reflexivity|].
              cbn [compatible hstep_eqb same_kind]. destruct (str_eqb_spec k k); [|congruence]. cbn. congruence. }
            eexists. cbn [bind]. split; [reflexivity|]. simpl. reflexivity.
          * inversion Hn as [| |? ? HLne Hb Hm Hc]; subst.
            set (sub := match zget i l0 with Some d => d | None => [] end).
            assert (Hsub : rshows (after (HPos i) (after (HKey k) L)) (RDict sub)).
            { unfold sub. destruct (zget i l0) as [d|] eqn:Ez; [apply Hc; apply zget_In'; exact Ez|]. rewrite (after_pos_empty _ _ _ Hm Ez). apply rshows_nil. }
            rewrite Hstep.
            destruct (IH ((seen ++ [k]) ++ [t]) ((sp ++ [HKey k]) ++ [HPos i]) sub _ Hseen' Hfit Hty' Hsub) as [[Hc' (cur' & Hw & Hs)]|[(q & c' & Hin & Hc') (y & Hw & Hy)]].
            { intros q c' Hin. apply in_after, in_after, Hd in Hin. congruence. }
            -- left. split.
               ++ intros q c' Hin. inversion HL as [|? ? Hb0 Hk' Hc0|]; subst. destruct (Hb0 _ _ Hin) as (k' & q' & ->). cbn [compatible hstep_eqb same_kind].
                  destruct (str_eqb_spec k' k) as [->|]; [|reflexivity]. apply in_after in Hin. destruct (Hb _ _ Hin) as (j & q2 & ->). cbn [compatible hstep_eqb same_kind].
                  destruct (Z.eqb_spec j i) as [->|]; [|reflexivity]. apply (Hc' q2 c'). apply in_after. exact Hin.
               ++ rewrite Hw. cbn [bind ret app]. rewrite app_nil_r. eexists. split; [reflexivity|]. apply rshows_put; [exact HL|]. apply rshows_put_pos; assumption.
            -- right. split.
               ++ exists (HKey k :: HPos i :: q), c'. split; [apply (proj1 (in_after _ _ _ _)), (proj1 (in_after _ _ _ _)); exact Hin|]. cbn [compatible hstep_eqb].
                  destruct (str_eqb_spec k k); [|congruence]. rewrite Z.eqb_refl. exact Hc'.
               ++ rewrite Hw. cbn [bind ret app].
                  assert (Ez : zget i l0 = Some sub). { unfold sub. destruct (zget i l0) eqn:Ez; [reflexivity|]. rewrite (after_pos_empty _ _ _ Hm Ez) in Hin. destruct Hin. }
                  rewrite zset_same by exact Ez. rewrite sset_same by exact Eg. eexists. split; [reflexivity|]. try rewrite Etl. rewrite <- !app_assoc in Hy. exact Hy.
        + left. pose proof (after_empty _ _ _ HL Eg) as Ea. split.
          * intros q c' Hin. inversion HL as [|? ? Hb Hk' Hc'|]; subst. destruct (Hb _ _ Hin) as (k' & q' & ->). cbn [compatible hstep_eqb same_kind].
            destruct (str_eqb_spec k' k) as [->|]; [|reflexivity]. apply in_after in Hin. rewrite Ea in Hin. destruct Hin.
          * rewrite Hstep. change (zget i []) with (@None rdict).
            destruct (IH ((seen ++ [k]) ++ [t]) ((sp ++ [HKey k]) ++ [HPos i]) [] [] Hseen' Hfit Hty' rshows_nil) as [[_ (cur' & Hw & Hs)]|[(q & c' & [] & _) _]]; [intros q c' []|].
            rewrite Hw. cbn [bind ret app]. rewrite app_nil_r. eexists. split; [reflexivity|]. apply rshows_put; [exact HL|]. rewrite Ea.
            apply (rshows_put_pos [] [] i p c cur'); [intros ? ? []|reflexivity|intros ? ? []|]. exact Hs.
    Qed.
  End Col.

  (** positions left out *)
  Lemma keys_completed p : forall sp, keys (completed types sp p) = keys p.
  Proof.
    induction p as [|a p IH]; intros sp; [reflexivity|]. cbn [completed].
    destruct a as [k|i]; [|cbn [keys flat_map app]; apply IH]. destruct p as [|[k2|i2] p'].
    - reflexivity.
    - destruct (str_eqb _ _); change (k :: keys (completed types (sp ++ [HKey k]) (HKey k2 :: p')) = k :: keys (HKey k2 :: p')); rewrite IH; reflexivity.
    - change (k :: keys (completed types (sp ++ [HKey k]) (HPos i2 :: p')) = k :: keys (HPos i2 :: p')). rewrite IH. reflexivity.
  Qed.
  Lemma walk_seen h lc l : forall seen seen' v cur, seen <> [] -> seen' <> [] ->
    filter (fun x => negb (isint x)) seen = filter (fun x => negb (isint x)) seen' ->
    walk E types false h lc seen l v cur = walk E types false h lc seen' l v cur.
  Proof.
    induction l as [|item l IH]; intros seen seen' v cur H H' Hf; [reflexivity|].
    assert (Hs : forall v cur, walk E types false h lc (seen ++ [item]) l v cur = walk E types false h lc (seen' ++ [item]) l v cur).
    { intros v0 cur0. apply IH; [destruct seen; discriminate|destruct seen'; discriminate|]. rewrite !filter_app, Hf. reflexivity. }
    cbn [walk]. destruct seen as [|s0 s1]; [congruence|]. destruct seen' as [|s0' s1']; [congruence|].
    assert (Ht : path_till ((s0 :: s1) ++ [item]) = path_till ((s0' :: s1') ++ [item])) by (unfold path_till; rewrite !filter_app, Hf; reflexivity).
    rewrite Ht. destruct (isint item); [rewrite Hs; reflexivity|]. cbn [andb negb orb].
    set (ty := types (path_till ((s0' :: s1') ++ [item]))). set (next := match l with [] => [] | n :: _ => n end).
    destruct (parse_int next) as [idx|].
    - destruct (negb (is_empty ty) && negb (str_eqb ty (u "array"))); [reflexivity|].
      destruct (match sget item cur with None => Some [] | Some (RLad l0) => Some l0 | Some _ => None end); [|reflexivity]. rewrite Hs. reflexivity.
    - destruct (str_eqb ty (u "array")).
      { destruct (match sget item cur with None => Some [] | Some (RLad l0) => Some l0 | Some _ => None end); [|reflexivity]. rewrite Hs. reflexivity. }
      destruct (str_eqb ty (u "object") || is_empty ty && negb (is_empty next)).
      { destruct (match sget item cur with None => Some [] | Some (RDict d) => Some d | Some _ => None end); [|reflexivity]. rewrite Hs. reflexivity. }
      destruct (negb (is_empty ty) && negb (is_empty next)); [reflexivity|].
      assert (Hv : bind (convert_type E ty v) (fun conv => bind (if cv_blank conv then ret cur else ret (sset item (RCell (mk_cell conv lc)) cur)) (fun cur' => walk E types false h lc ((s0 :: s1) ++ [item]) l conv cur')) =
       bind (convert_type E ty v) (fun conv => bind (if cv_blank conv then ret cur else ret (sset item (RCell (mk_cell conv lc)) cur)) (fun cur' => walk E types false h lc ((s0' :: s1') ++ [item]) l conv cur'))).
      { destruct (convert_type E ty v) as [x w|]; [|reflexivity]. cbn [bind]. destruct (cv_blank x); cbn [bind ret]; rewrite Hs; reflexivity. }
      destruct (sget item cur) as [[c|d|l0]|]; try exact Hv; rewrite Hs; reflexivity.
  Qed.
  Lemma walk_int h lc seen t l v cur : isint t = true -> seen <> [] ->
    walk E types false h lc seen (t :: l) v cur = walk E types false h lc (seen ++ [t]) l v cur.
  Proof. intros Ht Hs. cbn [walk]. rewrite Ht. destruct seen; [congruence|]. rewrite bind_ret_l. reflexivity. Qed.
  Lemma walk_completed h lc q l : spelled q l -> forall seen sp, filter (fun x => negb (isint x)) seen = keys sp ->
    exists l', spelled (completed types sp q) l' /\ forall v cur, walk E types false h lc seen l v cur = walk E types false h lc seen l' v cur.
  Proof.
    induction 1 as [k Hk|k p l Hk Hp IH|k i t p l Hk Ht Hp IH]; intros seen sp Hseen.
    - exists [k]. split; [constructor; exact Hk|reflexivity].
    - destruct (spelled_head _ _ Hp) as (k2 & p2 & l2 & -> & -> & Hk2).
      assert (Hseen' : filter (fun x => negb (isint x)) (seen ++ [k]) = keys (sp ++ [HKey k])) by (rewrite filter_app, keys_app, Hseen; cbn [filter keys flat_map app]; rewrite (field_not_int k Hk); reflexivity).
      destruct (IH (seen ++ [k]) (sp ++ [HKey k]) Hseen') as (l' & Hl' & Hw).
      destruct (spelled_head _ _ Hl') as (k2' & p2' & l2' & Ec & -> & Hk2').
      assert (k2' = k2).
      { pose proof (keys_completed (HKey k2 :: p2) (sp ++ [HKey k])) as Q. rewrite Ec in Q. injection Q as Q _. exact Q. } subst k2'.
      change (completed types sp (HKey k :: HKey k2 :: p2)) with
        (if str_eqb (types (path_text (sp ++ [HKey k]))) (u "array") then HKey k :: HPos (-1) :: completed types (sp ++ [HKey k]) (HKey k2 :: p2) else HKey k :: completed types (sp ++ [HKey k]) (HKey k2 :: p2)).
      destruct (str_eqb_spec (types (path_text (sp ++ [HKey k]))) (u "array")) as [Ha|Ha].
      + exists (k :: u "-1" :: k2 :: l2'). split; [apply sp_at; [exact Hk|reflexivity|exact Hl']|]. intros v cur.
        remember (k2 :: l2) as m eqn:Em. remember (u "-1" :: k2 :: l2') as m' eqn:Em'. cbn [walk]. rewrite (field_not_int k Hk). cbn [andb negb orb].
        rewrite (till_text seen sp k Hk Hseen), Ha. rewrite Em at 1. rewrite Em' at 1. replace (parse_int k2) with (@None Z) by (symmetry; apply Hk2).
        change (parse_int (u "-1")) with (Some (-1)%Z). change (str_eqb (u "array") (u "array")) with true. cbn [negb andb is_empty].
        assert (Hw' : forall v cur, walk E types false h lc (seen ++ [k]) m v cur = walk E types false h lc (seen ++ [k]) m' v cur).
        { assert (Hne : seen ++ [k] <> []) by (destruct seen; discriminate).
          intros v0 cur0. rewrite Hw, Em'. rewrite (walk_int h lc (seen ++ [k]) (u "-1")); [|reflexivity|exact Hne]. apply walk_seen; [exact Hne|intros Q; apply app_eq_nil in Q as [_ Q]; discriminate Q|].
          symmetry. rewrite filter_app. cbn [filter]. change (isint (u "-1")) with true. cbn [negb]. rewrite app_nil_r. reflexivity. }
        destruct (match sget k cur with None => Some [] | Some (RLad l0) => Some l0 | Some _ => None end); [|reflexivity]. rewrite Hw'. reflexivity.
      + exists (k :: k2 :: l2'). split; [apply sp_in; [exact Hk|exact Hl']|]. intros v cur.
        remember (k2 :: l2) as m eqn:Em. remember (k2 :: l2') as m' eqn:Em'. cbn [walk]. rewrite (field_not_int k Hk). cbn [andb negb orb].
        replace (match m with [] => [] | n :: _ => n end) with k2 by (rewrite Em; reflexivity).
        replace (match m' with [] => [] | n :: _ => n end) with k2 by (rewrite Em'; reflexivity).
        replace (parse_int k2) with (@None Z) by (symmetry; apply Hk2). rewrite (till_text seen sp k Hk Hseen).
        destruct (str_eqb_spec (types (path_text (sp ++ [HKey k]))) (u "array")); [contradiction|].
        set (ty := types (path_text (sp ++ [HKey k]))) in *.
        destruct (str_eqb ty (u "object") || is_empty ty && negb (is_empty k2)) eqn:Eo.
        { destruct (match sget k cur with None => Some [] | Some (RDict d) => Some d | Some _ => None end); [|reflexivity]. rewrite Hw. reflexivity. }
        destruct (negb (is_empty ty) && negb (is_empty k2)) eqn:Er; [reflexivity|]. exfalso.
        destruct (is_empty k2) eqn:Ek; [destruct Hk2 as [Q _]; destruct k2; [congruence|discriminate Ek]|].
        destruct (is_empty ty); [rewrite orb_true_r in Eo; discriminate Eo|discriminate Er].
    - assert (Hseen' : filter (fun x => negb (isint x)) (seen ++ [k] ++ [t]) = keys (sp ++ [HKey k] ++ [HPos i])).
      { rewrite !filter_app, !keys_app, Hseen. cbn [filter keys flat_map app]. rewrite (field_not_int k Hk). unfold isint. rewrite Ht. reflexivity. }
      rewrite !app_assoc in Hseen'. destruct (IH ((seen ++ [k]) ++ [t]) ((sp ++ [HKey k]) ++ [HPos i]) Hseen') as (l' & Hl' & Hw).
      exists (k :: t :: l'). destruct (spelled_head _ _ Hp) as (k2 & p2 & l2 & -> & -> & Hk2). split; [apply sp_at; [exact Hk|exact Ht|exact Hl']|]. intros v cur.
      assert (Hw' : forall v cur, walk E types false h lc (seen ++ [k]) (t :: k2 :: l2) v cur = walk E types false h lc (seen ++ [k]) (t :: l') v cur).
      { intros v0 cur0. assert (Hit : isint t = true) by (unfold isint; rewrite Ht; reflexivity). assert (Hne : seen ++ [k] <> []) by (destruct seen; discriminate).
        rewrite (walk_int h lc _ t (k2 :: l2)) by assumption. rewrite (walk_int h lc _ t l') by assumption. apply Hw. }
      remember (t :: k2 :: l2) as m eqn:Em. remember (t :: l') as m' eqn:Em'. cbn [walk]. rewrite (field_not_int k Hk). cbn [andb negb orb].
      replace (match m with [] => [] | n :: _ => n end) with t by (rewrite Em; reflexivity).
      replace (match m' with [] => [] | n :: _ => n end) with t by (rewrite Em'; reflexivity). rewrite Ht.
      destruct (negb (is_empty (types (path_till (seen ++ [k])))) && negb (str_eqb (types (path_till (seen ++ [k]))) (u "array"))); [reflexivity|].
      destruct (match sget k cur with None => Some [] | Some (RLad l0) => Some l0 | Some _ => None end); [|reflexivity]. rewrite Hw'. reflexivity.
  Qed.
  Lemma completed_fits p : forall sp, fits_from sp p -> completed types sp p = p.
  Proof.
    induction p as [|a p IH]; intros sp Hf; [reflexivity|]. cbn [completed]. pose proof (IH (sp ++ [a]) (fits_from_step _ _ _ Hf)) as Hr.
    destruct a as [k|i]; [|rewrite Hr; reflexivity]. destruct p as [|[k2|i2] p']; [reflexivity| |rewrite Hr; reflexivity].
    rewrite Hr. specialize (Hf [] k _ eq_refl). cbn [app] in Hf. destruct Hf as [-> | ->]; reflexivity.
  Qed.
End Walk.
