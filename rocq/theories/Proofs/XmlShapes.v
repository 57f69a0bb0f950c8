(** A check of the shape of data that is to be written as XML. *)
From Verif.Base Require Import PyStr PyNum PyVal PyDict Outcome.
From Verif.Model Require Import Flatten SortXml XmlOut.
From Verif.Spec Require Import XmlData XmlTrip.
From Verif.Proofs Require Import XmlTripFacts.
From Verif.Proofs Require XmlTagsFacts.

Definition is_dict (v : jv) : bool := match v with JO _ => true | _ => false end.
Definition name_ok (k : str) : bool := negb (existsb (N.eqb 58) k) && negb (str_eqb k (u "#text")).
Definition value_ok (k : str) (v : jv) : bool :=
  match v with
  | JS _ => str_eqb k (u "text()") || match k with c :: a => N.eqb c 64 && negb (startswith a (u "xmlns")) | [] => false end
  | JO _ => negb (N.eqb (hd 0%N k) 64)
  | JA l => negb (N.eqb (hd 0%N k) 64) && forallb is_dict l
  end.
Definition distinct (l : list str) : bool := (fix go (l : list str) : bool := match l with [] => true | k :: l' => negb (str_mem k l') && go l' end) l.
(** every element is well shaped *)
Fixpoint shape_ok (x : jv) : bool :=
  match x with
  | JO d => distinct (map fst d) && forallb (fun kv => name_ok (fst kv) && value_ok (fst kv) (snd kv)) d &&
            forallb (fun kv => match kv with (_, v) => match v with JS _ => true | JO _ => shape_ok v | JA l => forallb shape_ok l end end) d
  | _ => false
  end.
Lemma distinct_NoDup l : distinct l = true -> NoDup l.
Proof.
  induction l as [|k l IH]; intros H; [constructor|]. cbn in H. apply andb_true_iff in H as [H1 H2]. constructor; [|apply IH, H2].
  apply negb_true_iff in H1. apply str_mem_false in H1. exact H1.
Qed.
Lemma name_ok_plain k : name_ok k = true -> ~ In 58%N k /\ k <> u "#text".
Proof.
  unfold name_ok. rewrite andb_true_iff, !negb_true_iff. intros [H1 H2]. split; [|apply str_eqb_neq; exact H2].
  intros H. assert (X : existsb (N.eqb 58) k = true) by (apply existsb_exists; exists 58%N; split; [exact H|reflexivity]). congruence.
Qed.
Theorem shape_sound ns x : shape_ok x = true -> shaped ns x /\ plain_xml x.
Proof.
  induction x as [x Hx|d IHv IHl] using XmlTagsFacts.doc_ind; intros H.
  - destruct x as [s|l|d]; try discriminate. exfalso. eapply Hx. reflexivity.
  - cbn [shape_ok] in H. rewrite !andb_true_iff, !forallb_forall in H. destruct H as [[H1 H2] H3].
    assert (En : forall k x, In (k, x) (element_entries d) -> shaped ns x /\ plain_xml x).
    { intros k x X. unfold element_entries in X. apply in_concat in X as (l & Hl & X). apply in_map_iff in Hl as ([k' v] & <- & Hin). specialize (H3 _ Hin). cbn [fst snd] in X, H3.
      destruct v as [s|l|e]; [destruct X| |].
      - apply in_map_iff in X as (y & [= <- <-] & Hy). rewrite forallb_forall in H3. exact (IHl _ _ _ Hin Hy (H3 _ Hy)).
      - destruct X as [[= <- <-]|[]]. exact (IHv _ _ Hin H3). }
    assert (Nm : forall k v, In (k, v) d -> ~ In 58%N k /\ k <> u "#text").
    { intros k v Hin. specialize (H2 _ Hin). cbn [fst snd] in H2. apply andb_true_iff in H2 as [H2 _]. apply name_ok_plain, H2. }
    split.
    + constructor.
      * apply distinct_NoDup, H1.
      * intros k v Hin. specialize (H2 _ Hin). cbn [fst snd] in H2. apply andb_true_iff in H2 as [_ H2]. destruct v as [s|l|e]; cbn [value_ok] in H2.
        -- left. exists s. split; [reflexivity|]. apply orb_true_iff in H2 as [H2|H2]; [left; apply str_eqb_eq, H2|right].
           destruct k as [|c a]; [discriminate|]. apply andb_true_iff in H2 as [Hc Ha]. apply N.eqb_eq in Hc. subst c. exists a. split; [reflexivity|]. apply negb_true_iff in Ha. exact Ha.
        -- right. apply andb_true_iff in H2 as [H2 H4]. split; [apply negb_true_iff, N.eqb_neq in H2; exact H2|]. right. exists l. split; [reflexivity|]. intros y Hy. rewrite forallb_forall in H4. specialize (H4 _ Hy). destruct y; try discriminate. eauto.
        -- right. split; [apply negb_true_iff, N.eqb_neq in H2; exact H2|]. left. eauto.
      * intros k k' v v' a Hk Hk' Fk Fk'.
        assert (Q : forall k v, In (at_sign :: k, v) d -> full_name ns k a -> k = a).
        { intros q w Hq Fq. symmetry. eapply full_plain; [|exact Fq]. intros X. apply (proj1 (Nm _ _ Hq)). right. exact X. }
        rewrite (Q _ _ Hk Fk), (Q _ _ Hk' Fk'). reflexivity.
      * intros k x X. exact (proj1 (En _ _ X)).
    + constructor; [exact Nm|]. intros k x X. exact (proj2 (En _ _ X)).
Qed.
