(** Induction principles for the nested tree types and small dict lemmas. *)
From Coq Require Import Permutation.
From Verif.Base Require Import PyStr PyNum PyVal PyDict Outcome.
From Verif.Model Require Import Warn Lib Convert Input.

Section TInd.
  Variable P : tnode -> Prop.
  Definition Pd (d : tdict) := Forall (fun kv => P (snd kv)) d.
  Hypothesis Hc : forall c, P (TCell c).
  Hypothesis Hd : forall d, Pd d -> P (TDict d).
  Hypothesis Ht : forall data nk, Forall (fun kd => Pd (snd kd)) data -> Forall Pd nk -> P (TTemp data nk).
  Fixpoint tnode_ind' (n : tnode) : P n.
  Proof.
    refine (let dict := fix dict (d : tdict) : Pd d :=
              match d return Pd d with [] => Forall_nil _ | (k, n) :: d' => Forall_cons (k, n) (tnode_ind' n) (dict d') end in _).
    destruct n as [c|d|data nk].
    - apply Hc.
    - apply Hd. exact (dict d).
    - apply Ht.
      + exact ((fix god (l : list (scalar * tdict)) : Forall (fun kd => Pd (snd kd)) l :=
                  match l return Forall (fun kd => Pd (snd kd)) l with
                  | [] => Forall_nil _
                  | (k, d) :: l' => Forall_cons (k, d) (dict d) (god l')
                  end) data).
      + exact ((fix gon (l : list tdict) : Forall Pd l :=
                  match l return Forall Pd l with
                  | [] => Forall_nil _
                  | d :: l' => Forall_cons d (dict d) (gon l')
                  end) nk).
  Qed.
End TInd.

Section RInd.
  Variable P : rnode -> Prop.
  Definition Prd (d : rdict) := Forall (fun kv => P (snd kv)) d.
  Hypothesis Hc : forall c, P (RCell c).
  Hypothesis Hd : forall d, Prd d -> P (RDict d).
  Hypothesis Hl : forall l, Forall (fun kd : Z * rdict => Prd (snd kd)) l -> P (RLad l).
  Fixpoint rnode_ind' (n : rnode) : P n.
  Proof.
    refine (let dict := fix dict (d : rdict) : Prd d :=
              match d return Prd d with [] => Forall_nil _ | (k, n) :: d' => Forall_cons (k, n) (rnode_ind' n) (dict d') end in _).
    destruct n as [c|d|l].
    - apply Hc.
    - apply Hd. exact (dict d).
    - apply Hl.
      exact ((fix god (l : list (Z * rdict)) : Forall (fun kd => Prd (snd kd)) l :=
                  match l return Forall (fun kd => Prd (snd kd)) l with
                  | [] => Forall_nil _
                  | (k, d) :: l' => Forall_cons (k, d) (dict d) (god l')
                  end) l).
  Qed.
End RInd.

Section JInd.
  Variable P : jnode -> Prop.
  Definition Pjd (d : jdict) := Forall (fun kv => P (snd kv)) d.
  Hypothesis Hc : forall c, P (JCell c).
  Hypothesis Hd : forall d, Pjd d -> P (JDict d).
  Hypothesis Hl : forall l, Forall Pjd l -> P (JList l).
  Fixpoint jnode_ind' (n : jnode) : P n.
  Proof.
    refine (let dict := fix dict (d : jdict) : Pjd d :=
              match d return Pjd d with [] => Forall_nil _ | (k, n) :: d' => Forall_cons (k, n) (jnode_ind' n) (dict d') end in _).
    destruct n as [c|d|l].
    - apply Hc.
    - apply Hd. exact (dict d).
    - apply Hl.
      exact ((fix gon (l : list jdict) : Forall Pjd l :=
                  match l return Forall Pjd l with
                  | [] => Forall_nil _
                  | d :: l' => Forall_cons d (dict d) (gon l')
                  end) l).
  Qed.
End JInd.

Section VInd.
  Variable P : vnode -> Prop.
  Definition Pvd (d : vdict) := Forall (fun kv => P (snd kv)) d.
  Hypothesis Hc : forall c, P (VLeaf c).
  Hypothesis Hd : forall d, Pvd d -> P (VDict d).
  Hypothesis Hl : forall l, Forall Pvd l -> P (VList l).
  Fixpoint vnode_ind' (n : vnode) : P n.
  Proof.
    refine (let dict := fix dict (d : vdict) : Pvd d :=
              match d return Pvd d with [] => Forall_nil _ | (k, n) :: d' => Forall_cons (k, n) (vnode_ind' n) (dict d') end in _).
    destruct n as [c|d|l].
    - apply Hc.
    - apply Hd. exact (dict d).
    - apply Hl.
      exact ((fix gon (l : list vdict) : Forall Pvd l :=
                  match l return Forall Pvd l with
                  | [] => Forall_nil _
                  | d :: l' => Forall_cons d (dict d) (gon l')
                  end) l).
  Qed.
End VInd.

(** ** Value of a [tnode] *)
Definition tv (n : tnode) : vnode := to_v (to_j n).
Definition tvd (d : tdict) : vdict := map (fun kv => (fst kv, tv (snd kv))) d.

Lemma dict_to_v_j d : dict_to_v (dict_to_j d) = tvd d.
Proof. unfold dict_to_v, dict_to_j, tvd. rewrite map_map. reflexivity. Qed.
Lemma tv_cell c : tv (TCell c) = VLeaf (c_val c).
Proof. reflexivity. Qed.
Lemma tv_dict d : tv (TDict d) = VDict (tvd d).
Proof. unfold tv, tvd. simpl. rewrite map_map. reflexivity. Qed.
Lemma tv_temp data nk : tv (TTemp data nk) = VList (map tvd (map snd data ++ nk)).
Proof.
  unfold tv, tvd. simpl. rewrite !map_app, !map_map. f_equal. f_equal.
  - apply map_ext. intros [k d]. simpl. rewrite map_map. reflexivity.
  - apply map_ext. intros d. rewrite map_map. reflexivity.
Qed.

Lemma sget_map {V W} (f : V -> W) k (d : list (str * V)) :
  sget k (map (fun kv => (fst kv, f (snd kv))) d) = option_map f (sget k d).
Proof.
  induction d as [|[k' v] d IH]; unfold sget in *; simpl; [reflexivity|].
  destruct (str_eqb k k'); [reflexivity|exact IH].
Qed.
Lemma sget_tvd k d : sget k (tvd d) = option_map tv (sget k d).
Proof. apply sget_map. Qed.

(** ** Dicts keyed by Python values *)
Section KDict.
  Context {V : Type}.
  Lemma kget_In k (d : list (scalar * V)) v : kget k d = Some v -> exists k', In (k', v) d /\ py_eqb k k' = true.
  Proof.
    induction d as [|[k' v'] d IH]; unfold kget in *; simpl; [discriminate|].
    destruct (py_eqb k k') eqn:E.
    - intros [= ->]. exists k'. auto.
    - intros H. destruct (IH H) as (k2 & Hin & Hk). exists k2. auto.
  Qed.
  Lemma kget_None k (d : list (scalar * V)) : kget k d = None <-> forall k' v, In (k', v) d -> py_eqb k k' = false.
  Proof.
    induction d as [|[k' v'] d IH]; unfold kget in *; simpl.
    - split; [intros _ k' v []|reflexivity].
    - destruct (py_eqb k k') eqn:E.
      + split; [discriminate|]. intros H. rewrite (H k' v') in E by auto. discriminate.
      + rewrite IH. split.
        * intros H k2 v [H1|H1]; [congruence|eauto].
        * intros H k2 v H1. eapply H. right. exact H1.
  Qed.
  Lemma kset_split k v (d : list (scalar * V)) :
    match kget k d with
    | None => kset k v d = d ++ [(k, v)]
    | Some old => exists a k' b, d = a ++ (k', old) :: b /\ kset k v d = a ++ (k', v) :: b /\ py_eqb k k' = true /\ kget k a = None
    end.
  Proof.
    induction d as [|[k' v'] d IH]; unfold kget, kset in *; simpl; [reflexivity|].
    destruct (py_eqb k k') eqn:E.
    - exists [], k', d. repeat split; auto.
    - destruct (aget py_eqb k d) as [old|] eqn:G.
      + destruct IH as (a & k2 & b & -> & Hs & Hk & Ha).
        exists ((k', v') :: a), k2, b. rewrite Hs. repeat split; auto. simpl. rewrite E. exact Ha.
      + rewrite IH. reflexivity.
  Qed.
  Lemma kset_new k v (d : list (scalar * V)) : kget k d = None -> kset k v d = d ++ [(k, v)].
  Proof. intros H. pose proof (kset_split k v d) as S. rewrite H in S. exact S. Qed.
  Lemma kset_old k v (d : list (scalar * V)) old : kget k d = Some old ->
    exists a k' b, d = a ++ (k', old) :: b /\ kset k v d = a ++ (k', v) :: b /\ py_eqb k k' = true /\ kget k a = None.
  Proof. intros H. pose proof (kset_split k v d) as S. rewrite H in S. exact S. Qed.
End KDict.
