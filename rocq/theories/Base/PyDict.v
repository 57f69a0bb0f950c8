(** Insertion-ordered Python dicts as association lists, generic in the key
    equality.  A key that is set again keeps its position and (as in CPython)
    its original key object. *)
From Coq Require Import List Bool Lia Permutation.
From Verif.Base Require Import PyStr.
Import ListNotations.

Section Dict.
  Context {K V : Type} (eqb : K -> K -> bool).

  (** [d.get(k)] *)
  Fixpoint aget (k : K) (d : list (K * V)) : option V :=
    match d with
    | [] => None
    | (k', v) :: d' => if eqb k k' then Some v else aget k d'
    end.
  (** [d[k] = v] *)
  Fixpoint aset (k : K) (v : V) (d : list (K * V)) : list (K * V) :=
    match d with
    | [] => [(k, v)]
    | (k', v') :: d' => if eqb k k' then (k', v) :: d' else (k', v') :: aset k v d'
    end.
  (** [d.pop(k, None)] *)
  Fixpoint adel (k : K) (d : list (K * V)) : list (K * V) :=
    match d with
    | [] => []
    | (k', v') :: d' => if eqb k k' then d' else (k', v') :: adel k d'
    end.
  (** [k in d] *)
  Definition ahas (k : K) (d : list (K * V)) : bool :=
    match aget k d with Some _ => true | None => false end.
  (** [d.update(e)] *)
  Definition aupdate (d e : list (K * V)) : list (K * V) :=
    fold_left (fun d kv => aset (fst kv) (snd kv) d) e d.
  Definition akeys (d : list (K * V)) : list K := map fst d.
  Definition avals (d : list (K * V)) : list V := map snd d.
End Dict.

(** ** String-keyed dicts *)
Section StrDict.
  Context {V : Type}.
  Notation dict := (list (str * V)).
  Definition sget : str -> dict -> option V := aget str_eqb.
  Definition sset : str -> V -> dict -> dict := aset str_eqb.
  Definition sdel : str -> dict -> dict := adel str_eqb.
  Definition shas : str -> dict -> bool := ahas str_eqb.

  Lemma sget_sset_eq k v (d : dict) : sget k (sset k v d) = Some v.
  Proof.
    induction d as [|[k' v'] d IH]; simpl.
    - unfold sget; simpl. rewrite str_eqb_refl. reflexivity.
    - unfold sget, sset in *. simpl. destruct (str_eqb k k') eqn:E; simpl; rewrite E; [reflexivity|exact IH].
  Qed.
  Lemma sget_sset_neq k k2 v (d : dict) : k <> k2 -> sget k (sset k2 v d) = sget k d.
  Proof.
    intros Hne. induction d as [|[k' v'] d IH]; unfold sget, sset in *; simpl.
    - destruct (str_eqb_spec k k2); [congruence|reflexivity].
    - destruct (str_eqb_spec k2 k') as [->|Hk]; simpl.
      + destruct (str_eqb_spec k k'); [congruence|reflexivity].
      + destruct (str_eqb_spec k k'); [reflexivity|exact IH].
  Qed.
  Lemma sget_In k v (d : dict) : sget k d = Some v -> In (k, v) d.
  Proof.
    induction d as [|[k' v'] d IH]; unfold sget; simpl; [discriminate|].
    destruct (str_eqb_spec k k') as [->|Hk]; [intros [= ->]; left; reflexivity|].
    intros H. right. apply IH. exact H.
  Qed.
  Lemma sget_None k (d : dict) : sget k d = None <-> ~ In k (map fst d).
  Proof.
    induction d as [|[k' v'] d IH]; unfold sget in *; simpl; [split; auto|].
    destruct (str_eqb_spec k k') as [->|Hk].
    - split; [discriminate|]. intros H. exfalso; apply H; left; reflexivity.
    - rewrite IH. split; [intros H [H1|H1]; [congruence|auto] | auto].
  Qed.
  Lemma In_sget k v (d : dict) : NoDup (map fst d) -> In (k, v) d -> sget k d = Some v.
  Proof.
    induction d as [|[k' v'] d IH]; simpl; [contradiction|].
    intros Hnd [H|H]; unfold sget in *; simpl.
    - injection H as -> ->. rewrite str_eqb_refl. reflexivity.
    - inversion Hnd as [|? ? Hni Hnd']; subst. destruct (str_eqb_spec k k') as [->|Hk].
      + exfalso. apply Hni. apply in_map_iff. exists (k', v). auto.
      + apply IH; auto.
  Qed.
  Lemma sget_app k (d e : dict) : sget k (d ++ e) = match sget k d with Some v => Some v | None => sget k e end.
  Proof.
    induction d as [|[k' v'] d IH]; unfold sget in *; simpl; [reflexivity|].
    destruct (str_eqb k k'); [reflexivity|exact IH].
  Qed.
  Lemma sset_new k v (d : dict) : sget k d = None -> sset k v d = d ++ [(k, v)].
  Proof.
    induction d as [|[k' v'] d IH]; unfold sget, sset in *; simpl; [reflexivity|].
    destruct (str_eqb k k'); [discriminate|]. intros H. rewrite IH by exact H. reflexivity.
  Qed.
  Lemma sset_keys k v (d : dict) : sget k d <> None -> map fst (sset k v d) = map fst d.
  Proof.
    induction d as [|[k' v'] d IH]; unfold sget, sset in *; simpl; [congruence|].
    destruct (str_eqb_spec k k') as [->|Hk]; simpl; [reflexivity|].
    intros H. rewrite IH by exact H. reflexivity.
  Qed.
  Lemma sset_keys_gen k v (d : dict) :
    map fst (sset k v d) = match sget k d with Some _ => map fst d | None => map fst d ++ [k] end.
  Proof.
    destruct (sget k d) eqn:E; [apply sset_keys; congruence|]. rewrite sset_new by exact E. rewrite map_app. reflexivity.
  Qed.
  Lemma NoDup_snoc {A} (l : list A) x : NoDup l -> ~ In x l -> NoDup (l ++ [x]).
  Proof.
    induction l as [|y l IH]; simpl; intros Hnd Hni; [constructor; [auto|constructor]|].
    inversion Hnd as [|? ? Hy Hnd']; subst. constructor.
    - rewrite in_app_iff. intros [H|[H|[]]]; [auto|]. subst. apply Hni; left; reflexivity.
    - apply IH; [exact Hnd'|]. intros H; apply Hni; right; exact H.
  Qed.
  Lemma sset_NoDup k v (d : dict) : NoDup (map fst d) -> NoDup (map fst (sset k v d)).
  Proof.
    intros H. rewrite sset_keys_gen. destruct (sget k d) eqn:E; [exact H|].
    apply sget_None in E. apply NoDup_snoc; auto.
  Qed.
  Lemma sset_In k v (d : dict) kv : In kv (sset k v d) -> kv = (k, v) \/ In kv d.
  Proof.
    induction d as [|[k' v'] d IH]; unfold sset in *; simpl.
    - intros [H|[]]; auto.
    - destruct (str_eqb_spec k k') as [->|Hk]; simpl; intros [H|H]; auto.
      destruct (IH H); auto.
  Qed.
End StrDict.
