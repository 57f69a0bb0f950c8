(** Titles read back as headings. *)
From Coq Require Import Permutation Lia ZArith.
From Verif.Base Require Import PyStr PyNum PyVal PyDict Outcome.
From Verif.Model Require Import Lib Convert Input Flatten Titles Schema.
From Verif.Spec Require Import Flat Sites Paths Headings SchemaFields SchemaTitled Titled RoundTrip TitledTrip Positions.
From Verif.Proofs Require Import FlattenPaths SchemaTypes SchemaLines SchemaSame SchemaOnce RtMerge RtLine RtDoc TitleChain TitlePlaces TitleRows.

Lemma keys_app a b : keys (a ++ b) = keys a ++ keys b.
Proof. apply flat_map_app. Qed.
Lemma keys_heading L : keys (heading_path L) = map fst L.
Proof. induction L as [|[k o] L IH]; [reflexivity|]. rewrite heading_path_cons. cbn [map fst]. change (HKey k :: match o with Some _ => [HPos 0] | None => [] end ++ heading_path L) with ([HKey k] ++ (match o with Some _ => [HPos 0] | None => [] end ++ heading_path L)). rewrite !keys_app, IH. destruct o; reflexivity. Qed.

(** the headings as they are without titles: "0" after every array *)
Section Vparts.
  Variable types : str -> str.
  Fixpoint vparts (seen l : list str) : list str :=
    match l with
    | [] => []
    | k :: l' => k :: match l' with
                      | [] => []
                      | _ => (if str_eqb (types (join [slash] (seen ++ [k]))) (u "array") then [u "0"] else []) ++ vparts (seen ++ [k]) l'
                      end
    end.
  Definition told (seen : list str) (p : hpath) : Prop :=
    forall q k r, p = q ++ HKey k :: r ->
      match r with
      | [] => True
      | HKey _ :: _ => types (join [slash] (seen ++ keys (q ++ [HKey k]))) <> u "array"
      | HPos _ :: _ => types (join [slash] (seen ++ keys (q ++ [HKey k]))) = u "array"
      end.
  Lemma vparts_chain SO S p ts : chain SO S p ts -> forall seen, told seen p -> vparts seen (keys p) = map hpart p.
  Proof.
    induction 1 as [S n v ty t P L T|S n v t p ts P Ob T C IH|S n v i t p ts P Ob T C IH]; intros seen Hc.
    - reflexivity.
    - change (keys (HKey n :: p)) with (n :: keys p). cbn [vparts map hpart]. f_equal. destruct (keys p) as [|k l] eqn:Ek; [destruct (proj2 (proj2 (chain_ne _ _ _ _ C)) Ek)|].
      assert (Nt : str_eqb (types (join [slash] (seen ++ [n]))) (u "array") = false).
      { pose proof (Hc [] n p eq_refl) as Q. destruct p as [|[k'|i'] p]; [discriminate| |destruct (chain_not_pos _ _ _ _ _ C)]. cbn [app keys flat_map] in Q. destruct (str_eqb_spec (types (join [slash] (seen ++ [n]))) (u "array")); [contradiction|reflexivity]. }
      rewrite Nt. cbn [app]. apply IH. intros q k' r ->. pose proof (Hc (HKey n :: q) k' r eq_refl) as Q. cbn [app] in Q. change (keys (HKey n :: q ++ [HKey k'])) with (n :: keys (q ++ [HKey k'])) in Q. rewrite <- app_assoc. exact Q.
    - change (keys (HKey n :: HPos 0 :: p)) with (n :: keys p). cbn [vparts map hpart]. f_equal. destruct (keys p) as [|k l] eqn:Ek; [destruct (proj2 (proj2 (chain_ne _ _ _ _ C)) Ek)|].
      assert (Nt : types (join [slash] (seen ++ [n])) = u "array") by exact (Hc [] n (HPos 0 :: p) eq_refl).
      rewrite Nt. rewrite (proj2 (str_eqb_eq _ _) eq_refl). cbn [app]. f_equal. apply IH. intros q k' r ->. pose proof (Hc (HKey n :: HPos 0 :: q) k' r eq_refl) as Q. cbn [app] in Q. change (keys (HKey n :: HPos 0 :: q ++ [HKey k'])) with (n :: keys (q ++ [HKey k'])) in Q. rewrite <- app_assoc. exact Q.
  Qed.
End Vparts.

Section Items.
  Variable E : env.
  (** the parts of the heading of a path *)
  Lemma parts_of p : p <> [] -> (forall k, In k (keys p) -> heading_key k) -> path_items E (SStr (join (u "/") (map hpart p))) = map hpart p.
  Proof.
    intros Hne Hk. assert (Hp : forall x, In x (map hpart p) -> ~ In 47%N x /\ rstrip is_bracket x = x).
    { intros x Hx. apply in_map_iff in Hx as ([k|i] & <- & Hin); [|split; [intros [Q|[]]; discriminate|reflexivity]]. destruct (Hk k) as (_ & A & B); [apply in_flat_map; exists (HKey k); split; [exact Hin|left; reflexivity]|auto]. }
    unfold path_items. change (py_str E (SStr (join (u "/") (map hpart p)))) with (join (u "/") (map hpart p)). change (u "/") with [slash]. rewrite split_join; [|destruct p; [congruence|discriminate]|intros x Hx; apply (Hp x Hx)].
    rewrite <- (map_id (map hpart p)) at 2. apply map_ext_in. intros x Hx. apply (Hp x Hx).
  Qed.
  Lemma parts_keys l : l <> [] -> (forall k, In k l -> heading_key k) -> path_items E (SStr (join (u "/") l)) = l.
  Proof.
    intros Hne Hk. unfold path_items. change (py_str E (SStr (join (u "/") l))) with (join (u "/") l). change (u "/") with [slash]. rewrite split_join; [|exact Hne|intros x Hx; apply (Hk x Hx)].
    rewrite <- (map_id l) at 2. apply map_ext_in. intros x Hx. apply (Hk x Hx).
  Qed.
  Lemma key_int k : heading_key k -> isint k = false.
  Proof. intros ((_ & A) & _). unfold isint. rewrite A. reflexivity. Qed.
  Lemma names_of_keys l : (forall k, In k l -> heading_key k) -> names l = l.
  Proof. intros H. induction l as [|k l IH]; [reflexivity|]. unfold names. cbn [filter]. rewrite (key_int k) by (apply H; left; reflexivity). cbn [negb]. f_equal. apply IH. intros x Hx. apply H. right. exact Hx. Qed.
  Lemma names_of_path p : (forall k, In k (keys p) -> heading_key k) -> names (map hpart p) = keys p.
  Proof.
    intros H. induction p as [|[k|i] p IH]; [reflexivity| |].
    - cbn [map hpart]. unfold names. cbn [filter]. rewrite (key_int k) by (apply H; left; reflexivity). cbn [negb]. change (keys (HKey k :: p)) with (k :: keys p). f_equal. apply IH. intros x Hx. apply H. right. exact Hx.
    - cbn [map hpart]. apply IH. exact H.
  Qed.
  Lemma stands_path p a n : (forall k, In k (keys p) -> heading_key k) -> (forall i, In (HPos i) p -> i = 0%Z) -> stands (map hpart p) a n ->
    exists q k r, p = q ++ HKey k :: r /\ a = keys (q ++ [HKey k]) /\ n = match r with HPos _ :: _ => Some 0%Z | _ => None end.
  Proof.
    intros Hk Hz [before item after Ep Hi Ha]. apply map_eq_app in Ep as (q & r0 & -> & Eq & Er). destruct r0 as [|st r]; [discriminate|]. cbn [map] in Er. injection Er as Est Eaf. subst before item after.
    destruct st as [k|i]; [|discriminate Hi]. exists q, k, r. split; [reflexivity|]. split.
    - rewrite <- Ha. change [hpart (HKey k)] with (map hpart [HKey k]). rewrite <- map_app. apply names_of_path. intros x Hx. apply Hk. rewrite keys_app in *. apply in_app_or in Hx as [Hx|[<-|[]]]; apply in_or_app; [left; exact Hx|right; left; reflexivity].
    - destruct r as [|[k'|i'] r]; [reflexivity| |reflexivity]. cbn [map hpart hd]. destruct (Hk k') as ((_ & Q) & _); [|exact Q]. rewrite keys_app. apply in_or_app. right. right. left. reflexivity.
  Qed.
  Lemma stands_keys l a n : (forall k, In k l -> heading_key k) -> stands l a n -> n = None.
  Proof.
    intros Hk [before item after -> Hi Ha]. destruct after as [|k l]; [reflexivity|]. cbn [hd]. destruct (Hk k) as ((_ & Q) & _); [|exact Q]. apply in_or_app. right. right. left. reflexivity.
  Qed.
End Items.
(** the keys on the way to a value *)
Lemma path_keys idn L : forall v y, tidy idn v -> Paths.at_path v L = Some y -> forall k, In k (map fst L) -> heading_key k.
Proof.
  induction L as [|[k o] L IH]; intros v y Ht Ha k0 Hin; [destruct Hin|]. cbn [Paths.at_path] in Ha. destruct v as [| |d]; try discriminate. destruct (tidy_JO idn d Ht) as (_ & _ & Hv & _). cbn [map fst] in Hin.
  destruct o as [i|].
  - destruct (sget k d) as [[|l|]|] eqn:Ek; try discriminate. apply sget_In in Ek. destruct (Hv _ _ Ek) as [Hk Hl]. destruct (nth_error l i) as [z|] eqn:Ei; [|discriminate]. destruct Hin as [<-|Hin]; [exact Hk|]. apply nth_error_In in Ei.
    destruct L as [|[k2 o2] L]; [destruct Hin|]. destruct z as [| |e]; try discriminate. destruct (tidy_items idn l e Hl Ei) as (_ & Hi & _). eapply IH; [exact (proj1 (Hi _ Ei))|exact Ha|exact Hin].
  - destruct (sget k d) as [z|] eqn:Ek; [|discriminate]. apply sget_In in Ek. destruct (Hv _ _ Ek) as [Hk Hl]. destruct Hin as [<-|Hin]; [exact Hk|]. eapply IH; eauto.
Qed.

Section Back.
  Variables (SO : sopts) (S : sv) (P : opts) (T : Titles.table).
  Hypothesis HR : readable_titles SO S.
  Hypothesis HS : reads_schema SO S P T.
  (** the heading a title stands for; the same with the positions *)
  Definition back (h : str) : str := lookup_header (so_lower SO) T 0 h.
  Definition full (h : str) : str := join (u "/") (vparts (o_types P) [] (split_on slash (back h))).
  Definition at_array (a : list str) : option Z := if str_eqb (o_types P (join [slash] a)) (u "array") then Some 0%Z else None.

  Lemma back_chain p ts : chain SO S p ts -> back (joint ts) = join (u "/") (keys p).
  Proof.
    intros C. pose proof HS as (SU & st & w & E & Hn & Hw & Hl & _ & ET). pose proof (proj1 HR) as Hc. unfold back. rewrite ET, <- Hl. unfold joint. apply (heading_found SU S st w E).
    - apply (clear_same SO SU); [symmetry; exact Hn|symmetry; exact Hw|symmetry; exact Hl|exact Hc].
    - apply (chain_ne _ _ _ _ C).
    - intros x Hx. pose proof (chain_words SO S HR _ _ C) as W. rewrite Forall_forall in W. apply (W x Hx).
    - apply (resolved_same SO SU); [symmetry; exact Hn|symmetry; exact Hw|symmetry; exact Hl|]. apply chain_resolved; [exact C|apply (chain_unnumbered SO S HR)].
  Qed.
  Lemma array_types p ts a n i b : chain SO S p ts -> p = a ++ HKey n :: HPos i :: b -> o_types P (join [slash] (keys (a ++ [HKey n]))) = u "array".
  Proof.
    intros C E. pose proof HS as (SU & st & w & Ep & Hn & Hw & Hl & Ety & _). destruct (chain_position _ _ _ _ C a n i b E) as (v & Al & K). rewrite Ety. change (join [slash] (keys (a ++ [HKey n]))) with (path_text (a ++ [HKey n])).
    pose proof HR as (Hc & Hk & Hp & _). apply (types_found SU S st w Ep) with (v := v).
    - apply (plain_same SO SU); [symmetry; exact Hn|symmetry; exact Hw|exact Hp].
    - apply (once_same SO SU); [symmetry; exact Hn|symmetry; exact Hw|exact Hk].
    - apply Hc.
    - apply (along_same SO SU); [symmetry; exact Hn|symmetry; exact Hw|exact Al].
    - apply (kind_same SO SU); [symmetry; exact Hw|exact K].
    - discriminate.
  Qed.
  Section Place.
    Variables (L : jpath) (ts : list str).
    Notation p := (heading_path L).
    Hypothesis HC : chain SO S p ts.
    Hypothesis HF : Headings.fits (o_types P) p.
    Hypothesis HK : forall k, In k (map fst L) -> heading_key k.
    Lemma hk k : In k (keys p) -> heading_key k.
    Proof. rewrite keys_heading. apply HK. Qed.
    Lemma place_told : told (o_types P) [] p.
    Proof.
      intros q k r E. pose proof (HF q k r E) as Q. cbv zeta in Q. change (path_text (q ++ [HKey k])) with (join [slash] ([] ++ keys (q ++ [HKey k]))) in Q. destruct r as [|[k'|i'] r]; [exact I| |exact (array_types _ _ _ _ _ _ HC E)].
      destruct Q as [Q|Q]; rewrite Q; discriminate.
    Qed.
    Lemma split_back : split_on slash (back (joint ts)) = keys p.
    Proof. rewrite (back_chain _ _ HC). change (u "/") with [slash]. apply split_join; [apply (chain_ne _ _ _ _ HC)|]. intros x Hx. apply (hk x Hx). Qed.
    Lemma full_chain : full (joint ts) = ctext L.
    Proof. unfold full. rewrite split_back, (vparts_chain _ _ _ _ _ HC [] place_told). reflexivity. Qed.
    Lemma full_names (E : env) : let V := path_items E (SStr (full (joint ts))) in let G := path_items E (SStr (back (joint ts))) in
      ~ In [] V /\ names V = names G /\ (forall a n, stands V a n -> at_array a = n) /\ (forall a n, stands G a n -> n = None).
    Proof.
      cbv zeta. rewrite full_chain, (back_chain _ _ HC). unfold ctext, zero_text. change (map (fun s : hstep => match s with HKey k => k | HPos _ => [48%N] end) p) with (map hpart p). change sl with (u "/").
      rewrite (parts_of E p (proj1 (chain_ne _ _ _ _ HC)) hk), (parts_keys E (keys p) (proj2 (proj2 (chain_ne _ _ _ _ HC))) hk). split; [|split; [|split]].
      - intros Hin. apply in_map_iff in Hin as ([k|i] & Q & Hin); [|discriminate]. cbn [hpart] in Q. subst k. destruct (hk []) as ((Q & _) & _); [|congruence]. apply in_flat_map. exists (HKey []). split; [exact Hin|left; reflexivity].
      - rewrite names_of_path by exact hk. rewrite names_of_keys by exact hk. reflexivity.
      - intros a n Hs. destruct (stands_path p a n hk (fun i => heading_path_zero L i) Hs) as (q & k & r & Ep & -> & ->). unfold at_array. pose proof (place_told q k r Ep) as Q. pose proof (HF q k r Ep) as Q2. cbv zeta in Q2. change (path_text (q ++ [HKey k])) with (join [slash] (keys (q ++ [HKey k]))) in Q2. cbn [app] in Q.
        destruct (str_eqb_spec (o_types P (join [slash] (keys (q ++ [HKey k])))) (u "array")) as [Ea|Ea]; destruct r as [|[k'|i'] r]; try reflexivity; exfalso; tauto.
      - intros a n. apply stands_keys. exact hk.
    Qed.
  End Place.
  Lemma full_inj L ts L' ts' : chain SO S (heading_path L) ts -> chain SO S (heading_path L') ts' -> (forall k, In k (map fst L) -> heading_key k) -> (forall k, In k (map fst L') -> heading_key k) ->
    ctext L = ctext L' -> ts = ts'.
  Proof.
    intros C C' K K' E. eapply chain_fun; [exact C|apply (once_s SO S HR)|exact C'|].
    assert (Ep : map hpart (heading_path L) = map hpart (heading_path L')).
    { rewrite <- (parts_of (ce_env (o_conv P)) (heading_path L) (proj1 (chain_ne _ _ _ _ C)) (hk L K)). rewrite <- (parts_of (ce_env (o_conv P)) (heading_path L') (proj1 (chain_ne _ _ _ _ C')) (hk L' K')). f_equal. f_equal. exact E. }
    rewrite <- (names_of_path (heading_path L) (hk L K)), <- (names_of_path (heading_path L') (hk L' K')). f_equal. exact Ep.
  Qed.
  Lemma back_fun p ts p' ts' : chain SO S p ts -> chain SO S p' ts' -> back (joint ts) = back (joint ts') -> ts = ts'.
  Proof.
    intros C C' E. rewrite (back_chain _ _ C), (back_chain _ _ C') in E. eapply chain_fun; [exact C|apply (once_s SO S HR)|exact C'|]. 
    assert (W : forall q us, chain SO S q us -> split_on 47%N (join (u "/") (keys q)) = keys q).
    { intros q us D. apply (split_join 47%N); [apply (chain_ne _ _ _ _ D)|]. pose proof (chain_keys _ _ _ _ D (fun n => ~ In 47%N n)) as F. rewrite Forall_forall in F. apply F. intros U n v W Pn. exact (proj1 (proj2 (plain_s SO S HR)) U n v W Pn). }
    rewrite <- (W _ _ C), <- (W _ _ C'), E. reflexivity.
  Qed.
End Back.
