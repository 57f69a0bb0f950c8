(** Positions of array items only keep the items of a row apart. *)
From Coq Require Import ZArith Lia.
From Verif.Base Require Import PyStr PyNum PyVal PyDict Outcome.
From Verif.Model Require Import Warn Lib Convert Input.
From Verif.Spec Require Import Filled Positions.
From Verif.Proofs Require Import TreeInd EmbedFacts Erase EraseRun MapRun.
Local Open Scope res_scope.

(** ** Outcomes that agree but for headings *)
Definition both {A B} (P : A -> B -> Prop) (m : R A) (m' : R B) : Prop :=
  match m, m' with
  | Ok a w, Ok b w' => P a b /\ flat_map unheaded w = flat_map unheaded w'
  | Raise e w, Raise e' w' => e = e' /\ flat_map unheaded w = flat_map unheaded w'
  | _, _ => False
  end.
Lemma both_ret {A B} (P : A -> B -> Prop) a b : P a b -> both P (ret a) (ret b).
Proof. intros H. split; [exact H|reflexivity]. Qed.
Lemma both_bind {A B C D} (P : A -> B -> Prop) (Q : C -> D -> Prop) m m' (k : A -> R C) (k' : B -> R D) :
  both P m m' -> (forall a b, P a b -> both Q (k a) (k' b)) -> both Q (bind m k) (bind m' k').
Proof.
  intros H K. destruct m as [a w|e w], m' as [b w'|e' w']; cbn [both] in H; try (destruct H; fail).
  - destruct H as [Hp Hw]. specialize (K a b Hp). cbn [bind].
    destruct (k a), (k' b); cbn [both] in *; try exact K; (destruct K as [K1 K2]; split; [exact K1|rewrite !flat_map_app, Hw, K2; reflexivity]).
  - exact H.
Qed.
Lemma both_refl {A} (m : R A) : both eq m m.
Proof. destruct m; split; reflexivity. Qed.
Lemma both_impl {A B} (P Q : A -> B -> Prop) m m' : (forall a b, P a b -> Q a b) -> both P m m' -> both Q m m'.
Proof. intros H. destruct m, m'; cbn [both]; intuition. Qed.
Lemma both_seen {A} (m m' : R A) : both eq m m' -> seen_as unheaded m = seen_as unheaded m'.
Proof. destruct m, m'; cbn [both seen_as]; intuition congruence. Qed.
Lemma both_warn_l {A B} (P : A -> B -> Prop) w m m' : unheaded w = [] -> both P m m' -> both P (_ <- warn1 w ;; m) m'.
Proof. intros H. unfold warn1. destruct m, m'; cbn [both bind]; try tauto; cbn [flat_map app]; rewrite H; tauto. Qed.
Lemma both_sym {A B} (P : A -> B -> Prop) m m' : both P m m' -> both (fun b a => P a b) m' m.
Proof. destruct m, m'; cbn [both]; intuition. Qed.

(** ** Trees that differ in the positions and the locations *)
Definition f1 (_ : loc) : loc := {| l_sheet := []; l_col := []; l_row := 0%N; l_heading := SNone |}.
Section Shift.
  Variables at_ at' : list str -> option Z.
  Definition index (o : option Z) : Z := match o with Some i => i | None => (-1)%Z end.
  Inductive sh : list str -> rnode -> rnode -> Prop :=
  | sh_cell a c c' : lcell f1 c = lcell f1 c' -> sh a (RCell c) (RCell c')
  | sh_dict a d d' : shd a d d' -> sh a (RDict d) (RDict d')
  | sh_lad a d d' : shd a d d' -> sh a (RLad [(index (at_ a), d)]) (RLad [(index (at' a), d')])
  with shd : list str -> rdict -> rdict -> Prop :=
  | shd_nil a : shd a [] []
  | shd_cons a k n n' d d' : sh (a ++ [k]) n n' -> shd a d d' -> shd a ((k, n) :: d) ((k, n') :: d').
  Scheme sh_ind2 := Induction for sh Sort Prop with shd_ind2 := Induction for shd Sort Prop.
  Combined Scheme sh_both from sh_ind2, shd_ind2.

  Lemma shd_get a k d d' : shd a d d' -> match sget k d, sget k d' with
    | None, None => True | Some n, Some n' => sh (a ++ [k]) n n' | _, _ => False end.
  Proof.
    induction 1 as [a|a k' n n' d d' Hn Hd IH]; [exact I|]. unfold sget in *. cbn [aget]. destruct (str_eqb k k') eqn:Ek; [|exact IH].
    apply str_eqb_eq in Ek. subst. exact Hn.
  Qed.
  Lemma shd_set a k n n' d d' : sh (a ++ [k]) n n' -> shd a d d' -> shd a (sset k n d) (sset k n' d').
  Proof.
    intros Hn. induction 1 as [a|a k' m m' d d' Hm Hd IH]; unfold sset in *; cbn [aset].
    - constructor; [exact Hn|constructor].
    - destruct (str_eqb k k') eqn:Ek; [|constructor; [exact Hm|apply IH; exact Hn]]. apply str_eqb_eq in Ek. subst. constructor; assumption.
  Qed.

  Section Row.
    Variables (E : conv_env) (types : str -> str) (idn : str).
    Hypothesis Hat : forall a, types (join [slash] a) = u "array" \/ (at_ a = None <-> at' a = None).
    Variables (h h' : scalar) (l l' : loc).
    Lemma hd_next (rest : list str) : hd [] rest = match rest with [] => [] | n :: _ => n end.
    Proof. destruct rest; reflexivity. Qed.
    Lemma names_app a b : names (a ++ b) = names a ++ names b. Proof. apply filter_app. Qed.
    Lemma names_int x r : isint x = true -> names (x :: r) = names r.
    Proof. intros H. unfold names. cbn [filter]. rewrite H. reflexivity. Qed.
    Lemma names_name x r : isint x = false -> names (x :: r) = x :: names r.
    Proof. intros H. unfold names. cbn [filter]. rewrite H. reflexivity. Qed.
    Lemma next_same rest rest' : names rest = names rest' -> parse_int (hd [] rest) = None -> parse_int (hd [] rest') = None -> hd [] rest = hd [] rest'.
    Proof.
      assert (G : forall r, parse_int (hd [] r) = None -> hd [] r = hd [] (names r)).
      { intros [|x r] H; [reflexivity|]. cbn [hd] in *. rewrite names_name; [reflexivity|]. unfold isint. rewrite H. reflexivity. }
      intros Hn H1 H2. rewrite (G _ H1), (G _ H2), Hn. reflexivity.
    Qed.
    Notation W x y := (walk E types false x y).

    Lemma walk_int x y seen item rest v cur : isint item = true -> W x y seen (item :: rest) v cur =
      (_ <- (match seen with [] => warn1 (WNumberColumn x) | _ => ret tt end) ;; W x y (seen ++ [item]) rest v cur).
    Proof. intros H. cbn [walk]. rewrite H. reflexivity. Qed.
    Lemma both_int {B} (P : rdict -> B -> Prop) x y seen item rest v cur m : isint item = true -> both P (W x y (seen ++ [item]) rest v cur) m -> both P (W x y seen (item :: rest) v cur) m.
    Proof.
      intros Hi G. rewrite walk_int by exact Hi. destruct seen; [apply both_warn_l; [reflexivity|exact G]|]. cbn [bind ret]. destruct (W x y _ rest v cur); exact G.
    Qed.

    Lemma walk_shift : forall k rest rest', (length rest + length rest' <= k)%nat -> forall seen seen' v cur cur',
      names seen = names seen' -> names rest = names rest' -> ~ In [] rest ->
      (forall a n, stands (seen ++ rest) a n -> at_ a = n) -> (forall a n, stands (seen' ++ rest') a n -> at' a = n) ->
      shd (names seen) cur cur' ->
      both (shd (names seen)) (W h l seen rest v cur) (W h' l' seen' rest' v cur').
    Proof.
      induction k as [|k IH]; intros rest rest' Hk seen seen' v cur cur' Hs Hr He Ha Ha' Hc.
      { destruct rest, rest'; cbn [length] in Hk; try lia. apply both_ret. exact Hc. }
      (* a position on the left *)
      destruct rest as [|x rest].
      { destruct rest' as [|y rest']; [apply both_ret; exact Hc|]. destruct (isint y) eqn:Ey; [|rewrite (names_name y) in Hr by exact Ey; discriminate Hr].
        apply both_sym, both_int; [exact Ey|]. apply both_sym. apply IH; cbn [length] in *; try lia; try assumption.
        - rewrite names_app, (names_int y) by exact Ey. rewrite app_nil_r. exact Hs.
        - rewrite (names_int y) in Hr by exact Ey. exact Hr.
        - intros a n Hst. apply Ha'. rewrite <- app_assoc in Hst. exact Hst. }
      destruct (isint x) eqn:Ex.
      { assert (En : names (seen ++ [x]) = names seen) by (rewrite names_app, (names_int x) by exact Ex; apply app_nil_r).
        apply both_int; [exact Ex|]. rewrite <- En. apply IH; cbn [length] in *; try lia; rewrite ?En; try assumption.
        - rewrite (names_int x) in Hr by exact Ex. exact Hr.
        - intros Hi. apply He. right. exact Hi.
        - intros a n Hst. apply Ha. rewrite <- app_assoc in Hst. exact Hst. }
      destruct rest' as [|y rest']; [rewrite (names_name x) in Hr by exact Ex; discriminate Hr|].
      destruct (isint y) eqn:Ey.
      { apply both_sym, both_int; [exact Ey|]. apply both_sym. apply IH; cbn [length] in *; try lia; try assumption.
        - rewrite names_app, (names_int y) by exact Ey. rewrite app_nil_r. exact Hs.
        - rewrite (names_int y) in Hr by exact Ey. exact Hr.
        - intros a n Hst. apply Ha'. rewrite <- app_assoc in Hst. exact Hst. }
      rewrite (names_name x), (names_name y) in Hr by assumption. injection Hr as Exy Hr. subst y.
      assert (Es : names (seen ++ [x]) = names seen ++ [x]) by (rewrite names_app, (names_name x) by exact Ex; reflexivity).
      assert (Es' : names (seen' ++ [x]) = names (seen ++ [x])) by (rewrite !names_app, Hs; reflexivity).
      assert (Et : path_till (seen' ++ [x]) = path_till (seen ++ [x])) by (unfold path_till; f_equal; exact Es').
      assert (Ej : path_till (seen ++ [x]) = join [slash] (names seen ++ [x])) by (rewrite <- Es; reflexivity).
      assert (Hp : at_ (names seen ++ [x]) = parse_int (hd [] rest)) by (apply Ha; eapply stands_here; [reflexivity|exact Ex|exact Es]).
      assert (Hp' : at' (names seen ++ [x]) = parse_int (hd [] rest')) by (apply Ha'; eapply stands_here; [reflexivity|exact Ex|rewrite Es'; exact Es]).
      assert (Sub : forall sub sub' w, shd (names seen ++ [x]) sub sub' -> both (shd (names seen ++ [x])) (W h l (seen ++ [x]) rest w sub) (W h' l' (seen' ++ [x]) rest' w sub')).
      { intros sub sub' w Hd. rewrite <- Es in *. apply IH; cbn [length] in *; try lia; try assumption.
        - symmetry. exact Es'.
        - intros Hi. apply He. right. exact Hi.
        - intros a n Hst. apply Ha. rewrite <- app_assoc in Hst. exact Hst.
        - intros a n Hst. apply Ha'. rewrite <- app_assoc in Hst. exact Hst. }
      pose proof (shd_get _ x _ _ Hc) as Hg.
      cbn [walk]. rewrite Ex. cbn [andb negb orb]. cbv zeta. rewrite Et. rewrite <- !hd_next, <- Hp, <- Hp'.
      set (ct := types (path_till (seen ++ [x]))). set (a := names seen ++ [x]) in *.
      assert (Hct : ct = u "array" \/ (at_ a = None <-> at' a = None)) by (unfold ct; rewrite Ej; apply Hat).
      (* the array step *)
      assert (Arr : both (shd (names seen))
        (match match sget x cur with None => Some [] | Some (RLad l0) => Some l0 | Some _ => None end with
         | Some l0 => sub' <- W h l (seen ++ [x]) rest v match zget (index (at_ a)) l0 with Some d => d | None => [] end ;; ret (sset x (RLad (zset (index (at_ a)) sub' l0)) cur)
         | None => _ <- warn1 (WColumnArray h (path_till (seen ++ [x]))) ;; ret cur end)
        (match match sget x cur' with None => Some [] | Some (RLad l0) => Some l0 | Some _ => None end with
         | Some l0 => sub' <- W h' l' (seen' ++ [x]) rest' v match zget (index (at' a)) l0 with Some d => d | None => [] end ;; ret (sset x (RLad (zset (index (at' a)) sub' l0)) cur')
         | None => _ <- warn1 (WColumnArray h' (path_till (seen ++ [x]))) ;; ret cur' end)).
      { assert (G : forall sub sub' l0 l0', shd a sub sub' -> (forall z, zset (index (at_ a)) z l0 = [(index (at_ a), z)]) -> (forall z, zset (index (at' a)) z l0' = [(index (at' a), z)]) ->
          both (shd (names seen)) (sub' <- W h l (seen ++ [x]) rest v sub ;; ret (sset x (RLad (zset (index (at_ a)) sub' l0)) cur))
             (sub' <- W h' l' (seen' ++ [x]) rest' v sub' ;; ret (sset x (RLad (zset (index (at' a)) sub' l0')) cur'))).
        { intros sub sub' l0 l0' Hd Z1 Z2. eapply both_bind; [apply Sub; exact Hd|]. intros z z' Hz. apply both_ret. rewrite Z1, Z2. apply shd_set; [|exact Hc]. constructor. exact Hz. }
        destruct (sget x cur) as [n|], (sget x cur') as [n'|]; try (destruct Hg; fail).
        - inversion Hg; subst.
          + split; [exact Hc|reflexivity].
          + split; [exact Hc|reflexivity].
          + unfold zget, zset in *. cbn [aget]. rewrite !Z.eqb_refl. apply G; [assumption| |]; intros z; cbn [aset]; rewrite Z.eqb_refl; reflexivity.
        - apply G; [constructor| |]; intros z; reflexivity. }
      destruct (str_eqb ct (u "array")) eqn:Eca.
      { destruct (at_ a) as [i|] eqn:E1, (at' a) as [j|] eqn:E2; cbn [index] in Arr; rewrite ?andb_false_r; exact Arr. }
      destruct Hct as [Hct|Hct]; [rewrite Hct in Eca; discriminate Eca|].
      destruct (at_ a) as [i|] eqn:E1, (at' a) as [j|] eqn:E2.
      { cbn [index] in Arr. destruct (negb (is_empty ct) && negb false); [split; reflexivity|exact Arr]. }
      { discriminate (proj2 Hct eq_refl). }
      { discriminate (proj1 Hct eq_refl). }
      assert (En : hd [] rest = hd [] rest') by (apply next_same; [exact Hr|rewrite <- Hp; reflexivity|rewrite <- Hp'; reflexivity]). rewrite <- En.
      match goal with |- both _ (if ?b then _ else _) _ => destruct b eqn:Eo end.
      { assert (G : forall sub sub', shd a sub sub' -> both (shd (names seen)) (s' <- W h l (seen ++ [x]) rest v sub ;; ret (sset x (RDict s') cur)) (s' <- W h' l' (seen' ++ [x]) rest' v sub' ;; ret (sset x (RDict s') cur'))).
        { intros sub sub' Hd. eapply both_bind; [apply Sub; exact Hd|]. intros z z' Hz. apply both_ret. apply shd_set; [|exact Hc]. constructor. exact Hz. }
        destruct (sget x cur) as [n|], (sget x cur') as [n'|]; try (destruct Hg; fail).
        - inversion Hg; subst; try (split; [exact Hc|reflexivity]). apply G. assumption.
        - apply G. constructor. }
      match goal with |- both _ (if ?b then _ else _) _ => destruct b eqn:Ev end; [split; reflexivity|].
      (* a value *)
      assert (Hn : hd [] rest = []).
      { apply Bool.orb_false_iff in Eo. destruct Eo as [_ Eo]. destruct (is_empty ct); cbn [andb negb] in *; destruct (hd [] rest); try reflexivity; discriminate. }
      assert (Er : rest = []) by (destruct rest as [|z rest]; [reflexivity|]; cbn [hd] in Hn; subst z; exfalso; apply He; right; left; reflexivity).
      assert (Er' : rest' = []).
      { destruct rest' as [|z rest']; [reflexivity|]. rewrite Hn in En. cbn [hd] in En. subst z. subst rest. discriminate Hr. }
      subst rest rest'. cbn [walk].
      assert (Fin : both (shd (names seen))
        (conv <- convert_type E ct v ;; cur' <- (if cv_blank conv then ret cur else ret (sset x (RCell (mk_cell conv l)) cur)) ;; ret cur')
        (conv <- convert_type E ct v ;; cur' <- (if cv_blank conv then ret cur' else ret (sset x (RCell (mk_cell conv l')) cur')) ;; ret cur')).
      { eapply both_bind; [apply both_refl|]. intros conv ? <-. eapply both_bind; [|intros; apply both_ret; eassumption].
        destruct (cv_blank conv); apply both_ret; [exact Hc|]. apply shd_set; [|exact Hc]. constructor. reflexivity. }
      destruct (sget x cur) as [n|], (sget x cur') as [n'|]; try (destruct Hg; fail).
      - inversion Hg; subst; [exact Fin| |]; (split; [exact Hc|reflexivity]).
      - exact Fin.
    Qed.
  End Row.

  Section Rows.
    Variables (E : conv_env) (types : str -> str) (idn : str).
    Hypothesis Hat : forall a, types (join [slash] a) = u "array" \/ (at_ a = None <-> at' a = None).
    Lemma build_shift cs cs' :
      Forall2 (fun c c' => fc_value c = fc_value c' /\ ~ In [] (path_items E (fc_key c)) /\ names (path_items E (fc_key c)) = names (path_items E (fc_key c'))) cs cs' ->
      (forall c a n, In c cs -> stands (path_items E (fc_key c)) a n -> at_ a = n) -> (forall c a n, In c cs' -> stands (path_items E (fc_key c)) a n -> at' a = n) ->
      forall cur cur', shd [] cur cur' -> both (shd []) (build_row E types false (map ecell cs) cur) (build_row E types false (map ecell cs') cur').
    Proof.
      induction 1 as [|c c' cs cs' (Hv & He & Hn) _ IH]; intros Ha Ha' cur cur' Hc; [apply both_ret; exact Hc|].
      cbn [map ecell build_row mk_cell c_val c_loc]. rewrite <- Hv. destruct (cv_blank _); [apply IH; [| |exact Hc]; intros c0 a n Hin; [apply (Ha c0)|apply (Ha' c0)]; right; exact Hin|].
      eapply both_bind.
      - change (@nil str) with (names []) at 1. eapply walk_shift with (k := (length (path_items E (fc_key c)) + length (path_items E (fc_key c')))%nat); try assumption; try reflexivity.
        + intros a n Hs. apply (Ha c); [left; reflexivity|exact Hs].
        + intros a n Hs. apply (Ha' c'); [left; reflexivity|exact Hs].
      - intros d d' Hd. apply IH; [| |exact Hd]; intros c0 a n Hin; [apply (Ha c0)|apply (Ha' c0)]; right; exact Hin.
    Qed.

    Lemma rmap_both {A B} (g : A -> B) (m m' : R A) : rmap g m = rmap g m' -> both (fun a b => g a = g b) m m'.
    Proof. destruct m, m'; cbn [rmap both]; intros H; try discriminate H; injection H; intros; subst; split; auto. Qed.
    Lemma temp_same t t' d d' : ltt f1 t = ltt f1 t' -> ltd f1 d = ltd f1 d' -> both (fun a b => ltt f1 a = ltt f1 b) (temp_append false idn t d) (temp_append false idn t' d').
    Proof. intros Ht Hd. apply rmap_both. rewrite <- !temp_append_loc, Ht, Hd. reflexivity. Qed.
    Lemma fin_shift :
      (forall a n n', sh a n n' -> both (fun t t' => lt f1 t = lt f1 t') (fin false idn n) (fin false idn n')) /\
      (forall a d d', shd a d d' -> both (fun t t' => ltd f1 t = ltd f1 t') (fin_dict (fin false idn) d) (fin_dict (fin false idn) d')).
    Proof.
      apply sh_both.
      - intros _ c c' Hc. apply both_ret. cbn [lt]. f_equal. exact Hc.
      - intros a d d' _ IH. cbn [fin]. eapply both_bind; [exact IH|]. intros t t' Ht. apply both_ret. rewrite !lt_dict. f_equal. exact Ht.
      - intros a d d' Hd IH. cbn [fin].
        assert (G : both (fun x y => ltt f1 x = ltt f1 y)
           (t <- fin_dict (fin false idn) d ;; temp_append false idn ([], []) t) (t <- fin_dict (fin false idn) d' ;; temp_append false idn ([], []) t)).
        { eapply both_bind; [exact IH|]. intros t t' Ht. apply temp_same; [reflexivity|exact Ht]. }
        destruct d as [|kn d], d' as [|kn' d']; inversion Hd; subst.
        + apply both_ret. reflexivity.
        + cbn [fin_items map]. match goal with |- both _ (bind (bind ?m _) _) (bind (bind ?m' _) _) => set (M := m) in *; set (M' := m') in * end.
          destruct M as [t w|e w], M' as [t' w'|e' w']; cbn [bind ret map sort_z insert_z fst snd temp_of_list both] in *; try (destruct IH; fail); [|rewrite ?app_nil_r; exact IH].
          rewrite !app_nil_r. destruct (temp_append false idn ([], []) t) as [r w1|e w1], (temp_append false idn ([], []) t') as [r' w1'|e' w1']; cbn [bind ret both] in *; try (destruct G; fail); rewrite ?app_nil_r; [|exact G].
          destruct G as [G1 G2]. split; [|exact G2]. destruct r, r'. cbn [fst snd]. rewrite !lt_temp. exact (f_equal (fun x : ttemp => TTemp (fst x) (snd x)) G1).
      - intros _. apply both_ret. reflexivity.
      - intros a k n n' d d' Hn IHn Hd IHd.
        assert (G : both (fun t t' => ltd f1 t = ltd f1 t') (x <- fin false idn n ;; r <- fin_dict (fin false idn) d ;; ret ((k, x) :: r)) (x <- fin false idn n' ;; r <- fin_dict (fin false idn) d' ;; ret ((k, x) :: r))).
        { eapply both_bind; [exact IHn|]. intros t t' Ht. eapply both_bind; [exact IHd|]. intros r r' Hr. apply both_ret. cbn [ltd vals map fst snd]. f_equal; [f_equal; exact Ht|exact Hr]. }
        destruct Hn as [? c c' Hc|? e e' He|? e e' He]; try exact G. destruct He; [exact IHd|exact G].
    Qed.
    Lemma row_shift cs cs' :
      Forall2 (fun c c' => fc_value c = fc_value c' /\ ~ In [] (path_items E (fc_key c)) /\ names (path_items E (fc_key c)) = names (path_items E (fc_key c'))) cs cs' ->
      (forall c a n, In c cs -> stands (path_items E (fc_key c)) a n -> at_ a = n) -> (forall c a n, In c cs' -> stands (path_items E (fc_key c)) a n -> at' a = n) ->
      both (fun d d' => ltd f1 d = ltd f1 d') (unflatten_row E types false idn (map ecell cs)) (unflatten_row E types false idn (map ecell cs')).
    Proof.
      intros H Ha Ha'. unfold unflatten_row. eapply both_bind; [apply build_shift; try eassumption; constructor|]. intros d d' Hd. apply (proj2 fin_shift [] d d' Hd).
    Qed.
  End Rows.
End Shift.

(** ** Headings and sheets do not matter when rows are merged *)
Lemma both_map {A B C} (P : B -> C -> Prop) (m : R A) (f : A -> B) (g : A -> C) : (forall a, P (f a) (g a)) -> both P (rmap f m) (rmap g m).
Proof. intros H. destruct m; split; auto. Qed.
Section Merge.
  Variables dbg dbg' : debug.
  Hypothesis Hdbg : dbg_root_id dbg = dbg_root_id dbg' /\ dbg_root dbg = dbg_root dbg' /\ dbg_id_name dbg = dbg_id_name dbg' /\ dbg_id dbg = dbg_id dbg'.
  Notation ln := (lt f1).
  Notation ld := (ltd f1).
  Lemma node_count n : length (node_cells (ln n)) = length (node_cells n).
  Proof.
    set (go := fix go (d : tdict) := match d with [] => [] | (_, n) :: d' => node_cells n ++ go d' end).
    assert (D : forall d, Pd (fun n => length (node_cells (ln n)) = length (node_cells n)) d -> length (go (ld d)) = length (go d)).
    { intros d H. induction H as [|[k n'] d Hn _ IH]; [reflexivity|]. cbn [ltd vals map fst snd go]. rewrite !app_length. cbn [snd] in Hn. rewrite Hn. f_equal. exact IH. }
    induction n as [c|d IH|data nk IHd IHn] using tnode_ind'.
    - reflexivity.
    - exact (D d IH).
    - rewrite lt_temp. cbn [node_cells]. fold go. rewrite !app_length. f_equal.
      + induction IHd as [|[k d] l Hd _ IH]; [reflexivity|]. cbn [vals map fst snd]. rewrite !app_length. f_equal; [apply D; exact Hd|exact IH].
      + induction IHn as [|d l Hd _ IH]; [reflexivity|]. cbn [map]. rewrite !app_length. f_equal; [apply D; exact Hd|exact IH].
  Qed.
  Lemma ignored_un n y : flat_map unheaded (ignored n y) = flat_map unheaded (ignored (ln n) y).
  Proof.
    pose proof (node_count n) as H. unfold ignored. revert H. generalize (node_cells n) (node_cells (ln n)). induction l as [|c l IH]; intros [|c' l'] H; try discriminate H; [reflexivity|].
    cbn [map flat_map unheaded app]. f_equal. apply IH. injection H as H. exact H.
  Qed.
  Definition is {A B} (g : A -> B) (x : A) (y : B) : Prop := y = g x.
  Definition mok (v : tnode) : Prop := forall k base, both (is ld) (merge_item dbg k v base) (merge_item dbg' k (ln v) (ld base)).
  Lemma merge_list_un m : Pd mok m -> forall base, both (is ld) (merge_list (merge_item dbg) m base) (merge_list (merge_item dbg') (ld m) (ld base)).
  Proof.
    intros H. induction H as [|[k v] m Hv _ IH]; intros base; [apply both_ret; reflexivity|]. cbn [ltd vals map fst snd merge_list]. fold (lt f1). cbn [snd] in Hv.
    eapply both_bind; [apply Hv|]. intros b b' ->. apply IH.
  Qed.
  Lemma merge_data_un data : Forall (fun kd : scalar * tdict => Pd mok (snd kd)) data -> forall bdata,
    both (is (vals ld)) (merge_data (merge_item dbg) data bdata) (merge_data (merge_item dbg') (vals ld data) (vals ld bdata)).
  Proof.
    intros H. induction H as [|[k d] data Hd _ IH]; intros bdata; [apply both_ret; reflexivity|]. cbn [vals map fst snd merge_data]. fold (vals ld data). fold (vals ld bdata). unfold kget, kset. rewrite aget_vals.
    destruct (aget py_eqb k bdata) as [b|]; cbn [option_map].
    - eapply both_bind; [apply merge_list_un; exact Hd|]. intros b1 b' ->. rewrite aset_vals. apply IH.
    - rewrite aset_vals. apply IH.
  Qed.
  Lemma merge_item_un v : mok v.
  Proof.
    induction v as [c|d IH|data nk IHd IHn] using tnode_ind'; intros k base.
    - cbn [lt merge_item]. rewrite ltd_get. destruct (sget k base) as [b|]; cbn [option_map].
      2:{ apply both_ret. unfold is. rewrite <- ltd_set. reflexivity. }
      pose proof (ignored_un (TCell c)) as Hig. cbn [lt] in Hig. cbn [lcell c_val].
      assert (Gw : forall y, both (is ld) (Ok base (ignored (TCell c) y)) (Ok (ld base) (ignored (TCell (lcell f1 c)) y))) by (intros y; split; [reflexivity|apply Hig]).
      assert (Gc : forall bc, both (is ld) (if cv_eqb (c_val bc) (c_val c) then ret (sset k (TCell (add_sub bc c)) base)
            else Ok base [WDuplicate (dbg_root_id dbg) (dbg_root dbg) (dbg_id_name dbg) (dbg_id dbg) k (dbg_sheet dbg) (c_val bc) (c_val c)])
          (if cv_eqb (c_val bc) (c_val c) then ret (sset k (TCell (add_sub (lcell f1 bc) (lcell f1 c))) (ld base))
            else Ok (ld base) [WDuplicate (dbg_root_id dbg') (dbg_root dbg') (dbg_id_name dbg') (dbg_id dbg') k (dbg_sheet dbg') (c_val bc) (c_val c)])).
      { intros bc. destruct Hdbg as (H1 & H2 & H3 & H4). destruct (cv_eqb (c_val bc) (c_val c)).
        - apply both_ret. unfold is. rewrite <- ltd_set. f_equal. cbn [lt]. f_equal. unfold add_sub, lcell; cbn; rewrite map_app; reflexivity.
        - split; [reflexivity|]. cbn [flat_map unheaded app]. rewrite H1, H2, H3, H4. reflexivity. }
      destruct (c_val c) as [s|l|l|g] eqn:Ec; destruct b as [bc|bd|bdata bnk]; cbn [lt]; try apply Gw; cbn [lcell c_val]; apply Gc.
    - pose proof (ignored_un (TDict d)) as Hig. rewrite lt_dict in *. cbn [merge_item]. rewrite ltd_get. destruct (sget k base) as [b|]; cbn [option_map].
      2:{ apply both_ret. unfold is. rewrite <- ltd_set. reflexivity. }
      destruct b as [bc|bd|bdata bnk]; cbn [lt]; try (split; [reflexivity|apply Hig]). change (map (fun kv => (fst kv, ln (snd kv))) bd) with (ld bd).
      eapply both_bind; [apply merge_list_un; exact IH|]. intros b1 b' ->. apply both_ret. unfold is. rewrite <- lt_dict, ltd_set. reflexivity.
    - pose proof (ignored_un (TTemp data nk)) as Hig. rewrite lt_temp in *. cbn [merge_item]. rewrite ltd_get. destruct (sget k base) as [b|]; cbn [option_map].
      2:{ apply both_ret. unfold is. rewrite <- ltd_set. reflexivity. }
      destruct b as [bc|bd|bdata bnk]; try (split; [reflexivity|apply Hig]). rewrite lt_temp. cbv iota.
      eapply both_bind; [apply merge_data_un; exact IHd|]. intros b1 b' ->. apply both_ret. unfold is. rewrite <- map_app, <- lt_temp, ltd_set. reflexivity.
  Qed.
  Lemma merge_un base m : both (is ld) (merge dbg base m) (merge dbg' (ld base) (ld m)).
  Proof. apply merge_list_un. apply Forall_forall. intros kv _. apply merge_item_un. Qed.
End Merge.

Lemma both_rmap_is {A B} (g : A -> B) (m : R A) : both (is g) m (rmap g m).
Proof. destruct m; split; reflexivity. Qed.
Lemma place_un O s s' root d st : both (is (lst f1)) (place O s root d st) (place O s' root (ltd f1 d) (lst f1 st)).
Proof.
  unfold place. cbv zeta.
  assert (Eg : kget root (lst f1 st) = option_map (ltt f1) (kget root st)) by apply aget_vals. rewrite Eg. clear Eg.
  assert (Et : match option_map (ltt f1) (kget root st) with Some t => t | None => ([], []) end = ltt f1 match kget root st with Some t => t | None => ([], []) end) by (destruct (kget root st); reflexivity).
  rewrite Et. clear Et. set (t := match kget root st with Some t => t | None => ([], []) end).
  rewrite main_id_loc. eapply both_bind; [apply both_refl|]. intros k ? <-.
  assert (Ek : match k with Some k0 => match kget k0 (fst (ltt f1 t)) with Some old => Some (k0, old) | None => None end | None => None end =
               option_map (fun ko => (fst ko, ltd f1 (snd ko))) match k with Some k0 => match kget k0 (fst t) with Some old => Some (k0, old) | None => None end | None => None end).
  { destruct k as [k|]; [|reflexivity]. cbn [fst ltt]. assert (Eg : kget k (vals (ltd f1) (fst t)) = option_map (ltd f1) (kget k (fst t))) by apply aget_vals. rewrite Eg. destruct (kget k (fst t)); reflexivity. }
  rewrite Ek. destruct (match k with Some k0 => match kget k0 (fst t) with Some old => Some (k0, old) | None => None end | None => None end) as [[k0 old]|]; cbn [option_map fst snd].
  - eapply both_bind; [apply merge_un; repeat split|]. intros new ? ->. apply both_ret. unfold is.
    assert (E1 : (kset k0 (ltd f1 new) (fst (ltt f1 t)), snd (ltt f1 t)) = ltt f1 (kset k0 new (fst t), snd t)) by (unfold ltt; cbn [fst snd]; f_equal; apply aset_vals).
    cbn [ltt fst snd] in E1. etransitivity; [|apply aset_vals]. unfold kset. f_equal. exact E1.
  - rewrite temp_append_loc. eapply both_bind; [apply both_rmap_is|]. intros t' ? ->. apply both_ret. unfold is. apply aset_vals.
Qed.

Lemma both_trans {A B C} (P : A -> B -> Prop) (Q : B -> C -> Prop) m1 m2 m3 : both P m1 m2 -> both Q m2 m3 -> both (fun a c => exists b, P a b /\ Q b c) m1 m3.
Proof. destruct m1, m2, m3; cbn [both]; try tauto; intros [H1 H2] [H3 H4]; split; try congruence; eauto. Qed.
Lemma place_same O s s' root d d' st st' : ltd f1 d = ltd f1 d' -> lst f1 st = lst f1 st' ->
  both (fun x y => lst f1 x = lst f1 y) (place O s root d st) (place O s' root d' st').
Proof.
  intros Hd Hst. eapply both_impl; [|eapply both_trans; [apply (place_un O s s' root d st)|rewrite Hd, Hst; apply both_sym; apply (place_un O s' s' root d' st')]].
  intros x y (z & H1 & H2). unfold is in *. congruence.
Qed.
Section Run.
  Variable O : opts.
  Hypothesis Hx : o_xml O = false.
  Lemma erun_same rs rs' : Forall2 (same_but_positions O) rs rs' -> forall st st', lst f1 st = lst f1 st' ->
    both (fun x y => lst f1 x = lst f1 y) (erun O rs st) (erun O rs' st').
  Proof.
    induction 1 as [|r r' rs rs' (Hr & Hc & at_ & at' & Ha & Ha' & Hat) _ IH]; intros st st' Hst; [apply both_ret; exact Hst|].
    cbn [erun]. eapply both_bind; [|intros a b Hab; apply IH; exact Hab]. unfold erow. rewrite Hx, <- Hr. eapply both_bind.
    - apply (row_shift at_ at' (o_conv O) (o_types O) (o_id_name O) Hat); [exact Hc| |].
      + intros c a n Hin Hs. exact (Ha c a n Hin Hs).
      + intros c a n Hin Hs. exact (Ha' c a n Hin Hs).
    - intros d d' Hd. apply place_same; assumption.
  Qed.
  Theorem positions_only_separate A B : Forall fits A -> Forall fits B ->
    Forall2 (same_but_positions O) (flat_map (filled_rows O) A) (flat_map (filled_rows O) B) ->
    seen_as unheaded (unflatten O A) = seen_as unheaded (unflatten O B).
  Proof.
    intros HA HB H. rewrite !unflatten_erun; [|intros []; auto|exact HB|intros []; auto|exact HA].
    pose proof (erun_same _ _ H [] [] eq_refl) as G. destruct (erun O (flat_map (filled_rows O) A) []) as [st w|e w], (erun O (flat_map (filled_rows O) B) []) as [st' w'|e' w']; cbn [both seen_as rmap] in *; try (destruct G; fail).
    - destruct G as [G1 G2]. rewrite G2. f_equal.
      assert (V : forall s : main_state, flat_map (fun rt => map tvd (temp_items (snd rt))) (lst f1 s) = flat_map (fun rt => map tvd (temp_items (snd rt))) s).
      { clear. induction s as [|[r t] s IH]; [reflexivity|]. cbn [flat_map lst vals map fst snd]. f_equal; [|exact IH].
        unfold temp_items, ltt, vals. cbn [fst snd]. rewrite !map_app, !map_map. f_equal; apply map_ext; intros x; cbn [fst snd]; apply tvd_loc. }
      rewrite <- (V st), G1, V. reflexivity.
    - destruct G as [-> ->]. reflexivity.
  Qed.
End Run.

(** ** Leaving positions out *)
Lemma lstrip_twice p (s : str) : lstrip p (lstrip p s) = lstrip p s.
Proof. induction s as [|x s IH]; [reflexivity|]. cbn [lstrip]. destruct (p x) eqn:Ep; [exact IH|]. cbn [lstrip]. rewrite Ep. reflexivity. Qed.
Lemma rstrip_twice p (s : str) : rstrip p (rstrip p s) = rstrip p s.
Proof. unfold rstrip. rewrite rev_involutive, lstrip_twice. reflexivity. Qed.
Lemma bare_items E h : names (path_items E h) <> [] -> path_items E (bare E h) = names (path_items E h).
Proof.
  intros Hn. unfold bare. unfold path_items at 1. cbn [py_str].
  rewrite split_join; [|exact Hn|].
  - rewrite <- (map_id (names (path_items E h))) at 2. apply map_ext_in. intros x Hx. apply filter_In in Hx as [Hx _].
    unfold path_items in Hx. apply in_map_iff in Hx as (y & <- & _). apply rstrip_twice.
  - intros x Hx. apply filter_In in Hx as [Hx Hi]. apply (path_items_good E h); [exact Hx|]. destruct (isint x); [discriminate|reflexivity].
Qed.
Lemma names_names l : names (names l) = names l.
Proof. unfold names. induction l as [|x l IH]; [reflexivity|]. cbn [filter]. destruct (negb (isint x)) eqn:E; [|exact IH]. cbn [filter]. rewrite E, IH. reflexivity. Qed.
Lemma stands_bare l a n : stands (names l) a n -> n = None.
Proof.
  intros [before item after Hl Hi Ha]. destruct after as [|x after]; [reflexivity|]. cbn [hd].
  assert (Hx : In x (names l)) by (rewrite Hl; apply in_or_app; right; right; left; reflexivity).
  apply filter_In in Hx as [_ Hx]. unfold isint in Hx. destruct (parse_int x); [discriminate|reflexivity].
Qed.
Definition bare_cell (E : env) (c : fcell) : fcell := {| fc_key := bare E (fc_key c); fc_heading := bare E (fc_heading c); fc_value := fc_value c |}.
Definition bare_row (E : env) (r : frow) : frow := {| fr_sheet := fr_sheet r; fr_root := fr_root r; fr_cells := map (bare_cell E) (fr_cells r) |}.
Lemma headed_bare E line : forall hs, headed (option_map (map (bare E)) hs) (map (fun kv : scalar * scalar => (bare E (fst kv), snd kv)) line) = map (bare_cell E) (headed hs line).
Proof.
  induction line as [|[k v] line IH]; intros hs; [reflexivity|]. cbn [map headed fst snd]. destruct hs as [[|h hs]|]; cbn [option_map map headed]; [reflexivity| |]; (apply (f_equal2 cons); [reflexivity|]).
  - exact (IH (Some hs)).
  - exact (IH None).
Qed.
Lemma filled_bare E hs line : filled (option_map (map (bare E)) hs) (map (fun kv : scalar * scalar => (bare E (fst kv), snd kv)) line) = map (bare_cell E) (filled hs line).
Proof.
  unfold filled. rewrite headed_bare. induction (headed hs line) as [|c l IH]; [reflexivity|]. cbn [map filter bare_cell fc_value]. destruct (blank (fc_value c)); cbn [negb]; [exact IH|]. cbn [map]. f_equal. exact IH.
Qed.
Lemma line_root_bare O s line : keeps_root O s -> In line (si_lines s) -> line_root O (map (fun kv : scalar * scalar => (bare (o_conv O) (fst kv), snd kv)) line) = line_root O line.
Proof.
  unfold keeps_root, line_root. intros [-> |[Hb Hk]] Hl; [reflexivity|]. destruct (o_root_id O) as [|x r] eqn:Er; [reflexivity|]. rewrite <- Er in *.
  specialize (Hk line).
  assert (G : forall part, (forall kv, In kv part -> bare (o_conv O) (fst kv) = SStr (o_root_id O) -> fst kv = SStr (o_root_id O)) ->
    kget (SStr (o_root_id O)) (map (fun kv : scalar * scalar => (bare (o_conv O) (fst kv), snd kv)) part) = kget (SStr (o_root_id O)) part).
  { unfold kget. induction part as [|[k v] part IH]; intros Hp; [reflexivity|]. cbn [map aget fst snd]. rewrite IH by (intros kv Hin; apply Hp; right; exact Hin).
    assert (Eq : forall k, py_eqb (SStr (o_root_id O)) k = true <-> k = SStr (o_root_id O)).
    { intros k0. destruct k0 as [|[]|z|[]|[]|s0|m]; unfold py_eqb; cbn; split; intros Q; try discriminate Q; try (destruct b; discriminate Q); try (apply str_eqb_eq in Q; subst; reflexivity); try (injection Q as ->; apply str_eqb_eq; reflexivity). }
    specialize (Hp (k, v) (or_introl eq_refl)). cbn [fst] in Hp.
    destruct (py_eqb (SStr (o_root_id O)) k) eqn:E1.
    - apply Eq in E1. subst k. rewrite Hb. rewrite (proj2 (Eq _) eq_refl). reflexivity.
    - destruct (py_eqb (SStr (o_root_id O)) (bare (o_conv O) k)) eqn:E2; [|reflexivity]. apply Eq in E2. apply Hp in E2. apply Eq in E2. congruence. }
  rewrite G; [reflexivity|]. intros kv Hin. apply Hk; assumption.
Qed.
Lemma filled_rows_bare O s : keeps_root O s -> filled_rows O (bare_sheet (o_conv O) s) = map (bare_row (o_conv O)) (filled_rows O s).
Proof.
  intros Hk. unfold filled_rows, bare_sheet. cbn [si_headings si_lines si_name].
  assert (G : forall hs, flat_map (fun line => match filled (option_map (map (bare (o_conv O))) hs) line with [] => [] | c => [{| fr_sheet := si_name s; fr_root := line_root O line; fr_cells := c |}] end)
       (map (map (fun kv : scalar * scalar => (bare (o_conv O) (fst kv), snd kv))) (si_lines s)) =
     map (bare_row (o_conv O)) (flat_map (fun line => match filled hs line with [] => [] | c => [{| fr_sheet := si_name s; fr_root := line_root O line; fr_cells := c |}] end) (si_lines s))).
  { intros hs. assert (Hr : forall line, In line (si_lines s) -> line_root O (map (fun kv : scalar * scalar => (bare (o_conv O) (fst kv), snd kv)) line) = line_root O line) by (intros; apply (line_root_bare O s); assumption).
    clear Hk. induction (si_lines s) as [|line lines IH]; [reflexivity|]. cbn [map flat_map]. rewrite filled_bare, map_app, IH by (intros; apply Hr; right; assumption). f_equal.
    rewrite Hr by (left; reflexivity). destruct (filled hs line); reflexivity. }
  destruct (si_headings s) as [[|h hs]|]; [reflexivity|exact (G (Some (h :: hs)))|exact (G None)].
Qed.
Lemma droppable_same O r : droppable O r -> same_but_positions O r (bare_row (o_conv O) r).
Proof.
  intros (Hp & (at_ & Ha) & Ht). split; [reflexivity|]. split.
  - cbn [bare_row fr_cells]. assert (G : forall c, In c (fr_cells r) -> plain_heading (o_conv O) (fc_key c)) by exact Hp. clear Hp Ha Ht. induction (fr_cells r) as [|c cs IH]; [constructor|].
    constructor; [|apply IH; intros; apply G; right; assumption]. destruct (G c (or_introl eq_refl)) as [G1 G2]. split; [reflexivity|]. split; [exact G1|].
    cbn [bare_cell fc_key]. rewrite bare_items by exact G2. symmetry. apply names_names.
  - exists (fun a => if str_eqb (o_types O (join [slash] a)) (u "array") then at_ a else None), (fun _ => None). split; [|split].
    + intros c a n Hc Hs. specialize (Ha c a n Hc Hs). destruct n as [n|].
      * rewrite (Ht c a n Hc Hs). exact Ha.
      * destruct (str_eqb _ _); [exact Ha|reflexivity].
    + intros c a n Hc Hs. cbn [bare_row fr_cells] in Hc. apply in_map_iff in Hc as (c0 & <- & Hc). cbn [bare_cell fc_key] in Hs. destruct (Hp c0 Hc) as [_ G2]. rewrite bare_items in Hs by exact G2.
      symmetry. exact (stands_bare _ _ _ Hs).
    + intros a. destruct (str_eqb (o_types O (join [slash] a)) (u "array")) eqn:E; [left; apply str_eqb_eq; exact E|right; split; reflexivity].
Qed.
Theorem positions_left_out O sheets : o_xml O = false -> Forall fits sheets -> Forall (keeps_root O) sheets -> Forall (droppable O) (flat_map (filled_rows O) sheets) ->
  seen_as unheaded (unflatten O (map (bare_sheet (o_conv O)) sheets)) = seen_as unheaded (unflatten O sheets).
Proof.
  intros Hx Hf Hk Hd. symmetry. apply positions_only_separate; [exact Hx|exact Hf| |].
  - clear -Hf. induction Hf as [|s sheets Hs _ IH]; [constructor|]. constructor; [|exact IH]. unfold fits, bare_sheet in *. cbn [si_headings si_lines]. destruct (si_headings s) as [hs|]; [|exact I].
    cbn [option_map]. intros line Hin. apply in_map_iff in Hin as (l0 & <- & Hin). rewrite !map_length. apply Hs. exact Hin.
  - assert (E : flat_map (filled_rows O) (map (bare_sheet (o_conv O)) sheets) = map (bare_row (o_conv O)) (flat_map (filled_rows O) sheets)).
    { clear -Hk. induction Hk as [|s sheets Hs _ IH]; [reflexivity|]. cbn [map flat_map]. rewrite map_app, IH, filled_rows_bare by exact Hs. reflexivity. }
    rewrite E. clear E Hf Hk. induction Hd as [|r rs Hr _ IH]; [constructor|]. constructor; [apply droppable_same; exact Hr|exact IH].
Qed.

(** ** Deciding the premises *)
Fixpoint standings (seen rest : list str) : list (list str * option Z) :=
  match rest with
  | [] => []
  | x :: r => (if isint x then [] else [(names (seen ++ [x]), parse_int (hd [] r))]) ++ standings (seen ++ [x]) r
  end.
Lemma standings_all rest : forall seen a n before item after, rest = before ++ item :: after -> isint item = false -> names (seen ++ before ++ [item]) = a -> n = parse_int (hd [] after) ->
  In (a, n) (standings seen rest).
Proof.
  induction rest as [|x rest IH]; intros seen a n before item after Hr Hi Ha Hn; [destruct before; discriminate Hr|].
  destruct before as [|b before]; injection Hr as -> Hr; cbn [standings].
  - rewrite Hi. left. cbn [app] in Ha. rewrite Ha, Hn, Hr. reflexivity.
  - apply in_or_app. right. eapply IH; [exact Hr|exact Hi| |exact Hn]. rewrite <- Ha. f_equal. rewrite <- app_assoc. reflexivity.
Qed.
Lemma stands_standings l a n : stands l a n -> In (a, n) (standings [] l).
Proof. intros [before item after Hl Hi Ha]. eapply standings_all; eauto. Qed.
