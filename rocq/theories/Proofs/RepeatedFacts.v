(** Repeated headings: the warnings (input.py:380-439). *)
From Coq Require Import Lia.
From Verif.Base Require Import PyStr PyNum PyVal PyDict Outcome.
From Verif.Model Require Import Warn Lib Convert Input Readers.
From Verif.Spec Require Import Columns Grids Repeated.
From Verif.Proofs Require Import TreeInd ColumnFacts.
Local Open Scope res_scope.

Definition is_SNone (h : scalar) : bool := match h with SNone => true | _ => false end.
Fixpoint lasts (l : list scalar) : list scalar :=
  match l with
  | [] => []
  | h :: r => if is_SNone h || existsb (py_eqb h) r then lasts r else h :: lasts r
  end.
Fixpoint positions (h : scalar) (n : N) (l : list scalar) : list N :=
  match l with
  | [] => []
  | x :: r => if py_eqb h x then n :: positions h (n + 1) r else positions h (n + 1) r
  end.
Definition ent (n : N) (l : list scalar) (h : scalar) : scalar * list N := (h, tl (rev (positions h n l))).
Definition closed (n : N) (l : list scalar) : list (scalar * list N) := map (ent n l) (rev (lasts l)).

Lemma py_eqb_none h : h <> SNone -> py_eqb h SNone = false.
Proof. intros H. unfold py_eqb. cbn [num_val]. destruct (num_val h) eqn:E; [reflexivity|]. destruct h; try reflexivity. exfalso. apply H. reflexivity. Qed.
Lemma py_eqb_right a b c : py_eqb a b = true -> py_eqb c a = py_eqb c b.
Proof.
  intros H. destruct (py_eqb c a) eqn:E1, (py_eqb c b) eqn:E2; try reflexivity.
  - rewrite (py_eqb_trans _ _ _ E1 H) in E2. discriminate E2.
  - rewrite py_eqb_sym in H. rewrite (py_eqb_trans _ _ _ E2 H) in E1. discriminate E1.
Qed.
Lemma py_eqb_left a b c : py_eqb a b = true -> py_eqb a c = py_eqb b c.
Proof. intros H. rewrite (py_eqb_sym a c), (py_eqb_sym b c). apply py_eqb_right, H. Qed.
Lemma py_eqb_self a b : py_eqb a b = true -> py_eqb b b = true.
Proof. intros H. rewrite <- (py_eqb_left a b b H). exact H. Qed.

Lemma lasts_In l h : In h (lasts l) -> In h l /\ h <> SNone.
Proof.
  induction l as [|x l IH]; cbn [lasts]; [intros []|]. destruct (is_SNone x || existsb (py_eqb x) l) eqn:E.
  - intros H. destruct (IH H). split; [right; assumption|assumption].
  - intros [-> |H]; [|destruct (IH H); split; [right; assumption|assumption]]. split; [left; reflexivity|]. intros ->. discriminate E.
Qed.
Lemma existsb_left a b l : py_eqb a b = true -> existsb (py_eqb a) l = existsb (py_eqb b) l.
Proof. intros H. induction l as [|x l IH]; cbn [existsb]; [reflexivity|]. rewrite IH, (py_eqb_left a b x H). reflexivity. Qed.
Lemma lasts_exists l h : h <> SNone -> existsb (py_eqb h) (lasts l) = existsb (py_eqb h) l.
Proof.
  intros Hn. induction l as [|x l IH]; cbn [lasts existsb]; [reflexivity|]. destruct (is_SNone x || existsb (py_eqb x) l) eqn:E.
  - rewrite IH. apply Bool.orb_true_iff in E as [E|E].
    + destruct x; try discriminate E. rewrite (py_eqb_none h Hn). reflexivity.
    + destruct (py_eqb h x) eqn:Ex; [|reflexivity]. cbn. rewrite (existsb_left _ _ l Ex). exact E.
  - cbn [existsb]. rewrite IH. reflexivity.
Qed.
Lemma lasts_distinct l : ForallOrdPairs (fun a b => py_eqb a b = false) (lasts l).
Proof.
  induction l as [|x l IH]; cbn [lasts]; [constructor|]. destruct (is_SNone x || existsb (py_eqb x) l) eqn:E; [exact IH|].
  apply Bool.orb_false_iff in E as [En E]. constructor; [|exact IH].
  assert (Hn : x <> SNone) by (intros ->; discriminate En). rewrite <- (lasts_exists l x Hn) in E.
  apply Forall_forall. intros y Hy. destruct (py_eqb x y) eqn:Exy; [|reflexivity]. assert (H : existsb (py_eqb x) (lasts l) = true) by (apply existsb_exists; exists y; auto). congruence.
Qed.
Lemma fop_rev {A} (P : A -> A -> Prop) (l : list A) : (forall a b, P a b -> P b a) -> ForallOrdPairs P l -> ForallOrdPairs P (rev l).
Proof.
  intros Hs H. induction H as [|x l Hx H IH]; cbn [rev]; [constructor|].
  assert (G : forall m, ForallOrdPairs P m -> Forall (fun y => P y x) m -> ForallOrdPairs P (m ++ [x])).
  { intros m Hm. induction Hm as [|y m Hy Hm IHm]; intros F; cbn [app]; [repeat constructor|]. inversion F; subst. constructor; [apply Forall_app; split; [assumption|repeat constructor; assumption]|apply IHm; assumption]. }
  apply G; [exact IH|]. apply Forall_rev. eapply Forall_impl; [|exact Hx]. intros y. apply Hs.
Qed.
Lemma positions_nil h n l : positions h n l = [] <-> existsb (py_eqb h) l = false.
Proof.
  revert n. induction l as [|x l IH]; intros n; cbn [positions existsb]; [split; reflexivity|]. destruct (py_eqb h x); cbn; [split; discriminate|apply IH].
Qed.

Lemma kget_map (f : scalar -> list N) h ks : kget h (map (fun k => (k, f k)) ks) = None <-> existsb (py_eqb h) ks = false.
Proof. induction ks as [|k ks IH]; cbn; [split; reflexivity|]. destruct (py_eqb h k); cbn; [split; discriminate|exact IH]. Qed.
Lemma kset_map (f : scalar -> list N) h v ks : ForallOrdPairs (fun a b => py_eqb a b = false) ks -> existsb (py_eqb h) ks = true ->
  kset h v (map (fun k => (k, f k)) ks) = map (fun k => (k, if py_eqb h k then v else f k)) ks.
Proof.
  induction ks as [|k ks IH]; intros HD E; [discriminate E|]. cbn [map kset aset existsb] in *. unfold kset in *. cbn [aset]. inversion HD as [|? ? Hk HD']; subst. destruct (py_eqb h k) eqn:Ek.
  - f_equal. apply map_ext_in. intros x Hx. rewrite Forall_forall in Hk. rewrite (py_eqb_left h k x Ek), (Hk x Hx). reflexivity.
  - f_equal. apply IH; assumption.
Qed.
Lemma kset_fresh (f : scalar -> list N) h v ks : existsb (py_eqb h) ks = false -> kset h v (map (fun k => (k, f k)) ks) = map (fun k => (k, f k)) ks ++ [(h, v)].
Proof.
  unfold kset. induction ks as [|k ks IH]; intros E; cbn [map aset app]; [reflexivity|]. cbn [existsb] in E. apply Bool.orb_false_iff in E as [-> E]. rewrite IH by assumption. reflexivity.
Qed.
Lemma existsb_rev {A} (p : A -> bool) l : existsb p (rev l) = existsb p l.
Proof. induction l as [|x l IH]; [reflexivity|]. cbn [rev]. rewrite existsb_app, IH. cbn [existsb]. rewrite Bool.orb_false_r. apply Bool.orb_comm. Qed.

Lemma found_step n h l r : (0 < n)%N ->
  found_rev n (h :: r) (closed n l) = found_rev (n - 1) r (closed (n - 1) (h :: l)).
Proof.
  intros Hpos. assert (En : (n - 1 + 1 = n)%N) by lia.
  assert (Hsame : forall k, py_eqb k h = false -> ent (n - 1) (h :: l) k = ent n l k).
  { intros k Hk. unfold ent. cbn [positions]. rewrite Hk, En. reflexivity. }
  destruct (is_SNone h) eqn:Hn.
  - destruct h; try discriminate Hn. cbn [found_rev]. f_equal. unfold closed. cbn [lasts is_SNone orb]. apply map_ext_in. intros k Hk. apply in_rev in Hk. symmetry. apply Hsame, py_eqb_none. apply (lasts_In _ _ Hk).
  - assert (Hne : h <> SNone) by (intros ->; discriminate Hn).
    assert (Ef : found_rev n (h :: r) (closed n l) = match kget h (closed n l) with Some cols => found_rev (n - 1) r (kset h (cols ++ [(n - 1)%N]) (closed n l)) | None => found_rev (n - 1) r (kset h [] (closed n l)) end) by (destruct h; reflexivity || discriminate Hn).
    rewrite Ef. clear Ef. unfold closed. cbn [lasts]. rewrite Hn. cbn [orb].
    assert (HD : ForallOrdPairs (fun a b => py_eqb a b = false) (rev (lasts l))) by (apply fop_rev; [intros a b; rewrite py_eqb_sym; auto|apply lasts_distinct]).
    assert (Eex : existsb (py_eqb h) (rev (lasts l)) = existsb (py_eqb h) l) by (rewrite existsb_rev; apply lasts_exists, Hne).
    destruct (existsb (py_eqb h) l) eqn:E.
    + destruct (kget h (map (ent n l) (rev (lasts l)))) as [cols|] eqn:Ec.
      2:{ unfold ent in Ec. rewrite (kget_map (fun k => tl (rev (positions k n l)))) in Ec. congruence. }
      f_equal. unfold ent at 1. rewrite (kset_map (fun k => tl (rev (positions k n l)))) by assumption.
      apply map_ext_in. intros k Hk. destruct (py_eqb h k) eqn:Ek; [|rewrite Hsame by (rewrite py_eqb_sym; exact Ek); reflexivity].
      unfold ent. cbn [positions]. rewrite py_eqb_sym in Ek. rewrite Ek, En. cbn [rev]. rewrite py_eqb_sym in Ek.
      assert (Eck : cols = tl (rev (positions k n l))).
      { clear - Ec Ek Hk HD. revert Hk HD Ec. generalize (rev (lasts l)) as ks. induction ks as [|x ks IH]; [intros []|]. intros Hk HD Ec. inversion HD as [|? ? Hx HD']; subst. cbn [map kget aget] in Ec. unfold kget in Ec. cbn [aget map] in Ec. unfold ent in Ec at 1. cbn [fst snd] in Ec.
        destruct Hk as [-> |Hk].
        - rewrite Ek in Ec. injection Ec as <-. reflexivity.
        - rewrite Forall_forall in Hx. pose proof (Hx k Hk) as Hxk. destruct (py_eqb h x) eqn:Ehx; [|apply IH; assumption]. rewrite <- (py_eqb_left h x k Ehx) in Hxk. congruence. }
      rewrite Eck. destruct (rev (positions k n l)) as [|p ps] eqn:Ep; [|reflexivity].
      assert (Ep' : positions k n l = []) by (rewrite <- (rev_involutive (positions k n l)), Ep; reflexivity). apply positions_nil in Ep'. rewrite (existsb_left h k l Ek) in E. congruence.
    + destruct (kget h (map (ent n l) (rev (lasts l)))) as [cols|] eqn:Ec.
      { assert (H : kget h (map (ent n l) (rev (lasts l))) = None) by (unfold ent; apply (kget_map (fun k => tl (rev (positions k n l)))); exact Eex). congruence. }
      f_equal. unfold ent at 1. rewrite (kset_fresh (fun k => tl (rev (positions k n l)))) by exact Eex. cbn [rev]. rewrite map_app. f_equal.
      * apply map_ext_in. intros k Hk. rewrite Hsame; [reflexivity|]. rewrite py_eqb_sym. destruct (py_eqb h k) eqn:Ehk; [|reflexivity].
        assert (H : existsb (py_eqb h) (rev (lasts l)) = true) by (apply existsb_exists; exists k; auto). congruence.
      * cbn [map]. unfold ent. cbn [positions]. apply positions_nil with (n := (n - 1 + 1)%N) in E. rewrite E. destruct (py_eqb h h); reflexivity.
Qed.
Lemma found_closed pre : forall l, found_rev (N.of_nat (length pre)) (rev pre) (closed (N.of_nat (length pre)) l) = closed 0 (pre ++ l).
Proof.
  induction pre as [|h pre IH] using rev_ind; intros l; [reflexivity|]. rewrite rev_app_distr. cbn [rev app]. rewrite found_step by (rewrite app_length; cbn; lia).
  replace (N.of_nat (length (pre ++ [h])) - 1)%N with (N.of_nat (length pre)) by (rewrite app_length; cbn; lia). rewrite IH, <- app_assoc. reflexivity.
Qed.

Definition report (sheet : str) (hs : list scalar) (h : scalar) : list warning :=
  match tl (rev (positions h 0 hs)) with
  | [] => []
  | ig => [WDuplicateHeading h (map (fun x => column_letter (x + 1)%N) (rev ig)) sheet]
  end.
Lemma heading_warnings_eq sheet hs : heading_warnings sheet hs = flat_map (report sheet hs) (lasts hs).
Proof.
  unfold heading_warnings. cbv zeta. change (found_rev (N.of_nat (length hs)) (rev hs) []) with (found_rev (N.of_nat (length hs)) (rev hs) (closed (N.of_nat (length hs)) [])). rewrite found_closed, app_nil_r. unfold closed. rewrite <- map_rev, rev_involutive.
  rewrite flat_map_concat_map, map_map, <- flat_map_concat_map. apply flat_map_ext. intros h. reflexivity.
Qed.

Lemma positions_app h : forall a n b, positions h n (a ++ b) = positions h n a ++ positions h (n + N.of_nat (length a)) b.
Proof.
  induction a as [|x a IH]; intros n b; cbn [app positions length].
  - replace (n + N.of_nat 0)%N with n by lia. reflexivity.
  - rewrite IH. replace (n + 1 + N.of_nat (length a))%N with (n + N.of_nat (S (length a)))%N by lia. destruct (py_eqb h x); reflexivity.
Qed.
Lemma columns_positions h l : forall n, columns_of h (n + 1) l (map (fun x => column_letter (x + 1)%N) (positions h n l)).
Proof.
  induction l as [|x l IH]; intros n; cbn [positions]; [constructor|]. destruct (py_eqb h x) eqn:E; cbn [map]; [apply co_same; [exact E|apply column_letter_spec|apply IH]|apply co_other; [exact E|apply IH]].
Qed.
Lemma reported_lasts sheet hs : forall after before, hs = before ++ after -> reported sheet before after (flat_map (report sheet hs) (lasts after)).
Proof.
  induction after as [|h after IH]; intros before E; cbn [lasts flat_map]; [constructor|].
  assert (IH' : reported sheet (before ++ [h]) after (flat_map (report sheet hs) (lasts after))) by (apply IH; rewrite <- app_assoc; exact E).
  destruct (is_SNone h || existsb (py_eqb h) after) eqn:Es.
  - apply rp_skip; [|exact IH']. apply Bool.orb_true_iff in Es as [Es|Es]; [left; destruct h; reflexivity || discriminate Es|right; left; exact Es].
  - apply Bool.orb_false_iff in Es as [Hn Es]. assert (Hne : h <> SNone) by (intros ->; discriminate Hn). cbn [flat_map].
    assert (Ep : tl (rev (positions h 0 hs)) = rev (positions h 0 before)).
    { rewrite E, positions_app. cbn [positions]. pose proof (proj2 (positions_nil h (0 + N.of_nat (length before) + 1) after) Es) as ->. rewrite rev_app_distr. destruct (py_eqb h h) eqn:Eh; [reflexivity|]. cbn [rev app].
      assert (Eb : positions h 0 before = []).
      { apply positions_nil. destruct (existsb (py_eqb h) before) eqn:Eb; [|reflexivity]. apply existsb_exists in Eb as (x & _ & Ex). rewrite py_eqb_sym in Ex. rewrite (py_eqb_self _ _ Ex) in Eh. discriminate Eh. }
      rewrite Eb. reflexivity. }
    unfold report at 1. rewrite Ep. destruct (positions h 0 before) as [|p ps] eqn:Eb.
    + cbn [rev app]. apply rp_skip; [|exact IH']. right. right. apply (positions_nil h 0), Eb.
    + destruct (rev (p :: ps)) as [|q qs] eqn:Er.
      { apply (f_equal (@length N)) in Er. rewrite rev_length in Er. discriminate Er. }
      rewrite <- Er, rev_involutive, <- Eb. cbn [app]. apply rp_warn; try assumption; [apply (columns_positions h before 0)|]. rewrite Eb. discriminate.
Qed.
Lemma headings_reported sheet hs : reported sheet [] hs (heading_warnings sheet hs).
Proof. rewrite heading_warnings_eq. apply reported_lasts. reflexivity. Qed.
Lemma heading_warnings_all sheet hs : heading_reports (heading_warnings sheet hs) = heading_warnings sheet hs.
Proof.
  rewrite heading_warnings_eq. induction (lasts hs) as [|h l IH]; [reflexivity|]. cbn [flat_map]. unfold heading_reports in *. rewrite filter_app, IH. f_equal. unfold report. destruct (tl _); reflexivity.
Qed.

(** ** Nothing else reports a repeated heading *)
Definition about_else (x : warning) : bool := match x with WDuplicateHeading _ _ _ => false | _ => true end.
Definition quiet {A} (m : R A) : Prop := forallb about_else (warns m) = true.
Lemma quiet_ret {A} (a : A) : quiet (ret a). Proof. reflexivity. Qed.
Lemma quiet_raise {A} e : quiet (Raise e [] : R A). Proof. reflexivity. Qed.
Lemma quiet_bind {A B} (m : R A) (k : A -> R B) : quiet m -> (forall a, quiet (k a)) -> quiet (bind m k).
Proof.
  intros Hm Hk. destruct m as [a w|e w]; [|exact Hm]. specialize (Hk a). unfold quiet in *. cbn in *. destruct (k a); cbn in *; rewrite forallb_app, Hm; exact Hk.
Qed.
Ltac quiets := repeat first [reflexivity | apply quiet_bind; [|intros ?] | match goal with |- quiet (match ?x with _ => _ end) => destruct x end].
Lemma convert_quiet E ty v : quiet (convert_type E ty v).
Proof. unfold convert_type. cbv zeta. quiets. Qed.
Section Q.
  Variables (E : conv_env) (types : str -> str) (xml : bool) (idn : str).
  Lemma walk_quiet h loc rest : forall seen v cur, quiet (walk E types xml h loc seen rest v cur).
  Proof.
    induction rest as [|item rest IH]; intros seen v cur; [reflexivity|]. cbn [walk]. cbv zeta.
    repeat first [reflexivity | apply IH | apply convert_quiet | apply quiet_bind; [|intros ?] | match goal with |- quiet (match ?x with _ => _ end) => destruct x end].
  Qed.
  Lemma build_quiet l : forall cur, quiet (build_row E types xml l cur).
  Proof.
    induction l as [|[h c] l IH]; intros cur; [reflexivity|]. cbn [build_row]. destruct (cv_blank (c_val c)); [apply IH|]. apply quiet_bind; [apply walk_quiet|exact IH].
  Qed.
  Lemma item_key_quiet d : quiet (item_key xml idn d).
  Proof. unfold item_key. cbv zeta. quiets. Qed.
  Lemma temp_append_quiet t d : quiet (temp_append xml idn t d).
  Proof. unfold temp_append. destruct t as [data nk]. apply quiet_bind; [apply item_key_quiet|]. intros [k|]; [|reflexivity]. destruct (kget k data); reflexivity. Qed.
  Lemma temp_of_list_quiet l : forall t, quiet (temp_of_list xml idn t l).
  Proof. induction l as [|d l IH]; intros t; [reflexivity|]. cbn [temp_of_list]. apply quiet_bind; [apply temp_append_quiet|exact IH]. Qed.
  Lemma fin_dict_quiet f (d : rdict) : Forall (fun kn : str * rnode => quiet (f (snd kn))) d -> quiet (fin_dict f d).
  Proof.
    intros H. induction H as [|[k n] d Hn _ IH]; [reflexivity|]. cbn [snd] in Hn.
    assert (G : quiet (n' <- f n ;; r <- fin_dict f d ;; ret ((k, n') :: r))) by (apply quiet_bind; [exact Hn|intros n'; apply quiet_bind; [exact IH|intros r; reflexivity]]).
    destruct n as [c|[|x sub]|l]; try exact G. exact IH.
  Qed.
  Lemma fin_items_quiet f (l : list (Z * rdict)) : Forall (fun kd : Z * rdict => Forall (fun kn : str * rnode => quiet (f (snd kn))) (snd kd)) l -> quiet (fin_items f l).
  Proof.
    intros H. induction H as [|[i d] l Hd _ IH]; [reflexivity|]. cbn [snd] in Hd.
    assert (G : quiet (d' <- fin_dict f d ;; r <- fin_items f l ;; ret ((i, d') :: r))) by (apply quiet_bind; [apply fin_dict_quiet, Hd|intros n'; apply quiet_bind; [exact IH|intros r; reflexivity]]).
    destruct d as [|x sub]; [exact IH|exact G].
  Qed.
  Lemma fin_quiet n : quiet (fin xml idn n).
  Proof.
    induction n as [c|d IH|l IH] using rnode_ind'; [reflexivity| |]; cbn [fin].
    - apply quiet_bind; [apply fin_dict_quiet; exact IH|reflexivity].
    - apply quiet_bind; [apply fin_items_quiet; exact IH|]. intros l'. apply quiet_bind; [apply temp_of_list_quiet|reflexivity].
  Qed.
  Lemma row_quiet l : quiet (unflatten_row E types xml idn l).
  Proof. apply quiet_bind; [apply build_quiet|]. intros d. apply fin_dict_quiet. apply Forall_forall. intros x _. apply fin_quiet. Qed.
End Q.
Section QM.
  Variable dbg : debug.
  Lemma ignored_quiet n y b : quiet (Ok b (ignored n y) : R tdict).
  Proof. unfold quiet, ignored. cbn [warns]. induction (node_cells n); [reflexivity|assumption]. Qed.
  Lemma merge_list_quiet f (m : tdict) : Forall (fun kv : str * tnode => forall k base, quiet (f k (snd kv) base)) m -> forall base, quiet (merge_list f m base).
  Proof. intros H. induction H as [|[k v] m Hv _ IH]; intros base; [reflexivity|]. cbn [merge_list]. apply quiet_bind; [apply Hv|exact IH]. Qed.
  Lemma merge_data_quiet f (data : list (scalar * tdict)) : Forall (fun kd : scalar * tdict => Forall (fun kv : str * tnode => forall k base, quiet (f k (snd kv) base)) (snd kd)) data ->
    forall b, quiet (merge_data f data b).
  Proof.
    intros H. induction H as [|[k d] data Hd _ IH]; intros b; [reflexivity|]. cbn [merge_data]. destruct (kget k b); [|apply IH]. apply quiet_bind; [apply merge_list_quiet, Hd|intros ?; apply IH].
  Qed.
  Lemma merge_item_quiet v : forall k base, quiet (merge_item dbg k v base).
  Proof.
    induction v as [c|d IH|data nk IHd IHn] using tnode_ind'; intros k base; cbn [merge_item]; (destruct (sget k base) as [b|]; [|reflexivity]).
    - destruct (c_val c); try apply ignored_quiet; destruct b; try apply ignored_quiet; destruct (cv_eqb _ _); reflexivity.
    - destruct b; try apply ignored_quiet. apply quiet_bind; [apply merge_list_quiet; exact IH|reflexivity].
    - destruct b; try apply ignored_quiet. apply quiet_bind; [apply merge_data_quiet; exact IHd|reflexivity].
  Qed.
End QM.
Section QS.
  Variable O : opts.
  Lemma place_quiet sheet root d st : quiet (place O sheet root d st).
  Proof.
    unfold place. cbv zeta. apply quiet_bind; [unfold main_id; cbv zeta; quiets|]. intros k. destruct (match k with Some k0 => _ | None => None end) as [[k1 old]|].
    - apply quiet_bind; [|reflexivity]. apply merge_list_quiet. apply Forall_forall. intros x _. apply merge_item_quiet.
    - apply quiet_bind; [apply temp_append_quiet|reflexivity].
  Qed.
  Lemma line_cells_quiet sheet hs j line : forall k, quiet (line_cells O sheet hs j k line).
  Proof.
    induction line as [|[h v] line IH]; intros k; [reflexivity|]. cbn [line_cells]. apply quiet_bind; [destruct hs as [hs|]; [destruct (nth_error hs (N.to_nat k))|]; reflexivity|]. intros x. apply quiet_bind; [apply IH|reflexivity].
  Qed.
  Lemma do_lines_quiet sheet hs lines : forall j st, quiet (do_lines O sheet hs j lines st).
  Proof.
    induction lines as [|l lines IH]; intros j st; [reflexivity|]. cbn [do_lines]. apply quiet_bind; [|intros ?; apply IH]. unfold do_line. destruct (forallb _ l); [reflexivity|].
    apply quiet_bind; [apply line_cells_quiet|]. intros cells. apply quiet_bind; [apply row_quiet|]. intros d. apply place_quiet.
  Qed.
  Lemma quiet_reports (w : list warning) : forallb about_else w = true -> heading_reports w = [].
  Proof. induction w as [|x w IH]; [reflexivity|]. cbn. destruct x; cbn; try exact IH. discriminate. Qed.
  Lemma do_sheets_reports sheets : forall st st' w, do_sheets O sheets st = Ok st' w -> all_reported sheets (heading_reports w).
  Proof.
    induction sheets as [|s sheets IH]; intros st st' w H.
    - injection H as _ <-. constructor.
    - cbn [do_sheets] in H. apply bind_ok in H as (st1 & w1 & w2 & H1 & H2 & ->). unfold heading_reports. rewrite filter_app. fold (heading_reports w1) (heading_reports w2). apply IH in H2.
      unfold do_sheet in H1. destruct (si_headings s) as [[|h hs]|] eqn:Eh.
      + injection H1 as _ <-. apply (ar_some s []); [exact Eh|constructor|exact H2].
      + apply bind_ok in H1 as (u1 & wa & wb & Ha & Hb & ->). injection Ha as _ <-. apply (ar_some s (h :: hs)); [exact Eh| |exact H2].
        unfold heading_reports. rewrite filter_app. fold (heading_reports (heading_warnings (si_name s) (h :: hs))). rewrite heading_warnings_all.
        pose proof (do_lines_quiet (si_name s) (Some (h :: hs)) (si_lines s) 0%N st) as Q. rewrite Hb in Q. rewrite (quiet_reports wb Q : filter _ wb = []), app_nil_r. apply headings_reported.
      + pose proof (do_lines_quiet (si_name s) None (si_lines s) 0%N st) as Q. rewrite H1 in Q. rewrite (quiet_reports w1 Q). apply ar_none; assumption.
  Qed.
  Theorem reports_exact sheets r w : unflatten O sheets = Ok r w -> all_reported sheets (heading_reports w).
  Proof.
    intros H. apply bind_ok in H as (t & w1 & w2 & H & E & ->). injection E as _ <-. rewrite app_nil_r. apply bind_ok in H as (st & w3 & w4 & H & E & ->). injection E as _ <-. rewrite app_nil_r. eapply do_sheets_reports, H.
  Qed.
End QS.
