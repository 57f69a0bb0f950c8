(** A document with the types of the schema survives, written as it is or as text. *)
From Coq Require Import Lia QArith.
From Verif.Base Require Import PyStr PyNum PyVal PyDict Outcome.
From Verif.Model Require Import Warn Lib Convert Input Flatten.
From Verif.Spec Require Import Flat Sites Paths Headings RoundTrip Typed.
From Verif.Spec Require Import Conversion.
From Verif.Proofs Require Import ConvertFacts DecStr DecText FlattenPaths RtMerge.
From Verif.Spec Require Import Flat Sites Paths Headings RoundTrip Typed.

(** ** Numbers *)
Lemma Z_str_dec z : Z_str z = dec_str (DFin (z <? 0)%Z (Z.abs_N z) 0).
Proof.
  rewrite dec_str_body. unfold dec_body. cbv zeta. set (ds := N_str (Z.abs_N z)).
  rewrite Z.add_0_l. assert (Hlen : (0 < Z.of_nat (length ds))%Z).
  { pose proof (N_str_nonempty (Z.abs_N z)) as H. fold ds in H. destruct ds; [congruence|cbn [length]; lia]. }
  replace ((0 <=? 0)%Z && (-6 <? Z.of_nat (length ds))%Z) with true by (symmetry; apply andb_true_intro; split; [reflexivity|apply Z.ltb_lt; lia]).
  destruct (Z.leb_spec (Z.of_nat (length ds)) 0); [lia|]. rewrite Z.leb_refl, Z.sub_diag. change (zeros (Z.to_nat 0)) with (@nil N). change (exp_str 0) with (@nil N). rewrite !app_nil_r.
  destruct z; reflexivity.
Qed.
(** the Decimal of a number *)
Definition as_dec (s : scalar) : dec := match s with SInt z => DFin (z <? 0)%Z (Z.abs_N z) 0 | SDec d => d | _ => DInf false end.
Lemma finite_text E s : finite s -> py_str E s = dec_str (as_dec s).
Proof. destruct s as [| |z|d| | |]; intros H; try destruct H; [apply Z_str_dec|reflexivity]. Qed.
Lemma finite_parse E s : finite s -> parse_dec (py_str E s) = Some (as_dec s).
Proof. intros H. rewrite (finite_text E s H). apply dec_text. Qed.
Lemma finite_to_decimal s : finite s -> to_decimal s = Some (as_dec s).
Proof. destruct s as [| |z|d| | |]; intros H; try destruct H; reflexivity. Qed.
Lemma finite_same s : finite s -> same_value s (SDec (as_dec s)).
Proof.
  destruct s as [| |z|d| | |]; intros H; try destruct H.
  - split; [reflexivity|]. split; [reflexivity|]. unfold py_eqb. cbn [num_val as_dec]. cbn [dec_Q xnum_eqb]. apply Qeq_bool_iff.
    assert (E : (if (z <? 0)%Z then - Z.of_N (Z.abs_N z) else Z.of_N (Z.abs_N z))%Z = z) by (rewrite N2Z.inj_abs_N; destruct (Z.ltb_spec z 0); lia).
    rewrite E. unfold pow10. cbn. unfold Qeq. cbn. ring.
  - split; [reflexivity|]. split; [reflexivity|]. apply py_eqb_refl. destruct d; [reflexivity|destruct H|destruct H].
Qed.
Lemma finite_dec_chars E s c : finite s -> In c (py_str E s) -> dchar c.
Proof. intros H. rewrite (finite_text E s H). destruct s as [| |z|[n k e| |]| | |]; try destruct H; apply dec_str_chars. Qed.
Lemma dec_str_nonempty d : dec_str d <> [].
Proof. intros E. pose proof (dec_text d) as P. rewrite E in P. vm_compute in P. discriminate. Qed.
Lemma finite_nonempty E s : finite s -> py_str E s <> [].
Proof. intros H. rewrite (finite_text E s H). apply dec_str_nonempty. Qed.
Lemma finite_free E s : finite s -> no_separator (py_str E s).
Proof. intros H. split; intros Q; apply (finite_dec_chars E s _ H) in Q; unfold dchar in Q; lia. Qed.

(** ** Arrays *)
Lemma mem_c_In c s : mem_c c s = true <-> In c s.
Proof. unfold mem_c. rewrite existsb_exists. split; [intros (x & H & E); apply N.eqb_eq in E as ->; exact H|intros H; exists c; split; [exact H|apply N.eqb_refl]]. Qed.
Lemma join_In sep l c : In c (join sep l) -> In c sep \/ exists x, In x l /\ In c x.
Proof.
  induction l as [|x l IH]; [intros []|]. destruct l as [|y l]; [intros H; right; exists x; split; [left; reflexivity|exact H]|]. rewrite join_cons, !in_app_iff.
  intros [H|[H|H]]; [right; exists x; split; [left; reflexivity|exact H]|left; exact H|]. destruct (IH H) as [Q|(z & Hz & Q)]; [left; exact Q|right; exists z; split; [right; exact Hz|exact Q]].
Qed.
Lemma join_has sep l x c : In x l -> In c x -> In c (join sep l).
Proof.
  induction l as [|y l IH]; intros H Hc; [destruct H|]. destruct l as [|z l]; [destruct H as [-> |[]]; exact Hc|]. rewrite join_cons, !in_app_iff.
  destruct H as [-> |H]; [left; exact Hc|right; right; apply IH; assumption].
Qed.
Lemma join_nil sep l : sep <> [] -> join sep l = [] -> l = [] \/ l = [[]].
Proof.
  intros Hs. destruct l as [|x [|y l]]; [auto|cbn; intros ->; auto|]. rewrite join_cons. intros E. apply app_eq_nil in E as [_ E]. apply app_eq_nil in E as [E _]. congruence.
Qed.
Lemma no_comma_join l : Forall no_separator l -> mem_c comma (join (u ";") l) = false.
Proof.
  intros F. destruct (mem_c comma (join (u ";") l)) eqn:E; [|reflexivity]. exfalso. apply mem_c_In in E. apply join_In in E as [E|(x & Hx & E)].
  - destruct E as [E|[]]. discriminate E.
  - rewrite Forall_forall in F. apply (F x Hx). exact E.
Qed.
Lemma split_texts l : l <> [] -> Forall no_separator l -> split_on semicolon (join (u ";") l) = l.
Proof. intros Hne F. change (u ";") with [semicolon]. apply split_join; [exact Hne|]. intros x Hx. rewrite Forall_forall in F. apply (F x Hx). Qed.
Lemma split_row l : l <> [] -> Forall no_separator l -> split_on comma (join (u ",") l) = l.
Proof. intros Hne F. change (u ",") with [comma]. apply split_join; [exact Hne|]. intros x Hx. rewrite Forall_forall in F. apply (F x Hx). Qed.
Definition rows_text (L : list (list str)) : str := join (u ";") (map (join (u ",")) L).
Lemma split_rows L : L <> [] -> Forall (fun l => l <> [] /\ Forall no_separator l) L -> map (split_on comma) (split_on semicolon (rows_text L)) = L.
Proof.
  intros Hne F. unfold rows_text. change (u ";") with [semicolon]. rewrite split_join.
  - rewrite map_map. rewrite <- (map_id L) at 2. apply map_ext_in. intros l Hl. rewrite Forall_forall in F. destruct (F l Hl). apply split_row; assumption.
  - destruct L; [congruence|discriminate].
  - intros x Hx. apply in_map_iff in Hx as (l & <- & Hl). intros Q. apply join_In in Q as [[Q|[]]|(y & Hy & Q)]; [discriminate Q|]. rewrite Forall_forall in F. destruct (F l Hl) as (_ & G). rewrite Forall_forall in G. apply (proj1 (G y Hy)). exact Q.
Qed.
Lemma rows_comma L l a b c : In l L -> l = a :: b :: c -> mem_c comma (rows_text L) = true.
Proof.
  intros H ->. apply mem_c_In. unfold rows_text. apply (join_has _ _ (join (u ",") (a :: b :: c))); [apply in_map, H|]. rewrite join_cons, !in_app_iff. right. left. left. reflexivity.
Qed.
Lemma map_opt_all {A B} (f : A -> option B) g l : (forall x, In x l -> f x = Some (g x)) -> map_opt f l = Some (map g l).
Proof. induction l as [|x l IH]; intros H; [reflexivity|]. cbn [map_opt map]. rewrite H by (left; reflexivity). rewrite IH by (intros y Hy; apply H; right; exact Hy). reflexivity. Qed.
Lemma map_opt_map {A B C} (f : B -> option C) (h : A -> B) l : map_opt f (map h l) = map_opt (fun x => f (h x)) l.
Proof. induction l as [|x l IH]; [reflexivity|]. cbn [map map_opt]. rewrite IH. reflexivity. Qed.

(** ** One cell *)
Definition raw_or_text (E : env) (c w : scalar) : Prop := w = c \/ w = SStr (py_str E c).
Lemma text_only E t w : raw_or_text E (SStr t) w -> w = SStr t.
Proof. intros [-> | ->]; reflexivity. Qed.
Lemma forallb_map {A B} (f : B -> bool) (g : A -> B) l : forallb f (map g l) = forallb (fun x => f (g x)) l.
Proof. induction l as [|x l IH]; [reflexivity|]. cbn. rewrite IH. reflexivity. Qed.
Lemma convert_texts_cell (E : conv_env) ty t : In ty [u "string_array"; u "array_array"] -> t <> [] -> convert_type E ty (CV (SStr t)) = Ok (split_array t) [].
Proof. intros [<-|[<-|[]]] Hne; unfold convert_type; (destruct t; [congruence|reflexivity]). Qed.
Lemma convert_numbers_cell (E : conv_env) t v : t <> [] -> split_number_array t = Some v -> convert_type E (u "number_array") (CV (SStr t)) = Ok v [].
Proof. intros Hne H. unfold convert_type. destruct t; [congruence|]. cbn -[split_number_array]. rewrite H. reflexivity. Qed.

Section Cell.
  Variable O : popts.
  Variable E : conv_env.
  Variable F0 : env.
  Lemma leaf_texts l : leaf_cell O (JA (map text l)) = Some (JS (SStr (join (u ";") l))).
  Proof.
    unfold leaf_cell. rewrite forallb_map. rewrite (proj2 (forallb_forall _ _)) by reflexivity. unfold texts_of. rewrite map_map. rewrite map_id. reflexivity.
  Qed.
  Lemma leaf_numbers l : Forall finite l -> leaf_cell O (JA (map JS l)) = Some (JS (SStr (join (u ";") (map (py_str (po_str O)) l)))).
  Proof.
    intros F. unfold leaf_cell. rewrite forallb_map. rewrite (proj2 (forallb_forall _ _)); [unfold texts_of; rewrite map_map; reflexivity|].
    intros s Hs. rewrite Forall_forall in F. specialize (F s Hs). destruct s; try destruct F; reflexivity.
  Qed.
  Lemma leaf_rows (g : scalar -> jv) L : L <> [] -> (forall s, g s = JS s) -> (forall l s, In l L -> In s l -> basic s = true) ->
    leaf_cell O (JA (map (fun l => JA (map g l)) L)) = Some (JS (SStr (rows_text (map (map (py_str (po_str O))) L)))).
  Proof.
    intros Hne Hg Hb. unfold leaf_cell. rewrite !forallb_map. cbn [jbasic inner_array]. destruct L as [|l0 L0] eqn:EL; [congruence|]. cbn [forallb andb]. rewrite <- EL in *.
    assert (B : forall l, In l L -> forallb jbasic (map g l) = true).
    { intros l Hl. rewrite forallb_map. apply forallb_forall. intros s Hs. rewrite Hg. cbn. eapply Hb; eassumption. }
    rewrite (B l0) by (rewrite EL; left; reflexivity). cbn [andb].
    rewrite (proj2 (forallb_forall _ L0)) by (intros l Hl; apply B; rewrite EL; right; exact Hl). rewrite map_map. unfold rows_text. rewrite map_map. do 4 f_equal. apply map_ext. intros l. f_equal. unfold texts_of. rewrite map_map. apply map_ext. intros s. rewrite Hg. reflexivity.
  Qed.

  Lemma typed_cell ty y : of_type ty y -> leaf y /\ exists c, leaf_cell O y = Some (JS c) /\ forall w, raw_or_text F0 c w ->
    blank w = false /\ exists v, convert_type E ty (CV w) = Ok v [] /\ cv_blank v = false /\ same_leaf y v /\ (ty <> u "number" -> (exists s, y = JS s /\ plain_value s) -> v = CV c).
  Proof.
    intros H. destruct H as [ty t Hty Hne|z|s Hs|b|ty l Hty Hne Hne2 F|l Hne F|ty L Hty F (a & b & c & l & Hl & El)|L F (a & b & c & l & Hl & El)].
    - split; [reflexivity|]. exists (SStr t). split; [reflexivity|]. intros w Hw. apply text_only in Hw as ->. split; [destruct t; [congruence|reflexivity]|].
      exists (CV (SStr t)). destruct t as [|x t]; [congruence|]. destruct Hty as [<-|[<-|[<-|[]]]]; (split; [unfold convert_type; destruct (ce_wkt E); reflexivity|]); repeat split; reflexivity.
    - split; [reflexivity|]. exists (SInt z). split; [reflexivity|]. intros w Hw. assert (Hb : blank w = false).
      { destruct Hw as [-> | ->]; [reflexivity|]. cbn [py_str blank]. pose proof (finite_nonempty F0 (SInt z) I) as Q. cbn [py_str] in Q. destruct (Z_str z); [congruence|reflexivity]. }
      split; [exact Hb|]. exists (CV (SInt z)). split; [|split; [reflexivity|split; [|reflexivity]]].
      + unfold convert_type. cbn [cv_blank]. rewrite Hb. cbn -[to_int]. destruct Hw as [-> | ->]; cbn [to_int py_str]; [reflexivity|]. rewrite parse_int_Z_str. reflexivity.
      + split; [reflexivity|]. split; [reflexivity|]. apply py_eqb_refl. reflexivity.
    - split; [destruct s; try destruct Hs; reflexivity|]. exists s. split; [reflexivity|]. intros w Hw. assert (Hb : blank w = false).
      { destruct Hw as [-> | ->]; [destruct s; try destruct Hs; reflexivity|]. pose proof (finite_nonempty F0 s Hs) as Q. cbn [blank]. destruct (py_str F0 s); [congruence|reflexivity]. }
      split; [exact Hb|]. exists (CV (SDec (as_dec s))). split; [|split; [reflexivity|split; [apply finite_same, Hs|congruence]]].
      unfold convert_type. cbn [cv_blank]. rewrite Hb. cbn -[to_decimal]. replace (to_decimal w) with (Some (as_dec s)); [reflexivity|]. symmetry. destruct Hw as [-> | ->]; [apply finite_to_decimal, Hs|apply finite_parse, Hs].
    - split; [reflexivity|]. exists (SBool b). split; [reflexivity|]. intros w Hw. assert (Hb : blank w = false) by (destruct Hw as [-> | ->]; destruct b; reflexivity).
      split; [exact Hb|]. exists (CV (SBool b)). split; [destruct Hw as [-> | ->]; destruct b; reflexivity|]. split; [reflexivity|]. split; [destruct b; reflexivity|reflexivity].
    - split. { split; [destruct l; [congruence|discriminate]|]. left. intros x Hx. apply in_map_iff in Hx as (t & <- & _). reflexivity. }
      exists (SStr (join (u ";") l)). split; [apply leaf_texts|]. intros w Hw. apply text_only in Hw as ->.
      assert (Hj : join (u ";") l <> []) by (intros Q; apply join_nil in Q; [|discriminate]; destruct Q as [Q|Q]; [exact (Hne Q)|exact (Hne2 Q)]).
      split; [cbn [blank]; destruct (join (u ";") l); [congruence|reflexivity]|]. exists (CList (map SStr l)).
      split; [|split; [reflexivity|split; [|intros _ (s & Q & _); discriminate Q]]].
      + rewrite (convert_texts_cell E ty _ Hty Hj). unfold split_array. rewrite (no_comma_join l F), (split_texts l Hne F). reflexivity.
      + cbn [same_leaf]. clear. induction l as [|t l IH]; constructor; [reflexivity|exact IH].
    - split. { split; [destruct l; [congruence|discriminate]|]. left. intros x Hx. apply in_map_iff in Hx as (s & <- & Hs). rewrite Forall_forall in F. specialize (F s Hs). destruct s; try destruct F; reflexivity. }
      set (ts := map (py_str (po_str O)) l). assert (Fs : Forall no_separator ts) by (apply Forall_forall; intros x Hx; apply in_map_iff in Hx as (s & <- & Hs); apply finite_free; rewrite Forall_forall in F; apply F, Hs).
      exists (SStr (join (u ";") ts)). split; [apply leaf_numbers, F|]. intros w Hw. apply text_only in Hw as ->.
      assert (Hts : ts <> []) by (unfold ts; destruct l; [congruence|discriminate]).
      assert (Hj : join (u ";") ts <> []).
      { intros Q. apply join_nil in Q; [|discriminate]. destruct Q as [Q|Q]; [exact (Hts Q)|]. unfold ts in Q. destruct l as [|s [|]]; try discriminate. injection Q as Q. inversion F; subst. apply (finite_nonempty (po_str O) s); assumption. }
      split; [cbn [blank]; destruct (join (u ";") ts); [congruence|reflexivity]|]. exists (CList (map (fun s => SDec (as_dec s)) l)).
      split; [|split; [reflexivity|split; [|intros _ (s & Q & _); discriminate Q]]].
      + apply convert_numbers_cell; [exact Hj|]. unfold split_number_array. rewrite (no_comma_join ts Fs), (split_texts ts Hts Fs). unfold ts. rewrite map_opt_map.
        rewrite (map_opt_all _ (fun s => SDec (as_dec s))); [reflexivity|]. intros s Hs. rewrite Forall_forall in F. rewrite finite_parse by (apply F, Hs). reflexivity.
      + cbn [same_leaf]. clear - F. induction F as [|s l Hs F IH]; constructor; [apply finite_same, Hs|exact IH].
    - assert (HL : L <> []) by (destruct L; [destruct Hl|discriminate]).
      split. { split; [destruct L; [congruence|discriminate]|]. right. intros x Hx. apply in_map_iff in Hx as (m & <- & Hm). exists (map text m). split; [reflexivity|]. intros z Hz. apply in_map_iff in Hz as (t & <- & _). reflexivity. }
      exists (SStr (rows_text L)). split.
      { replace (map (fun l0 => JA (map text l0)) L) with (map (fun l0 => JA (map JS l0)) (map (map SStr) L)) by (rewrite map_map; apply map_ext; intros m; rewrite map_map; reflexivity).
        rewrite (leaf_rows JS (map (map SStr) L)); [| |reflexivity|].
        - rewrite map_map. do 4 f_equal. rewrite <- (map_id L) at 2. apply map_ext. intros m. rewrite map_map. apply map_id.
        - destruct L; [congruence|discriminate].
        - intros m s Hm Hs. apply in_map_iff in Hm as (m' & <- & _). apply in_map_iff in Hs as (t & <- & _). reflexivity. }
      intros w Hw. apply text_only in Hw as ->. pose proof (rows_comma L l a b c Hl El) as Hc.
      assert (Hj : rows_text L <> []) by (intros Q; rewrite Q in Hc; discriminate).
      split; [cbn [blank]; destruct (rows_text L); [congruence|reflexivity]|]. exists (CList2 (map (map SStr) L)).
      split; [|split; [reflexivity|split; [|intros _ (s & Q & _); discriminate Q]]].
      + rewrite (convert_texts_cell E ty _ Hty Hj). unfold split_array. rewrite Hc. do 2 f_equal. pose proof (split_rows L HL F) as Q. rewrite <- Q at 2. rewrite map_map. reflexivity.
      + cbn [same_leaf]. clear. induction L as [|m L IH]; constructor; [|exact IH]. clear. induction m as [|t m IH]; constructor; [reflexivity|exact IH].
    - assert (HL : L <> []) by (destruct L; [destruct Hl|discriminate]).
      assert (F2 : forall m s, In m L -> In s m -> finite s) by (intros m s Hm Hs; rewrite Forall_forall in F; destruct (F m Hm) as (_ & G); rewrite Forall_forall in G; apply G, Hs).
      assert (B : forall m s, In m L -> In s m -> basic s = true) by (intros m s Hm Hs; specialize (F2 m s Hm Hs); destruct s; try destruct F2; reflexivity).
      split. { split; [destruct L; [congruence|discriminate]|]. right. intros x Hx. apply in_map_iff in Hx as (m & <- & Hm). exists (map JS m). split; [reflexivity|]. intros z Hz. apply in_map_iff in Hz as (s & <- & Hs). apply (B m s Hm Hs). }
      set (T := map (map (py_str (po_str O))) L). exists (SStr (rows_text T)). split; [apply leaf_rows; auto|].
      intros w Hw. apply text_only in Hw as ->.
      assert (Hc : mem_c comma (rows_text T) = true) by (eapply rows_comma; [unfold T; apply in_map, Hl|rewrite El; reflexivity]).
      assert (HT : T <> []) by (unfold T; destruct L; [congruence|discriminate]).
      assert (FT : Forall (fun l0 => l0 <> [] /\ Forall no_separator l0) T).
      { apply Forall_forall. intros m Hm. apply in_map_iff in Hm as (m' & <- & Hm'). rewrite Forall_forall in F. destruct (F m' Hm') as (Q & _). split; [destruct m'; [congruence|discriminate]|].
        apply Forall_forall. intros x Hx. apply in_map_iff in Hx as (s & <- & Hs). apply finite_free, (F2 m' s Hm' Hs). }
      assert (Hj : rows_text T <> []) by (intros Q; rewrite Q in Hc; discriminate).
      split; [cbn [blank]; destruct (rows_text T); [congruence|reflexivity]|]. exists (CList2 (map (map (fun s => SDec (as_dec s))) L)).
      split; [|split; [reflexivity|split; [|intros _ (s & Q & _); discriminate Q]]].
      + apply convert_numbers_cell; [exact Hj|]. unfold split_number_array. rewrite Hc. pose proof (split_rows T HT FT) as Q.
        change (fun x => map_opt (fun x0 => option_map SDec (parse_dec x0)) (split_on comma x)) with (fun x => (fun y => map_opt (fun x0 => option_map SDec (parse_dec x0)) y) (split_on comma x)).
        rewrite <- (map_opt_map (map_opt (fun x0 => option_map SDec (parse_dec x0))) (split_on comma)). rewrite Q. unfold T. rewrite map_opt_map.
        rewrite (map_opt_all _ (map (fun s => SDec (as_dec s)))); [reflexivity|]. intros m Hm. rewrite map_opt_map. apply map_opt_all. intros s Hs. rewrite finite_parse by (apply (F2 m s Hm Hs)). reflexivity.
      + cbn [same_leaf]. clear - F2. induction L as [|m L IH]; constructor.
        * assert (G : forall s, In s m -> finite s) by (intros s Hs; apply (F2 m s); [left; reflexivity|exact Hs]). clear - G. induction m as [|s m IH]; constructor; [apply finite_same, G; left; reflexivity|apply IH; intros x Hx; apply G; right; exact Hx].
        * apply IH. intros m' s Hm Hs. apply (F2 m' s); [right; exact Hm|exact Hs].
  Qed.
End Cell.

(** ** The headings of a typed document fit the schema *)
Lemma heading_path_app A B : heading_path (A ++ B) = heading_path A ++ heading_path B.
Proof. apply flat_map_app. Qed.
Lemma heading_path_key Q : forall q k r, heading_path Q = q ++ HKey k :: r ->
  exists Q1 o Q2, Q = Q1 ++ (k, o) :: Q2 /\ q = heading_path Q1 /\ r = match o with Some _ => [HPos 0] | None => [] end ++ heading_path Q2.
Proof.
  induction Q as [|[k0 o0] Q IH]; intros q k r E; [destruct q; discriminate|]. change (heading_path ((k0, o0) :: Q)) with ((HKey k0 :: match o0 with Some _ => [HPos 0] | None => [] end) ++ heading_path Q) in E.
  destruct q as [|s q].
  - injection E as -> <-. exists [], o0, Q. split; [reflexivity|]. split; reflexivity.
  - cbn [app] in E. injection E as <- E. destruct o0 as [i|].
    + destruct q as [|s q]; [discriminate|]. cbn [app] in E. injection E as <- E. destruct (IH _ _ _ E) as (Q1 & o & Q2 & -> & -> & ->). exists ((k0, Some i) :: Q1), o, Q2. repeat split.
    + destruct (IH _ _ _ E) as (Q1 & o & Q2 & -> & -> & ->). exists ((k0, None) :: Q1), o, Q2. repeat split.
Qed.
Lemma of_type_simple ty y : of_type ty y -> ty <> u "object" /\ ty <> u "array".
Proof.
  intros H. destruct H as [ty t Hty Hne|z|s Hs|b|ty l Hty Hne Hne2 F|l Hne F|ty L Hty F _|L F _]; try (split; discriminate).
  - destruct Hty as [<-|[<-|[<-|[]]]]; split; discriminate.
  - destruct Hty as [<-|[<-|[]]]; split; discriminate.
  - destruct Hty as [<-|[<-|[]]]; split; discriminate.
Qed.

Section Types.
  Variable idn : str.
  Variable types : str -> str.
  Variable d : jobj.
  Hypothesis HT : has_types types d.
  Hypothesis Ht : tidy idn (JO d).

  Lemma tidy_here Q : forall v e, tidy idn v -> at_path v Q = Some (JO e) -> tidy idn (JO e).
  Proof.
    induction Q as [|[k o] Q IH]; intros v e Hv Ha; [injection Ha as ->; exact Hv|]. cbn [at_path] in Ha. destruct v as [| |f]; try discriminate.
    destruct (tidy_JO idn f Hv) as (_ & _ & Hk & _). destruct o as [i|].
    - destruct (sget k f) as [[|l|]|] eqn:Eg; try discriminate. destruct (nth_error l i) as [z|] eqn:Ei; [|discriminate]. apply (IH z e); [|exact Ha].
      apply sget_In in Eg. destruct (Hk _ _ Eg) as (_ & Hl). inversion Hl as [? L|? ? ? ? ?|? ? L ?]; subst; [|apply (L z), (nth_error_In _ _ Ei)].
      exfalso. destruct L as (_ & [L|L]); specialize (L z (nth_error_In _ _ Ei)); destruct Q as [|[k1 o1] Q].
      + injection Ha as ->. discriminate L.
      + destruct z as [| |z]; [discriminate Ha|discriminate Ha|discriminate L].
      + injection Ha as ->. destruct L as (l' & L & _). discriminate L.
      + destruct L as (l' & -> & _). discriminate Ha.
    - destruct (sget k f) as [z|] eqn:Eg; [|discriminate]. apply sget_In in Eg. apply (IH z e); [apply (Hk _ _ Eg)|exact Ha].
  Qed.
  (** the object or array of objects on the way to a place *)
  Lemma on_the_way Q1 k o Q2 y : Q2 <> [] -> at_path (JO d) (Q1 ++ (k, o) :: Q2) = Some y ->
    let ty := types (path_text (heading_path Q1 ++ [HKey k])) in
    match o with None => ty = [] \/ ty = u "object" | Some _ => ty = [] \/ ty = u "array" end.
  Proof.
    intros Hne Ha. rewrite at_path_app in Ha. destruct (at_path (JO d) Q1) as [v|] eqn:E1; [|discriminate]. cbn [at_path] in Ha. destruct v as [| |e]; try discriminate.
    destruct (sget k e) as [z|] eqn:Eg; [|destruct o; discriminate].
    assert (Hz : at_path (JO d) (Q1 ++ [(k, None)]) = Some z) by (rewrite at_path_app, E1; cbn [at_path]; rewrite Eg; reflexivity).
    pose proof (HT Q1 k z Hz) as G. unfold type_at in G. rewrite heading_path_app in G. change (heading_path [(k, None)]) with [HKey k] in G. cbv zeta in G |- *.
    destruct Q2 as [|[k2 o2] Q2]; [congruence|]. destruct o as [i|].
    - destruct z as [|l|]; try discriminate. destruct (nth_error l i) as [w|] eqn:Ei; [|discriminate]. destruct w as [| |w]; try discriminate.
      destruct (forallb (fun x => match x with JO _ => true | _ => false end) l) eqn:Ef; [exact G|]. exfalso.
      pose proof (tidy_here Q1 (JO d) e Ht E1) as He. destruct (tidy_JO idn e He) as (_ & _ & Hk & _). apply sget_In in Eg. destruct (Hk _ _ Eg) as (_ & Hl).
      apply nth_error_In in Ei. inversion Hl as [? L|? ? ? ? ?|? ? L ?]; subst.
      + destruct L as (_ & [L|L]); specialize (L _ Ei); [discriminate L|]. destruct L as (l' & L & _). discriminate L.
      + apply not_true_iff_false in Ef. apply Ef. apply forallb_forall. intros x Hx. destruct (L x Hx) as (_ & s & Q & _). destruct x; [discriminate Q|discriminate Q|reflexivity].
    - destruct z as [| |z]; try discriminate. exact G.
  Qed.
  Lemma typed_fits Q k y : at_path (JO d) (Q ++ [(k, None)]) = Some y -> of_type (type_at types (Q ++ [(k, None)])) y -> fits types (heading_path (Q ++ [(k, None)])).
  Proof.
    intros Ha Hy q k1 r Er. cbv zeta. destruct (heading_path_key _ _ _ _ Er) as (Q1 & o & Q2 & EQ & -> & ->). destruct Q2 as [|s2 Q2].
    - apply app_inj_tail in EQ as [<- EQ]. injection EQ as <- <-. cbn [heading_path flat_map app]. unfold type_at in Hy. rewrite heading_path_app in Hy. exact (of_type_simple _ _ Hy).
    - rewrite EQ in Ha. pose proof (on_the_way Q1 k1 o (s2 :: Q2) y ltac:(discriminate) Ha) as G. cbv zeta in G. destruct o as [i|]; cbn [app]; [exact G|]. destruct s2 as [k2 o2]. exact G.
  Qed.
End Types.

(** *** A number read as a float *)
Lemma float_decimal c f : finite c -> py_eqb c (SFlt f) = true -> same_value c (SDec (flt_dec f)) /\ blank (SFlt f) = false.
Proof.
  intros Hc Q. split; [|reflexivity]. assert (Nc : number c = true) by (destruct c; try destruct Hc; reflexivity).
  enough (E : py_eqb c (SDec (flt_dec f)) = true) by (destruct c; try destruct Hc; split; [reflexivity|split; [reflexivity|exact E]|reflexivity|split; [reflexivity|exact E]]).
  destruct f as [n m e|n|].
  - destruct (flt_dec_ok n m e) as (q & p & E1 & E2 & E3). unfold py_eqb in *. destruct (flt_dec (FFin n m e)) as [n1 c1 e1| |] eqn:Ef; [|discriminate E1|discriminate E1].
    assert (N1 : num_val (SFlt (FFin n m e)) = Some (XFin p)) by (unfold num_val; rewrite E2; reflexivity).
    assert (N2 : num_val (SDec (DFin n1 c1 e1)) = Some (XFin q)) by (unfold num_val; rewrite E1; reflexivity).
    rewrite N1 in Q. rewrite N2. destruct (num_val c) as [[x|b|]|]; try discriminate Q. cbn [xnum_eqb] in *. apply Qeq_bool_iff. apply Qeq_bool_iff in Q. rewrite Q. exact E3.
  - exact Q.
  - unfold py_eqb in Q. destruct (num_val c) as [[x|b|]|]; discriminate Q.
Qed.
Lemma float_integer z f : py_eqb (SInt z) (SFlt f) = true -> to_int (SFlt f) = IVal z.
Proof.
  destruct f as [n m e|n|]; intros Q; [|discriminate Q|discriminate Q]. cbn [to_int]. f_equal. unfold py_eqb in Q. change (num_val (SInt z)) with (Some (XFin (inject_Z z))) in Q. unfold num_val in Q.
  destruct (flt_Q (FFin n m e)) as [q|] eqn:E; [|discriminate Q]. cbn [xnum_eqb] in Q. apply Qeq_bool_iff in Q.
  apply (truncates_unique q); [apply flt_trunc_ok, E|apply truncates_int; symmetry; exact Q].
Qed.
Lemma comes_cell O E F ty y : of_type ty y -> leaf y /\ exists c, leaf_cell O y = Some (JS c) /\ forall w, cell_gives F ty c w ->
    blank w = false /\ exists v, convert_type E ty (CV w) = Ok v [] /\ cv_blank v = false /\ same_leaf y v /\ (ty <> u "number" -> (exists s, y = JS s /\ plain_value s) -> v = CV c).
Proof.
  intros H. destruct (typed_cell O E F ty y H) as (L & c & Ec & G). split; [exact L|]. exists c. split; [exact Ec|]. intros w [Hw|[Hw|(f & -> & Q & [-> | ->])]].
  - apply G. left. exact Hw.
  - apply G. right. exact Hw.
  - remember (u "number") as ty eqn:Ety. clear G. destruct H as [ty t Hty Hne|z|s Hs|b|ty l Hty Hne Hne2 F1|l Hne F1|ty L1 Hty F1 Hl|L1 F1 Hl];
      try discriminate Ety; try (exfalso; rewrite Ety in Hty; cbn [In] in Hty; intuition discriminate).
    injection Ec as <-. destruct (float_decimal s f Hs Q) as (Sv & Hb). split; [exact Hb|]. exists (CV (SDec (flt_dec f))). split; [reflexivity|]. split; [reflexivity|]. split; [exact Sv|congruence].
  - remember (u "integer") as ty eqn:Ety. clear G. destruct H as [ty t Hty Hne|z|s Hs|b|ty l Hty Hne Hne2 F1|l Hne F1|ty L1 Hty F1 Hl|L1 F1 Hl];
      try discriminate Ety; try (exfalso; rewrite Ety in Hty; cbn [In] in Hty; intuition discriminate).
    injection Ec as <-. split; [reflexivity|]. exists (CV (SInt z)). split; [|split; [reflexivity|split; [|reflexivity]]].
    + unfold convert_type. cbn -[to_int]. rewrite (float_integer z f Q). reflexivity.
    + split; [reflexivity|]. split; [reflexivity|]. apply py_eqb_refl. reflexivity.
Qed.

Lemma typed_leaf types d Q k y : has_types types d -> at_path (JO d) (Q ++ [(k, None)]) = Some y -> leaf y -> of_type (type_at types (Q ++ [(k, None)])) y.
Proof.
  intros HT Ha Hl. pose proof (HT Q k y Ha) as G. cbv zeta in G. destruct y as [s|l|o]; [exact G| |destruct Hl]. destruct (forallb _ l) eqn:Ef; [|exact G]. exfalso.
  destruct Hl as (Hne & Hl). destruct l as [|x l]; [congruence|]. cbn in Ef. destruct x as [| |x]; [discriminate Ef|discriminate Ef|].
  destruct Hl as [Hl|Hl]; specialize (Hl _ (or_introl eq_refl)); [discriminate Hl|]. destruct Hl as (l' & Q' & _). discriminate Q'.
Qed.
Lemma typed_id idn d Q y : tidy idn (JO d) -> at_path (JO d) (Q ++ [(idn, None)]) = Some y -> exists s, y = JS s /\ plain_value s.
Proof.
  intros Ht Ha. rewrite at_path_app in Ha. destruct (at_path (JO d) Q) as [v1|] eqn:E1; [|discriminate]. cbn [at_path] in Ha. destruct v1 as [| |e]; try discriminate.
  destruct (sget idn e) as [z|] eqn:Eg; [|discriminate]. injection Ha as ->.
  pose proof (tidy_here idn Q (JO d) e Ht E1) as He. destruct (tidy_JO _ e He) as (_ & _ & _ & Hv). destruct (Hv y Eg) as (s & Es & Hp). injection Es as ->. eauto.
Qed.
Lemma typed_roots O F write docs : documents O docs ->
  (forall d s, In d docs -> root_key O d = Some (JS s) -> write s = s \/ write s = SStr (py_str F s)) ->
  ((forall d s, In d docs -> root_key O d = Some (JS s) -> exists t, s = SStr t) \/ (forall d s, In d docs -> root_key O d = Some (JS s) -> exists z, s = SInt z)) ->
  forall d e s t, In d docs -> In e docs -> root_key O d = Some (JS s) -> root_key O e = Some (JS t) -> plain_value (write s) /\ (write s = write t -> s = t).
Proof.
  intros HD Hw2 Hk. pose proof HD as (_ & _ & FD & _). rewrite Forall_forall in FD.
  intros d e s t Hd He Es Et. destruct (FD d Hd) as (_ & _ & Hroot & _). assert (Hp : plain_value s).
    { unfold root_key in Es. destruct (po_root_id O) as [|a b]; [discriminate|]. destruct Hroot as (s' & Es' & Hp); [discriminate|]. congruence. }
    assert (Hp' : forall z, SStr (Z_str z) = SStr (Z_str z)) by reflexivity.
    destruct Hk as [Hk|Hk]; destruct (Hk d s Hd Es) as (x & ->); destruct (Hk e t He Et) as (y & ->).
    + assert (W : forall z, write (SStr z) = SStr z \/ write (SStr z) = SStr (py_str F (SStr z)) -> write (SStr z) = SStr z) by (intros z [-> | ->]; reflexivity).
      rewrite !W; [split; [exact Hp|auto]|exact (Hw2 e _ He Et)|exact (Hw2 d _ Hd Es)].
    + split.
      * destruct (Hw2 d _ Hd Es) as [-> | ->]; [exact Hp|]. left. eexists. split; [reflexivity|]. apply (finite_nonempty F (SInt x) I).
      * intros Q. destruct (Hw2 d _ Hd Es) as [E1|E1], (Hw2 e _ He Et) as [E2|E2]; rewrite E1, E2 in Q; try discriminate Q; [exact Q|]. cbn [py_str] in Q. injection Q as Q. pose proof (parse_int_Z_str x) as P1. rewrite Q, parse_int_Z_str in P1. congruence.
Qed.
Theorem typed_survive_used O P F write docs : o_xml P = false -> o_id_name P = po_id_name O -> o_root_id P = po_root_id O -> documents O docs ->
  Forall (has_types (o_types P)) docs -> (forall d Q, In d docs -> at_path (JO d) (Q ++ [(po_id_name O, None)]) <> None -> type_at (o_types P) (Q ++ [(po_id_name O, None)]) <> u "number") ->
  (forall d Q k y c, In d docs -> at_path (JO d) (Q ++ [(k, None)]) = Some y -> leaf_cell O y = Some (JS c) -> cell_gives F (type_at (o_types P) (Q ++ [(k, None)])) c (write c)) ->
  (forall d s, In d docs -> root_key O d = Some (JS s) -> write s = s \/ write s = SStr (py_str F s)) ->
  ((forall d s, In d docs -> root_key O d = Some (JS s) -> exists t, s = SStr t) \/ (forall d s, In d docs -> root_key O d = Some (JS s) -> exists z, s = SInt z)) ->
  survive O P write docs.
Proof.
  intros Hx Hi Hr HD HT Hn Hw Hw2 Hk. pose proof HD as (_ & _ & FD & _). rewrite Forall_forall in FD, HT.
  split; [exact Hx|]. split; [exact Hi|]. split; [exact Hr|]. split; [|exact (typed_roots O F write docs HD Hw2 Hk)].
  intros d Q k y c Hd Ha Hl Hc. destruct (FD d Hd) as (Ht & _). pose proof (typed_leaf (o_types P) d Q k y (HT d Hd) Ha Hl) as Hy.
  destruct (comes_cell O (o_conv P) F _ y Hy) as (_ & c' & Ec & G). rewrite Ec in Hc. injection Hc as ->.
  destruct (G (write c) (Hw d Q k y c Hd Ha Ec)) as (Hb & v & Ev & Hbv & Hs & Hid).
  split; [apply (typed_fits (po_id_name O) _ d (HT d Hd) Ht Q k y Ha Hy)|]. split; [exact Hb|]. exists v. split; [exact Ev|]. split; [exact Hbv|]. split; [exact Hs|].
  intros El. rewrite heading_path_app in El. change (heading_path [(k, None)]) with [HKey k] in El. rewrite last_last in El. injection El as ->. rewrite Hi in *. apply Hid.
  + apply Hn with d; [exact Hd|]. rewrite Ha. discriminate.
  + exact (typed_id (po_id_name O) d Q y Ht Ha).
Qed.
Theorem typed_survive O P F write docs : o_xml P = false -> o_id_name P = po_id_name O -> o_root_id P = po_root_id O -> documents O docs ->
  Forall (has_types (o_types P)) docs -> (forall d Q, In d docs -> at_path (JO d) (Q ++ [(po_id_name O, None)]) <> None -> type_at (o_types P) (Q ++ [(po_id_name O, None)]) <> u "number") ->
  (forall s, s <> SNone -> write s = s \/ write s = SStr (py_str F s)) ->
  ((forall d s, In d docs -> root_key O d = Some (JS s) -> exists t, s = SStr t) \/ (forall d s, In d docs -> root_key O d = Some (JS s) -> exists z, s = SInt z)) ->
  survive O P write docs.
Proof.
  intros Hx Hi Hr HD HT Hn Hw Hk. apply (typed_survive_used O P F write docs Hx Hi Hr HD HT Hn); [| |exact Hk].
  - intros d Q k y c Hd Ha Ec. assert (Nc : c = SNone \/ c <> SNone) by (destruct c; [left; reflexivity|right; discriminate..]).
    destruct Nc as [-> |Nc]; [|destruct (Hw c Nc) as [-> | ->]; [left|right; left]; reflexivity]. exfalso.
    destruct y as [s0|l|o]; [|cbn in Ec; destruct (forallb jbasic l); [discriminate Ec|destruct (forallb inner_array l); discriminate Ec]|discriminate Ec]. injection Ec as ->.
    rewrite Forall_forall in HT. pose proof (HT d Hd Q k _ Ha) as Hy. cbv zeta in Hy. cbn match in Hy.
    inversion Hy as [? t Hin Ht0 Q1 Q2|z Q1 Q2|s0 Hf Q1 Q2|b0 Q1 Q2|? ? ? ? ? ? Q1 Q2|? ? ? Q1 Q2|? ? ? ? ? Q1 Q2|? ? ? Q1 Q2]; subst; destruct Hf.
  - intros d s Hd Es. apply Hw. intros ->. destruct HD as (_ & _ & FD & _). rewrite Forall_forall in FD. destruct (FD d Hd) as (_ & _ & Hroot & _).
    unfold root_key in Es. destruct (po_root_id O) as [|a b]; [discriminate|]. destruct Hroot as (s' & Es' & Hp); [discriminate|]. rewrite Es in Es'. injection Es' as <-. destruct Hp as [(t & E & _)|(z & E)]; discriminate E.
Qed.
