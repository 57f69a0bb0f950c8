(** Flattening with WKT conversion asked for but no shapely: only warnings. *)
From Verif.Base Require Import PyStr PyVal PyDict Outcome.
From Verif.Model Require Import Flatten.
From Verif.Spec Require Import Wkt.
From Verif.Proofs Require Import TreeInd Erase JvInd FlattenTrace WktFlat.
Local Open Scope res_scope.

Lemma quiet_bind {A B} (m m' : FR A) (k k' : A -> FR B) : quiet m = quiet m' -> (forall a, quiet (k a) = quiet (k' a)) -> quiet (bind m k) = quiet (bind m' k').
Proof.
  intros Hm Hk. destruct m as [a w|e w], m' as [a' w'|e' w']; cbn [quiet] in Hm; try discriminate Hm.
  - injection Hm as <- Ew. cbn [bind]. specialize (Hk a). destruct (k a) as [b v|e v], (k' a) as [b' v'|e' v']; cbn [quiet] in *; try discriminate Hk; injection Hk as <- Ev; rewrite !filter_app, Ew, Ev; reflexivity.
  - cbn [bind quiet]. injection Hm as <- ->. reflexivity.
Qed.
Section A.
  Variable O : popts.
  Hypothesis HS : po_shape O = None.
  Notation O' := (without_wkt O).
  Definition qv (v : jv) : Prop := forall r parent row ids top s, quiet (parse_value O v r parent row ids top s) = quiet (parse_value O' v r parent row ids top s).
  Lemma items_q name path ids l : Forall qv l -> forall s, quiet (items (parse_value O) name path ids l s) = quiet (items (parse_value O') name path ids l s).
  Proof.
    induction 1 as [|v l Hv HF IH]; intros s; [reflexivity|].
    destruct v as [[]| |]; cbn [items]; first [apply IH | apply quiet_bind; [apply Hv|intros a; apply IH]].
  Qed.
  Lemma roll_single_q r key item : forall row s, roll_single O r key item row s = roll_single O' r key item row s.
  Proof. induction item as [|[k v] item IH]; intros row s; [reflexivity|]. cbn [roll_single]. change (roll_dropped O') with (roll_dropped O). change (roll_column O') with (roll_column O). change (set_cell O') with (set_cell O). rewrite IH. destruct (roll_dropped O key k); [reflexivity|]. destruct (negb (jbasic v)); [reflexivity|]. destruct (roll_column O key k) as [col|]; [|reflexivity]. destruct (set_cell O r col v row s). apply IH. Qed.
  Lemma roll_many_q r key ks : forall row s, roll_many O r key ks row s = roll_many O' r key ks row s.
  Proof.
    induction ks as [|k ks IH]; intros row s; [reflexivity|]. cbn [roll_many]. change (roll_dropped O') with (roll_dropped O). change (roll_many_wanted O') with (roll_many_wanted O). change (set_cell O') with (set_cell O).
    rewrite IH. destruct (roll_dropped O key k); [reflexivity|]. destruct (roll_many_wanted O key k); [|reflexivity]. apply bind_ext. intros _. destruct (set_cell O r (roll_path key k) (JS (SStr rollup_text)) row s). apply IH.
  Qed.
  Lemma rollup_q r parent key l row s : rollup O r parent key l row s = rollup O' r parent key l row s.
  Proof.
    unfold rollup. change (po_rollup O') with (po_rollup O). change (po_titles O') with (po_titles O). change (po_schema O') with (po_schema O).
    destruct (po_rollup O); [reflexivity|]. destruct parent; [|reflexivity]. apply bind_ext. intros _. destruct l as [|v [|]]; [reflexivity| |].
    - destruct v; [reflexivity|reflexivity|apply roll_single_q].
    - apply bind_ext. intros ks. change (po_set_order O') with (po_set_order O). apply roll_many_q.
  Qed.
  Lemma entries_q r ids d : Forall (fun kv => qv (snd kv) /\ forall l, snd kv = JA l -> Forall qv l) d -> forall parent row s,
    quiet (entries O (parse_value O) r false ids d parent row s) = quiet (entries O' (parse_value O') r false ids d parent row s).
  Proof.
    induction 1 as [|[k v] d [Hv Hl] HF IH]; intros parent row s; [reflexivity|]. cbn [snd] in Hv, Hl. cbn [entries andb]. cbv zeta.
    change (preserve_skips O') with (preserve_skips O). set (s1 := see_path _ s). match goal with |- quiet (if ?b then _ else _) = _ => destruct b end; [apply IH|].
    change (po_xml O') with (po_xml O). change (set_cell O') with (set_cell O). change (join_basic O') with (join_basic O). change (join_arrays O') with (join_arrays O).
    destruct v as [sc|l|d0].
    - destruct (basic sc); [|reflexivity]. destruct (po_xml O && str_eqb k cdata_key); match goal with |- context [set_cell O ?a ?b ?c ?e ?f] => destruct (set_cell O a b c e f) end; apply IH.
    - destruct (forallb jbasic l); [match goal with |- context [set_cell O ?a ?b ?c ?e ?f] => destruct (set_cell O a b c e f) end; apply IH|].
      destruct (forallb inner_array l); [match goal with |- context [set_cell O ?a ?b ?c ?e ?f] => destruct (set_cell O a b c e f) end; apply IH|].
      rewrite rollup_q. apply quiet_bind; [reflexivity|]. intros [s2 row2]. change (sub_sheet_name O' parent k) with (sub_sheet_name O parent k).
      apply quiet_bind; [apply items_q, Hl; reflexivity|]. intros s3. apply IH.
    - apply quiet_bind; [apply Hv|]. intros [s2 row2]. apply IH.
  Qed.
  Lemma qv_all v : qv v /\ forall l, v = JA l -> Forall qv l.
  Proof.
    induction v as [sc|l IH|d IH] using jv_ind'.
    - split; [|discriminate]. intros r parent row ids top s. reflexivity.
    - split; [intros r parent row ids top s; reflexivity|]. intros l' [= <-]. eapply Forall_impl; [|exact IH]. intros v [H _]. exact H.
    - split; [|discriminate]. intros r parent row ids top s. cbn [parse_value]. unfold dict.
      assert (G : exists w, geo O r d parent row s = Ok (inl (false, row, s)) w /\ filter (fun x => negb (no_shapely x)) w = []).
      { unfold geo. rewrite HS. destruct (po_wkt O && shas (u "type") d && shas (u "coordinates") d); eexists; (split; [reflexivity|reflexivity]). }
      destruct G as (w & G & Gw). transitivity (quiet (bind (geo O' r d parent row s) (fun g => match g with inr x => ret x | inl (skip, row1, s1) =>
        if filtered_out O parent d then ret (s1, match row1 with Some x => x | None => [] end) else
        x <- (if top then add_parent_ids O r ids match row1 with Some x => x | None => [] end s1 else ret (s1, match row1 with Some x => x | None => [] end)) ;;
        let (ids', s3) := own_ids O r d parent ids (fst x) in
        y <- entries O (parse_value O) r skip ids' d parent (snd x) s3 ;;
        match row1 with Some _ => ret y | None => match sheet_at r (fst y) with
            | Some sh => let (sh', st) := append_line (snd y) sh (p_store (fst y)) in ret (put_store st (put_sheet r sh' (fst y)), snd y)
            | None => ret y end end end))).
      { apply quiet_bind; [|reflexivity]. rewrite G. cbn [quiet]. rewrite Gw. unfold geo. change (po_wkt O') with false. reflexivity. }
      assert (G' : geo O' r d parent row s = ret (inl (false, row, s))) by (unfold geo; change (po_wkt O') with false; reflexivity).
      rewrite !G', !bind_ret_l. change (filtered_out O' parent d) with (filtered_out O parent d). destruct (filtered_out O parent d); [reflexivity|].
      apply quiet_bind; [destruct top; [rewrite add_ids_eq; reflexivity|reflexivity]|]. intros [s2 row2]. cbn [fst snd].
      change (own_ids O') with (own_ids O). destruct (own_ids O r d parent ids s2) as [ids' s3]. apply quiet_bind; [apply entries_q; exact IH|]. intros y. reflexivity.
  Qed.
  Lemma parse_list_q l : forall num s, quiet (parse_list O num l s) = quiet (parse_list O' num l s).
  Proof.
    induction l as [|v l IH]; intros num s; [reflexivity|].
    destruct v as [[]|m|d]; cbn [parse_list]; try apply IH; apply quiet_bind; try reflexivity; try (intros a; apply IH). apply (proj1 (qv_all (JO d))).
  Qed.
  Lemma flatten_q drop pi l : quiet (flatten O drop pi l) = quiet (flatten O' drop pi l).
  Proof. unfold flatten. change (start O' drop) with (start O drop). apply quiet_bind; [apply parse_list_q|]. intros s. reflexivity. Qed.
End A.
