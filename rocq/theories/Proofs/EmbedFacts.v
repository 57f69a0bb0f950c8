From Verif.Base Require Import PyStr PyNum PyVal PyDict Outcome.
From Verif.Model Require Import Warn Lib Convert Input.
From Verif.Spec Require Import Embed.
From Verif.Proofs Require Import TreeInd.

Definition demb (d e : vdict) : Prop := emb (VDict d) (VDict e).

Section Lemb.
  Context {A : Type} (R : A -> A -> Prop).
  Lemma lemb_refl l : Forall (fun x => R x x) l -> lemb R l l.
  Proof. induction 1; [apply lemb_nil|apply lemb_cons; auto]. Qed.
  Lemma lemb_app l1 m1 l2 m2 : lemb R l1 m1 -> lemb R l2 m2 -> lemb R (l1 ++ l2) (m1 ++ m2).
  Proof.
    induction 1 as [m|y l m H IH|x y l m Hr H IH]; simpl; intros H2.
    - induction m as [|y m IHm]; simpl; [exact H2|apply lemb_skip; exact IHm].
    - apply lemb_skip. auto.
    - apply lemb_cons; auto.
  Qed.
  Lemma lemb_app_r l m n : lemb R l m -> lemb R l (m ++ n).
  Proof. intros H. rewrite <- (app_nil_r l). apply lemb_app; [exact H|apply lemb_nil]. Qed.
  Lemma lemb_app_l l m n : lemb R l m -> lemb R l (n ++ m).
  Proof. intros H. change l with ([] ++ l). apply lemb_app; [apply lemb_nil|exact H]. Qed.
  Lemma lemb_trans l m n :
    (forall x y z, In x l -> R x y -> R y z -> R x z) -> lemb R l m -> lemb R m n -> lemb R l n.
  Proof.
    intros Ht Hlm Hmn. revert l Ht Hlm. induction Hmn as [n|y m n H IH|x y m n Hr H IH]; intros l Ht Hlm.
    - inversion Hlm; subst. apply lemb_nil.
    - apply lemb_skip. apply IH; auto.
    - inversion Hlm; subst.
      + apply lemb_nil.
      + apply lemb_skip. apply IH; auto.
      + apply lemb_cons.
        * eapply Ht; [left; reflexivity|eassumption|eassumption].
        * apply IH; [|assumption]. intros. eapply Ht; [right|..]; eassumption.
  Qed.
End Lemb.

Lemma emb_refl n : emb n n.
Proof.
  induction n as [c|d IH|l IH] using vnode_ind'.
  - constructor.
  - constructor. intros k n Hk. exists n. split; [exact Hk|].
    unfold Pvd in IH. rewrite Forall_forall in IH. apply (IH (k, n)). apply sget_In. exact Hk.
  - constructor. apply lemb_refl. rewrite Forall_forall in *. intros d Hd. specialize (IH d Hd).
    constructor. intros k n Hk. exists n. split; [exact Hk|].
    unfold Pvd in IH. rewrite Forall_forall in IH. apply (IH (k, n)). apply sget_In. exact Hk.
Qed.
Lemma demb_refl d : demb d d.
Proof. apply emb_refl. Qed.

Lemma emb_trans a b c : emb a b -> emb b c -> emb a c.
Proof.
  revert b c. induction a as [v|d IH|l IH] using vnode_ind'; intros b c Hab Hbc.
  - inversion Hab; subst. exact Hbc.
  - inversion Hab as [|? e H1|]; subst. inversion Hbc as [|? f H2|]; subst. constructor.
    intros k n Hk. destruct (H1 k n Hk) as (m & Hm & E1). destruct (H2 k m Hm) as (o & Ho & E2).
    exists o. split; [exact Ho|]. unfold Pvd in IH. rewrite Forall_forall in IH.
    eapply (IH (k, n)); [apply sget_In; exact Hk|exact E1|exact E2].
  - inversion Hab as [| |? m H1]; subst. inversion Hbc as [| |? o H2]; subst. constructor.
    eapply lemb_trans; [|exact H1|exact H2]. intros x y z Hx Hxy Hyz. simpl in *.
    rewrite Forall_forall in IH. specialize (IH x Hx). unfold Pvd in IH. rewrite Forall_forall in IH.
    inversion Hxy as [|? ? G1|]; subst. inversion Hyz as [|? ? G2|]; subst. constructor.
    intros k n Hk. destruct (G1 k n Hk) as (m' & Hm & E1). destruct (G2 k m' Hm) as (o' & Ho & E2).
    exists o'. split; [exact Ho|]. eapply (IH (k, n)); [apply sget_In; exact Hk|exact E1|exact E2].
Qed.
Lemma demb_trans a b c : demb a b -> demb b c -> demb a c.
Proof. apply emb_trans. Qed.

(** Setting a key of a tree dict to something bigger (or new) *)
Lemma demb_sset k n base :
  (forall b, sget k base = Some b -> emb (tv b) (tv n)) -> demb (tvd base) (tvd (sset k n base)).
Proof.
  intros H. constructor. intros k2 m Hk. rewrite sget_tvd in Hk.
  destruct (str_eqb_spec k2 k) as [->|Hne].
  - exists (tv n). rewrite sget_tvd, sget_sset_eq. split; [reflexivity|].
    destruct (sget k base) as [b|]; [|discriminate]. injection Hk as <-. apply H. reflexivity.
  - exists m. rewrite sget_tvd, sget_sset_neq by exact Hne. split; [exact Hk|apply emb_refl].
Qed.

Definition items_emb (l m : list tdict) : Prop := lemb demb (map tvd l) (map tvd m).
Lemma items_emb_refl l : items_emb l l.
Proof. apply lemb_refl. apply Forall_forall. intros; apply demb_refl. Qed.
Lemma items_emb_trans l m n : items_emb l m -> items_emb m n -> items_emb l n.
Proof. apply lemb_trans. intros; eapply demb_trans; eassumption. Qed.

Lemma kset_emb k d (data : list (scalar * tdict)) :
  (forall old, kget k data = Some old -> demb (tvd old) (tvd d)) ->
  items_emb (map snd data) (map snd (kset k d data)).
Proof.
  intros H. destruct (kget k data) as [old|] eqn:E.
  - destruct (kset_old k d data old E) as (a & k' & b & -> & -> & _ & _).
    rewrite !map_app. unfold items_emb. rewrite !map_app. apply lemb_app; [apply items_emb_refl|].
    simpl. apply lemb_cons; [apply H; reflexivity|apply items_emb_refl].
  - rewrite kset_new by exact E. rewrite map_app. unfold items_emb. rewrite map_app.
    apply lemb_app_r. apply items_emb_refl.
Qed.

Section MergeEmb.
  Variable dbg : debug.
  Definition grows (m : str -> tnode -> tdict -> R tdict) (v : tnode) : Prop :=
    forall k base base' w, m k v base = Ok base' w -> demb (tvd base) (tvd base').

  Lemma merge_list_emb m d :
    Forall (fun kv => grows m (snd kv)) d ->
    forall base base' w, merge_list m d base = Ok base' w -> demb (tvd base) (tvd base').
  Proof.
    induction 1 as [|[k v] d Hv Hd IH]; intros base base' w; simpl.
    - intros [= <- <-]. apply demb_refl.
    - intros H. apply bind_ok in H as (b1 & w1 & w2 & H1 & H2 & _).
      eapply demb_trans; [eapply Hv; exact H1|eapply IH; exact H2].
  Qed.
  Lemma merge_data_emb m data :
    Forall (fun kd : scalar * tdict => Forall (fun kv => grows m (snd kv)) (snd kd)) data ->
    forall b b' w, merge_data m data b = Ok b' w -> items_emb (map snd b) (map snd b').
  Proof.
    induction 1 as [|[k d] data Hd Hr IH]; intros b b' w; simpl.
    - intros [= <- <-]. apply items_emb_refl.
    - destruct (kget k b) as [old|] eqn:E; intros H.
      + apply bind_ok in H as (b1 & w1 & w2 & H1 & H2 & _).
        eapply items_emb_trans; [|eapply IH; exact H2]. apply kset_emb. intros o Ho. rewrite E in Ho. injection Ho as <-.
        eapply merge_list_emb; [exact Hd|exact H1].
      + eapply items_emb_trans; [|eapply IH; exact H]. apply kset_emb. congruence.
  Qed.

  Lemma merge_item_emb v : grows (merge_item dbg) v.
  Proof.
    induction v as [c|d IH|data nk IHd IHn] using tnode_ind'; intros k base base' w; cbn [merge_item];
      destruct (sget k base) as [b|] eqn:Eb;
      try (intros [= <- <-]; apply demb_sset; congruence).
    - destruct b as [bc|bd|bdata bnk].
      + destruct (c_val c) as [s|l|l|g] eqn:Ec; try (intros [= <- <-]; apply demb_refl);
          (destruct (cv_eqb _ _); intros [= <- <-]; [|apply demb_refl]);
          (apply demb_sset; intros b0 Hb0; rewrite Eb in Hb0; injection Hb0 as <-; rewrite !tv_cell; constructor).
      + destruct (c_val c); intros [= <- <-]; apply demb_refl.
      + destruct (c_val c); intros [= <- <-]; apply demb_refl.
    - destruct b as [bc|bd|bdata bnk]; try (intros [= <- <-]; apply demb_refl).
      intros H. apply bind_ok in H as (bd' & w1 & w2 & H1 & H2 & _). injection H2 as <- _.
      apply demb_sset. intros b0 Hb0. rewrite Eb in Hb0. injection Hb0 as <-. rewrite !tv_dict.
      eapply merge_list_emb; [exact IH|exact H1].
    - destruct b as [bc|bd|bdata bnk]; try (intros [= <- <-]; apply demb_refl).
      intros H. apply bind_ok in H as (bd' & w1 & w2 & H1 & H2 & _). injection H2 as <- _.
      apply demb_sset. intros b0 Hb0. rewrite Eb in Hb0. injection Hb0 as <-. rewrite !tv_temp. constructor.
      rewrite !map_app. rewrite app_assoc. apply lemb_app_r. apply lemb_app; [|apply items_emb_refl].
      eapply merge_data_emb; [exact IHd|exact H1].
  Qed.
  Lemma merge_emb base m base' w : merge dbg base m = Ok base' w -> demb (tvd base) (tvd base').
  Proof. apply merge_list_emb. apply Forall_forall. intros [k v] _. apply merge_item_emb. Qed.
End MergeEmb.

(** ** The whole run *)
Definition st_items (st : main_state) : list tdict := flat_map (fun rt => temp_items (snd rt)) st.
Definition st_emb (a b : main_state) : Prop := items_emb (st_items a) (st_items b).
Lemma st_emb_refl a : st_emb a a. Proof. apply items_emb_refl. Qed.
Lemma st_emb_trans a b c : st_emb a b -> st_emb b c -> st_emb a c.
Proof. apply items_emb_trans. Qed.

Lemma st_items_app a b : st_items (a ++ b) = st_items a ++ st_items b.
Proof. unfold st_items. apply flat_map_app. Qed.

Lemma kset_st_emb root t st :
  (forall old, kget root st = Some old -> items_emb (temp_items old) (temp_items t)) -> st_emb st (kset root t st).
Proof.
  intros H. unfold st_emb. destruct (kget root st) as [old|] eqn:E.
  - destruct (kset_old root t st old E) as (a & k' & b & -> & -> & _ & _).
    rewrite !st_items_app. simpl. unfold items_emb. rewrite !map_app.
    apply lemb_app; [apply items_emb_refl|]. apply lemb_app; [apply H; reflexivity|apply items_emb_refl].
  - rewrite kset_new by exact E. rewrite st_items_app. unfold items_emb. rewrite map_app.
    apply lemb_app_r. apply items_emb_refl.
Qed.

(** [append] when the key is new (the case used on the main sheet) *)
Lemma temp_append_new_emb xml idn t d t' w :
  temp_append xml idn t d = Ok t' w ->
  (forall k w', item_key xml idn d = Ok (Some k) w' -> kget k (fst t) = None) ->
  items_emb (temp_items t) (temp_items t').
Proof.
  destruct t as [data nk]. unfold temp_append. intros H Hnew.
  apply bind_ok in H as (k & w1 & w2 & H1 & H2 & _).
  destruct k as [k|].
  - specialize (Hnew k w1 H1). cbn [fst] in Hnew. rewrite Hnew in H2. injection H2 as <- _.
    unfold temp_items. cbn [fst snd]. rewrite kset_new by exact Hnew. rewrite map_app. simpl.
    unfold items_emb. rewrite !map_app. apply lemb_app; [|apply items_emb_refl]. apply lemb_app_r. apply items_emb_refl.
  - injection H2 as <- _. unfold temp_items. simpl. unfold items_emb. rewrite !map_app, app_assoc.
    apply lemb_app_r. apply lemb_app; apply items_emb_refl.
Qed.

Section Run.
  Variable O : opts.
  Lemma main_id_item_key d k w : main_id O d = Ok k w -> exists w', item_key (o_xml O) (o_id_name O) d = Ok k w'.
  Proof.
    unfold main_id, item_key. destruct (sget (o_id_name O) d) as [[c|e|data nk]|].
    - intros H; eexists; exact H.
    - destruct (o_xml O); [|discriminate]. destruct (sget text_key e) as [[c|?|? ?]|]; try discriminate.
      intros H; eexists; exact H.
    - destruct (o_xml O); discriminate.
    - intros H; eexists; exact H.
  Qed.

  Lemma place_emb sheet root d st st' w : place O sheet root d st = Ok st' w -> st_emb st st'.
  Proof.
    unfold place. intros H. apply bind_ok in H as (k & w1 & w2 & H1 & H2 & _).
    set (t := match kget root st with Some t => t | None => ([], []) end) in *.
    destruct (match k with Some k0 => _ | None => _ end) as [[k0 old]|] eqn:E.
    - destruct k as [k1|]; [|discriminate]. destruct (kget k1 (fst t)) as [old'|] eqn:G; [|discriminate].
      injection E as -> ->. apply bind_ok in H2 as (new & w3 & w4 & H3 & H4 & _). injection H4 as <- _.
      apply kset_st_emb. intros t0 Ht0. assert (t0 = t) as -> by (unfold t; rewrite Ht0; reflexivity).
      unfold temp_items. simpl. unfold items_emb. rewrite !map_app. apply lemb_app; [|apply items_emb_refl].
      apply kset_emb. intros o Ho. rewrite G in Ho. injection Ho as <-. eapply merge_emb; exact H3.
    - apply bind_ok in H2 as (t' & w3 & w4 & H3 & H4 & _). injection H4 as <- _.
      apply kset_st_emb. intros t0 Ht0. assert (t0 = t) as -> by (unfold t; rewrite Ht0; reflexivity).
      eapply temp_append_new_emb; [exact H3|]. intros k1 w' Hk1.
      destruct (main_id_item_key _ _ _ H1) as (w'' & Hk). rewrite Hk in Hk1. injection Hk1 as -> _.
      destruct (kget k1 (fst t)); [discriminate|reflexivity].
  Qed.
  Lemma do_line_emb sheet hs j line st st' w : do_line O sheet hs j line st = Ok st' w -> st_emb st st'.
  Proof.
    unfold do_line. destruct (forallb _ _); [intros [= <- <-]; apply st_emb_refl|].
    intros H. apply bind_ok in H as (cells & w1 & w2 & H1 & H2 & _).
    apply bind_ok in H2 as (d & w3 & w4 & H3 & H4 & _). eapply place_emb; exact H4.
  Qed.
  Lemma do_lines_emb sheet hs lines : forall j st st' w, do_lines O sheet hs j lines st = Ok st' w -> st_emb st st'.
  Proof.
    induction lines as [|l lines IH]; intros j st st' w; simpl; [intros [= <- <-]; apply st_emb_refl|].
    intros H. apply bind_ok in H as (st1 & w1 & w2 & H1 & H2 & _).
    eapply st_emb_trans; [eapply do_line_emb; exact H1|eapply IH; exact H2].
  Qed.
  Lemma do_sheet_emb s st st' w : do_sheet O s st = Ok st' w -> st_emb st st'.
  Proof.
    unfold do_sheet. destruct (si_headings s) as [[|h hs]|].
    - intros [= <- <-]; apply st_emb_refl.
    - intros H. apply bind_ok in H as (x & w1 & w2 & _ & H2 & _). eapply do_lines_emb; exact H2.
    - apply do_lines_emb.
  Qed.
  Lemma do_sheets_emb l : forall st st' w, do_sheets O l st = Ok st' w -> st_emb st st'.
  Proof.
    induction l as [|s l IH]; intros st st' w; simpl; [intros [= <- <-]; apply st_emb_refl|].
    intros H. apply bind_ok in H as (st1 & w1 & w2 & H1 & H2 & _).
    eapply st_emb_trans; [eapply do_sheet_emb; exact H1|eapply IH; exact H2].
  Qed.
  Lemma do_sheets_app l1 l2 st : do_sheets O (l1 ++ l2) st = bind (do_sheets O l1 st) (do_sheets O l2).
  Proof.
    revert st; induction l1 as [|s l1 IH]; intros st; simpl.
    - destruct (do_sheets O l2 st); reflexivity.
    - destruct (do_sheet O s st) as [a w|e w]; simpl; [|reflexivity]. rewrite IH.
      destruct (do_sheets O l1 a) as [a' w'|e w']; simpl; [|reflexivity].
      destruct (do_sheets O l2 a'); rewrite app_assoc; reflexivity.
  Qed.
  Lemma do_lines_app sheet hs l1 : forall l2 j st,
    do_lines O sheet hs j (l1 ++ l2) st
    = bind (do_lines O sheet hs j l1 st) (do_lines O sheet hs (j + N.of_nat (length l1)) l2).
  Proof.
    induction l1 as [|s l1 IH]; intros l2 j st; simpl length; cbn [do_lines app].
    - rewrite bind_ret_l. f_equal. lia.
    - destruct (do_line O sheet hs j s st) as [a w|e w]; simpl; [|reflexivity]. rewrite IH.
      replace (j + N.pos (Pos.of_succ_nat (length l1)))%N with (j + 1 + N.of_nat (length l1))%N by lia.
      destruct (do_lines O sheet hs (j + 1)%N l1 a) as [a' w'|e w']; simpl; [|reflexivity].
      destruct (do_lines O sheet hs _ l2 a'); rewrite app_assoc; reflexivity.
  Qed.

  Lemma unflatten_items sheets r w :
    unflatten O sheets = Ok r w -> exists st, do_sheets O sheets [] = Ok st w /\ r = map tvd (st_items st).
  Proof.
    unfold unflatten, do_unflatten. intros H.
    apply bind_ok in H as (t & w1 & w2 & H1 & H2 & ->).
    apply bind_ok in H1 as (st & w3 & w4 & H3 & H4 & ->).
    injection H4 as <- <-. injection H2 as <- <-. exists st. rewrite !app_nil_r. split; [exact H3|].
    clear H3. unfold st_items. induction st as [|[r t] st IH]; simpl; [reflexivity|].
    rewrite !map_app. rewrite IH. f_equal. rewrite map_map. apply map_ext. intros d. apply dict_to_v_j.
  Qed.

  (** Output so far embeds in the output after more sheets *)
  Theorem unflatten_sheets_emb l1 l2 r1 w1 r2 w2 :
    unflatten O l1 = Ok r1 w1 -> unflatten O (l1 ++ l2) = Ok r2 w2 -> out_emb r1 r2.
  Proof.
    intros H1 H2. apply unflatten_items in H1 as (st1 & H1 & ->). apply unflatten_items in H2 as (st2 & H2 & ->).
    rewrite do_sheets_app, H1 in H2. simpl in H2.
    destruct (do_sheets O l2 st1) as [st3 w3|] eqn:E; [|discriminate]. injection H2 as <- _.
    constructor. exact (do_sheets_emb _ _ _ _ E).
  Qed.
End Run.

Lemma do_unflatten_items O sheets out w :
  do_unflatten O sheets = Ok out w -> exists st, do_sheets O sheets [] = Ok st w /\ out = map dict_to_j (st_items st).
Proof.
  unfold do_unflatten. intros H. apply bind_ok in H as (st & w3 & w4 & H3 & H4 & ->).
  injection H4 as <- <-. exists st. rewrite !app_nil_r. split; [exact H3|].
  clear H3. unfold st_items. induction st as [|[r t] st IH]; simpl; [reflexivity|]. rewrite map_app, IH. reflexivity.
Qed.

Lemma do_sheet_more O s l st : do_sheet O (more_lines s l) st =
  match do_sheet O s st with
  | Raise e w => Raise e w
  | Ok st1 w => match si_headings s with
                | Some [] => Ok st1 w
                | hs => match do_lines O (si_name s) hs (N.of_nat (length (si_lines s))) l st1 with
                        | Ok st2 w' => Ok st2 (w ++ w')
                        | Raise e w' => Raise e (w ++ w')
                        end
                end
  end.
Proof.
  unfold do_sheet, more_lines. simpl. destruct (si_headings s) as [[|h hs]|]; [reflexivity| |].
  - rewrite do_lines_app. simpl.
    destruct (do_lines O (si_name s) (Some (h :: hs)) 0 (si_lines s) st) as [a w|e w]; simpl; [|reflexivity].
    destruct (do_lines _ _ _ _ l a); rewrite ?app_assoc; reflexivity.
  - rewrite do_lines_app. simpl.
    destruct (do_lines O (si_name s) None 0 (si_lines s) st) as [a w|e w]; simpl; [|reflexivity].
    destruct (do_lines _ _ _ _ l a); reflexivity.
Qed.

Theorem unflatten_continues_emb O a b r1 w1 r2 w2 : continues a b ->
  unflatten O a = Ok r1 w1 -> unflatten O b = Ok r2 w2 -> out_emb r1 r2.
Proof.
  intros Hc H1 H2. destruct Hc as [a b|a s l b]; [eapply unflatten_sheets_emb; eassumption|].
  apply unflatten_items in H1 as (st1 & H1 & ->). apply unflatten_items in H2 as (st2 & H2 & ->).
  constructor. rewrite do_sheets_app in H1, H2. apply bind_ok in H1 as (s1 & v1 & v2 & E1 & H1 & _). rewrite E1 in H2.
  apply bind_ok in H2 as (s2 & v3 & v4 & E2 & H2 & _). injection E2 as <- <-.
  cbn [do_sheets] in H1, H2. apply bind_ok in H1 as (s3 & v5 & v6 & H1 & H3 & _). injection H3 as <- _.
  apply bind_ok in H2 as (s4 & v7 & v8 & H2 & H4 & _).
  apply (st_emb_trans _ s4); [|eapply do_sheets_emb; exact H4].
  rewrite do_sheet_more, H1 in H2.
  assert (G : forall hs, match do_lines O (si_name s) hs (N.of_nat (length (si_lines s))) l s3 with
            | Ok x w' => Ok x (v5 ++ w') | Raise e w' => Raise e (v5 ++ w') end = Ok s4 v7 -> st_emb s3 s4).
  { intros hs. destruct (do_lines O (si_name s) hs (N.of_nat (length (si_lines s))) l s3) as [y w'|e w'] eqn:E; intros H; [|discriminate]. injection H as -> _. eapply do_lines_emb. exact E. }
  destruct (si_headings s) as [[|h hs]|]; [injection H2 as <- _; apply st_emb_refl| |]; eapply G; exact H2.
Qed.
