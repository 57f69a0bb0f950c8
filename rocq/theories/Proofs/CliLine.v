(** A line of words is parsed as the things it says, one after the other. *)
From Verif.Base Require Import PyStr PyNum PyVal PyDict Outcome.
From Verif.Model Require Import Commands Cli.
From Verif.Spec Require Import CommandLine.
From Verif.Proofs Require Import CliWords.
From Coq Require Import Lia.
Local Open Scope N_scope.

Definition done (st : pstate) (r : presult pstate) : pstate := match r with PDone s => s | _ => st end.
Definition act (P : aparser) (st : pstate) (f : str) (args : list str) : pstate :=
  match find_opt P f with Some o => done st (take_action st o args) | None => st end.
Definition step (P : aparser) (st : pstate) (g : item) : pstate :=
  match g with
  | Switched f => act P st f []
  | Value f v => act P st f [v]
  | Values f vs => act P st f vs
  | Input v => consume_positional st v
  end.
Definition item_ok (P : aparser) (g : item) : Prop :=
  match g with
  | Value f v => exists o x, find_opt P f = Some o /\ get_value o v = Some x
  | _ => True
  end.
Definition no_arg_first (P : aparser) (rest : list str) : Prop :=
  match rest with [] => True | t :: _ => is_arg (classify P t) = false end.

Lemma parse_skip P st l rest :
  parse_words P st (List.length l) (classified P (l ++ rest)) = parse_words P st O (classified P rest).
Proof.
  induction l as [|x l IH]; [reflexivity|]. cbn [List.length app]. unfold classified in *. cbn [map parse_words]. exact IH.
Qed.
Lemma get_values_plain o vs : ao_int o = false -> ao_choices o = None -> get_values o vs = Some (map AStr vs).
Proof.
  intros H1 H2. induction vs as [|v vs IH]; [reflexivity|]. cbn [get_values map]. unfold get_value at 1. rewrite H1, H2, IH. reflexivity.
Qed.
Lemma leading_all P C vs rest : table_okb P C = true -> Forall value_word vs -> no_arg_first P rest ->
  leading_args (classified P (vs ++ rest)) = vs.
Proof.
  intros HT Hv Hr. induction Hv as [|v vs Hv _ IH].
  - cbn [app]. destruct rest as [|t rest]; [reflexivity|]. unfold classified. cbn [map leading_args]. cbn in Hr.
    destruct (classify P t); try reflexivity. discriminate Hr.
  - cbn [app]. unfold classified. cbn [map leading_args]. rewrite (classify_value P C v HT Hv). f_equal. exact IH.
Qed.

(** an option whose text follows in other words *)
Lemma opt_follow P st n f o args rest st' :
  classify P n = COpt f o false None -> follow o (classified P (args ++ rest)) = Some args ->
  take_action st o args = PDone st' ->
  parse_words P st O (classified P (n :: args ++ rest)) = parse_words P st' O (classified P rest).
Proof.
  intros Hc Hf Ht. unfold classified in *. cbn [map parse_words]. rewrite Hc. unfold consume_optional. rewrite Hf.
  cbn [option_map app take_actions]. rewrite Ht. cbv iota beta. exact (parse_skip P st' args rest).
Qed.
(** an option with its text in the same word *)
Lemma opt_explicit P st n f o sep v rest st' :
  classify P n = COpt f o sep (Some v) -> no_args o = false -> take_action st o [v] = PDone st' ->
  parse_words P st O (classified P (n :: rest)) = parse_words P st' O (classified P rest).
Proof.
  intros Hc Hn Ht. unfold classified in *. cbn [map parse_words]. rewrite Hc. unfold consume_optional.
  assert (forall short, unpack P o short sep v = Some ([(o, [v])], None, false)) as E.
  { intros short. destruct v; cbn [unpack]; rewrite Hn; reflexivity. }
  rewrite E. cbn [app take_actions]. rewrite Ht. reflexivity.
Qed.

Lemma no_args_kind o : ao_kind o = KOne \/ ao_kind o = KMaybe \/ ao_kind o = KMany -> no_args o = false.
Proof. intros [H|[H|H]]; unfold no_args; rewrite H; reflexivity. Qed.

Lemma take_value P C st f v : table_okb P C = true -> In f (cm_valued C) \/ In f (cm_maybe C) -> item_ok P (Value f v) ->
  exists o, find_opt P f = Some o /\ (ao_kind o = KOne \/ ao_kind o = KMaybe) /\ take_action st o [v] = PDone (act P st f [v]).
Proof.
  intros HT Hf (o & x & Ho & Hx). exists o. split; [exact Ho|].
  assert (ao_kind o = KOne \/ ao_kind o = KMaybe) as K.
  { destruct Hf as [Hf|Hf]; [destruct (valued_kind P C HT f Hf) as (o' & E & K)|destruct (maybe_kind P C HT f Hf) as (o' & E & K & _)];
      rewrite Ho in E; injection E as <-; [left|right]; exact K. }
  split; [exact K|]. unfold act. rewrite Ho. unfold take_action. destruct K as [-> | ->]; rewrite Hx; reflexivity.
Qed.

Lemma word_step P C w g st rest :
  table_okb P C = true -> says C w g -> item_ok P g -> (open_ended C w -> no_arg_first P rest) ->
  parse_words P st O (classified P (typed w ++ rest)) = parse_words P (step P st g) O (classified P rest).
Proof.
  intros HT Hs Hi Ho. destruct Hs as [n f Hm Hf|n f v Hm Hf Hv|n f v Hm Hf|n f v Hm Hf|n v Hf Hd Hv Hq|n f vs Hm Hf Hv|v Hv]; cbn [typed step].
  - destruct (means_class P C HT n f Hm) as (o & Eo & Hc & _).
    apply (opt_follow P st n f o [] rest); [exact Hc| |].
    + destruct Hf as [Hf|Hf].
      * destruct (switch_kind P C HT f Hf) as (o' & E & K). rewrite Eo in E. injection E as <-. unfold follow. rewrite K. reflexivity.
      * destruct (maybe_kind P C HT f Hf) as (o' & E & K & _). rewrite Eo in E. injection E as <-. unfold follow. rewrite K.
        assert (no_arg_first P rest) as Hr by (apply Ho; exists f; split; assumption).
        destruct rest as [|t rest]; [reflexivity|]. cbn in Hr. unfold classified. cbn [app map]. destruct (classify P t); try reflexivity. discriminate Hr.
    + unfold act. rewrite Eo. destruct Hf as [Hf|Hf].
      * destruct (switch_kind P C HT f Hf) as (o' & E & K). rewrite Eo in E. injection E as <-. unfold take_action. rewrite K. reflexivity.
      * destruct (maybe_kind P C HT f Hf) as (o' & E & K & _). rewrite Eo in E. injection E as <-. unfold take_action. rewrite K. reflexivity.
  - destruct (means_class P C HT n f Hm) as (o & Eo & Hc & _).
    destruct (take_value P C st f v HT Hf Hi) as (o' & E & K & Ht). rewrite Eo in E. injection E as <-.
    apply (opt_follow P st n f o [v] rest); [exact Hc| |exact Ht].
    unfold follow, classified. cbn [app map]. rewrite (classify_value P C v HT Hv). destruct K as [-> | ->]; reflexivity.
  - destruct (classify_joined P C HT n f v Hm) as (o & Eo & Hc).
    destruct (take_value P C st f v HT Hf Hi) as (o' & E & K & Ht). rewrite Eo in E. injection E as <-.
    apply (opt_explicit P st _ f o true v rest); [exact Hc| |exact Ht]. apply no_args_kind. destruct K; auto.
  - destruct (classify_joined P C HT n f v Hm) as (o & Eo & Hc).
    destruct (list_kind P C HT f Hf) as (o' & E & K & K1 & K2). rewrite Eo in E. injection E as <-.
    apply (opt_explicit P st _ f o true v rest); [exact Hc|apply no_args_kind; auto|].
    unfold act. rewrite Eo. unfold take_action. rewrite K, (get_values_plain o [v] K1 K2). reflexivity.
  - assert (In n (all_flags P)) as Hn.
    { apply (table_parts P C HT). unfold cm_names. rewrite !in_app_iff. auto. }
    destruct (classify_stuck P C HT n v Hn Hd Hv Hq) as (o & Eo & Hc).
    destruct (take_value P C st n v HT (or_introl Hf) Hi) as (o' & E & K & Ht). rewrite Eo in E. injection E as <-.
    apply (opt_explicit P st _ n o false v rest); [exact Hc| |exact Ht]. apply no_args_kind. destruct K; auto.
  - destruct (means_class P C HT n f Hm) as (o & Eo & Hc & _).
    destruct (list_kind P C HT f Hf) as (o' & E & K & K1 & K2). rewrite Eo in E. injection E as <-.
    apply (opt_follow P st n f o vs rest); [exact Hc| |].
    + unfold follow. rewrite K. f_equal. apply (leading_all P C); [exact HT|exact Hv|exact (Ho I)].
    + unfold act. rewrite Eo. unfold take_action. rewrite K, (get_values_plain o vs K1 K2). reflexivity.
  - unfold classified. cbn [app map parse_words]. rewrite (classify_value P C v HT Hv). reflexivity.
Qed.

(** the first word of what follows is the input's name or an option *)
Lemma first_no_arg P C w g rest : table_okb P C = true -> says C w g -> (forall v, w <> Plain v) -> no_arg_first P (typed w ++ rest).
Proof.
  intros HT Hs Hp. destruct Hs as [n f Hm Hf|n f v Hm Hf Hv|n f v Hm Hf|n f v Hm Hf|n v Hf Hd Hv Hq|n f vs Hm Hf Hv|v Hv]; cbn [typed app no_arg_first].
  1,2,6: destruct (means_class P C HT n f Hm) as (o & _ & Hc & _); rewrite Hc; reflexivity.
  1,2: destruct (classify_joined P C HT n f v Hm) as (o & _ & Hc); rewrite Hc; reflexivity.
  - assert (In n (all_flags P)) as Hn.
    { apply (table_parts P C HT). unfold cm_names. rewrite !in_app_iff. auto. }
    destruct (classify_stuck P C HT n v Hn Hd Hv Hq) as (o & _ & Hc). rewrite Hc. reflexivity.
  - destruct (Hp v). reflexivity.
Qed.

Theorem line_parsed P C ws gs st :
  table_okb P C = true -> line_says C ws gs -> Forall (item_ok P) gs ->
  parse_words P st O (classified P (words_of ws)) = PDone (fold_left (step P) gs st).
Proof.
  intros HT [Hs Ha] Hi. revert st. induction Hs as [|w g ws gs Hw Hs IH]; intros st; [reflexivity|].
  apply Forall_cons_iff in Hi as [Hi1 Hi2]. unfold words_of. cbn [flat_map fold_left]. fold (words_of ws).
  rewrite (word_step P C w g st (words_of ws) HT Hw Hi1).
  - apply IH; [|exact Hi2]. intros pre w' v post ->. apply (Ha (w :: pre) w' v post). reflexivity.
  - intros Hop. destruct ws as [|w' ws]; [exact I|]. inversion Hs as [|? g' ? gs' Hw' Hs']; subst.
    unfold words_of. cbn [flat_map]. apply (first_no_arg P C w' g'); [exact HT|exact Hw'|].
    intros v ->. apply (Ha [] w v ws eq_refl). exact Hop.
Qed.
(** and none of its words is ambiguous, for the subparser or the main one, or "--" *)
Definition fine_word (P : aparser) (t : str) : Prop :=
  unclear (classify P t) = false /\ unclear (classify main_parser t) = false /\ t <> u "--".
Lemma value_fine P C v : table_okb P C = true -> value_word v -> fine_word P v.
Proof.
  intros HT Hv. repeat split; [rewrite (classify_value P C v HT Hv); reflexivity|rewrite (main_value v Hv); reflexivity|].
  intros ->. destruct Hv as [Hv|Hv]; discriminate Hv.
Qed.
Lemma name_shape_clear (n t : str) :
  ((exists c, n = [dash; c] /\ c <> dash) \/ (exists c t, n = dash :: dash :: c :: t)) ->
  existsb (N.eqb equals) n = false ->
  unclear (classify main_parser (n ++ t)) = false /\ n ++ t <> u "--".
Proof.
  intros Hn He. split.
  - apply main_clear. destruct Hn as [(c & -> & Hc)|(c & t' & ->)].
    + left. exists c, t. split; [reflexivity|exact Hc].
    + right. exists c, (t' ++ t). split; [reflexivity|]. cbn [existsb] in He. do 2 (apply orb_false_iff in He as [_ He]).
      apply orb_false_iff in He as [He _]. apply N.eqb_neq in He. congruence.
  - intros E. destruct Hn as [(c & -> & Hc)|(c & t' & ->)].
    + change (u "--") with [dash; dash] in E. inversion E. contradiction.
    + discriminate E.
Qed.
Lemma says_fine P C w g : table_okb P C = true -> says C w g -> Forall (fine_word P) (typed w).
Proof.
  intros HT Hs. destruct Hs as [n f Hm Hf|n f v Hm Hf Hv|n f v Hm Hf|n f v Hm Hf|n v Hf Hd Hv Hq|n f vs Hm Hf Hv|v Hv]; cbn [typed].
  1,2,6: destruct (means_class P C HT n f Hm) as (o & _ & Hc & He & Hn);
    destruct (name_shape_clear n [] Hn He) as [H1 H2]; rewrite app_nil_r in H1, H2;
    (constructor; [split; [rewrite Hc; reflexivity|split; assumption]|]).
  - constructor.
  - constructor; [exact (value_fine P C v HT Hv)|constructor].
  - apply Forall_forall. intros v Hin. apply (value_fine P C v HT). exact (proj1 (Forall_forall _ _) Hv v Hin).
  - destruct (classify_joined P C HT n f v Hm) as (o & _ & Hc). destruct (means_class P C HT n f Hm) as (_ & _ & _ & He & Hn).
    destruct (name_shape_clear n (u "=" ++ v) Hn He) as [H1 H2]. constructor; [|constructor]. split; [rewrite Hc; reflexivity|split; assumption].
  - destruct (classify_joined P C HT n f v Hm) as (o & _ & Hc). destruct (means_class P C HT n f Hm) as (_ & _ & _ & He & Hn).
    destruct (name_shape_clear n (u "=" ++ v) Hn He) as [H1 H2]. constructor; [|constructor]. split; [rewrite Hc; reflexivity|split; assumption].
  - assert (In n (all_flags P)) as Hn.
    { apply (table_parts P C HT). unfold cm_names. rewrite !in_app_iff. auto. }
    destruct (classify_stuck P C HT n v Hn Hd Hv Hq) as (o & _ & Hc). destruct (flag_shape P C HT n Hn) as [He Hsh].
    destruct (name_shape_clear n v Hsh He) as [H1 H2]. constructor; [|constructor]. split; [rewrite Hc; reflexivity|split; assumption].
  - constructor; [exact (value_fine P C v HT Hv)|constructor].
Qed.
Lemma line_fine P C ws gs : table_okb P C = true -> Forall2 (says C) ws gs -> Forall (fine_word P) (words_of ws).
Proof.
  intros HT H. induction H as [|w g ws gs Hw _ IH]; [constructor|]. unfold words_of. cbn [flat_map]. apply Forall_app. split; [|exact IH].
  exact (says_fine P C w g HT Hw).
Qed.
