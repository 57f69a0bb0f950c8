(** The program, from its arguments to its end; a way to decide what a line
    says, for the examples. *)
From Verif.Base Require Import PyStr PyNum PyVal PyDict Outcome.
From Verif.Model Require Import Commands Cli.
From Verif.Spec Require Import CommandLine.
From Verif.Proofs Require Import CliWords CliLine CliMeaning CliRun CliAll.
From Coq Require Import Lia.
Local Open Scope N_scope.

(** ** C63 *)
Theorem template_main Wd pre ws gs n :
  Forall loud pre -> line_says template_command ws gs -> inputs gs = [] -> value_of [u "-s"; u "--schema"] gs <> None ->
  only [u "-f"; u "--output-format"] out_formats gs -> cut_at gs n ->
  main Wd (pre ++ u "create-template" :: words_of ws) =
  match create_template Wd (template_meaning gs n) with
  | Ok _ t => (Finished, t)
  | Raise EOSError t => (Reported EOSError, t)
  | Raise e t => (Failed (is_loud pre) e, t)
  end.
Proof.
  intros H1 H2 H3 H4 H5 H6. unfold main. rewrite (template_called pre ws gs n H1 H2 H3 H4 H5 H6). cbn [run_call].
  destruct (create_template Wd (template_meaning gs n)) as [a t|e t]; [reflexivity|]. destruct e; reflexivity.
Qed.
Theorem flatten_main Wd pre ws gs input n :
  Forall loud pre -> line_says flatten_command ws gs -> inputs gs = [input] ->
  only [u "-f"; u "--output-format"] out_formats gs -> cut_at gs n ->
  main Wd (pre ++ u "flatten" :: words_of ws) =
  match flatten_file Wd (flatten_meaning input gs n) with
  | Ok _ t => (Finished, t)
  | Raise e t => (Failed (is_loud pre) e, t)
  end.
Proof.
  intros H1 H2 H3 H4 H5. unfold main. rewrite (flatten_called pre ws gs input n H1 H2 H3 H4 H5). cbn [run_call].
  destruct (flatten_file Wd (flatten_meaning input gs n)) as [a t|e t]; reflexivity.
Qed.
Theorem unflatten_main Wd pre ws gs input :
  Forall loud pre -> line_says unflatten_command ws gs -> inputs gs = [input] -> value_of [u "-f"; u "--input-format"] gs <> None ->
  only [u "-f"; u "--input-format"] in_formats gs ->
  main Wd (pre ++ u "unflatten" :: words_of ws) =
  match unflatten_file Wd (unflatten_meaning input gs) with
  | Ok _ t => (Finished, t)
  | Raise e t => (Failed (is_loud pre) e, t)
  end.
Proof.
  intros H1 H2 H3 H4 H5. unfold main. rewrite (unflatten_called pre ws gs input H1 H2 H3 H4 H5). cbn [run_call].
  destruct (unflatten_file Wd (unflatten_meaning input gs)) as [a t|e t]; reflexivity.
Qed.

(** *** an option that takes the input's name for its own value *)
Lemma exists_last_or {A} (l : list A) : l = [] \/ exists l' x, l = l' ++ [x].
Proof. destruct l as [|a l]; [left; reflexivity|right]. destruct (@exists_last A (a :: l)) as (l' & x & E); [discriminate|]. exists l', x. exact E. Qed.
Lemma line_snoc C ws gs w g : line_says C ws gs -> says C w g -> (forall v, w <> Plain v) -> line_says C (ws ++ [w]) (gs ++ [g]).
Proof.
  intros [H1 H2] Hw Hn. split; [apply Forall2_app; [exact H1|constructor; [exact Hw|constructor]]|].
  intros p x v post E. destruct (exists_last_or post) as [-> |(l & y & ->)].
  - change (p ++ [x; Plain v]) with (p ++ [x] ++ [Plain v]) in E. rewrite app_assoc in E. apply app_inj_tail in E as [_ E]. destruct (Hn v E).
  - apply (H2 p x v l). change (p ++ x :: Plain v :: l ++ [y]) with (p ++ (x :: Plain v :: l) ++ [y]) in E. rewrite app_assoc in E.
    apply app_inj_tail in E as [E _]. exact E.
Qed.
Lemma inputs_app a b : inputs (a ++ b) = inputs a ++ inputs b.
Proof. unfold inputs. apply flat_map_app. Qed.
Theorem rollup_swallows Wd pre ws gs input :
  Forall loud pre -> line_says flatten_command ws gs -> inputs gs = [] -> value_word input ->
  only [u "-f"; u "--output-format"] out_formats gs -> (forall v, In (Value (u "--truncation-length") v) gs -> exists z, parse_int v = Some z) ->
  main Wd (pre ++ u "flatten" :: words_of ws ++ [u "--rollup"; input]) = (UsageShown, []).
Proof.
  intros Hp Hl Hi Hv Hf Hc. unfold main.
  assert (In (u "--rollup") (cm_maybe flatten_command)) as Hm by (left; reflexivity).
  assert (says flatten_command (Apart (u "--rollup") input) (Value (u "--rollup") input)) as Hs.
  { constructor; [|right; exact Hm|exact Hv]. split; [|left; reflexivity]. apply str_mem_In. reflexivity. }
  replace (words_of ws ++ [u "--rollup"; input]) with (words_of (ws ++ [Apart (u "--rollup") input]))
    by (unfold words_of; rewrite flat_map_app; reflexivity).
  rewrite (no_input pre (u "flatten") flatten_parser flatten_command (ws ++ [Apart (u "--rollup") input]) (gs ++ [Value (u "--rollup") input])
             [u "-f"; u "--output-format"] out_formats (u "input_name")); [reflexivity| | | | | | | |].
  - exact flatten_ok.
  - reflexivity.
  - reflexivity.
  - exact Hp.
  - apply line_snoc; [exact Hl|exact Hs|discriminate].
  - rewrite inputs_app, Hi. reflexivity.
  - intros f v Hin. apply in_app_or in Hin as [Hin|[Hin|[]]]; [exact (Hf f v Hin)|]. injection Hin as <- <-. intros [X|[X|[]]]; discriminate X.
  - intros f v Hin. apply in_app_or in Hin as [Hin|[Hin|[]]].
    + intros [<- |[]]. exact (Hc v Hin).
    + injection Hin as <- <-. intros [X|[]]. discriminate X.
Qed.
Theorem schemas_swallow Wd pre ws gs files input :
  Forall loud pre -> line_says unflatten_command ws gs -> inputs gs = [] -> Forall value_word files -> value_word input ->
  only [u "-f"; u "--input-format"] in_formats gs ->
  main Wd (pre ++ u "unflatten" :: words_of ws ++ u "--xml-schema" :: files ++ [input]) = (UsageShown, []).
Proof.
  intros Hp Hl Hi Hf0 Hv Hf. unfold main.
  assert (says unflatten_command (Listed (u "--xml-schema") (files ++ [input])) (Values (u "--xml-schema") (files ++ [input]))) as Hs.
  { constructor; [|left; reflexivity|apply Forall_app; split; [exact Hf0|constructor; [exact Hv|constructor]]]. split; [|left; reflexivity]. apply str_mem_In. reflexivity. }
  replace (words_of ws ++ u "--xml-schema" :: files ++ [input]) with (words_of (ws ++ [Listed (u "--xml-schema") (files ++ [input])]))
    by (unfold words_of; rewrite flat_map_app; cbn [flat_map typed]; rewrite app_nil_r; reflexivity).
  rewrite (no_input pre (u "unflatten") unflatten_parser unflatten_command (ws ++ [Listed (u "--xml-schema") (files ++ [input])]) (gs ++ [Values (u "--xml-schema") (files ++ [input])])
             [u "-f"; u "--input-format"] in_formats (u "input_name")); [reflexivity| | | | | | | |].
  - exact unflatten_ok.
  - reflexivity.
  - reflexivity.
  - exact Hp.
  - apply line_snoc; [exact Hl|exact Hs|discriminate].
  - rewrite inputs_app, Hi. reflexivity.
  - intros f v Hin. apply in_app_or in Hin as [Hin|[Hin|[]]]; [exact (Hf f v Hin)|discriminate Hin].
  - intros f v Hin. apply in_app_or in Hin as [Hin|[Hin|[]]]; [|discriminate Hin]. intros [<- |[]]. exfalso.
    destruct Hl as [Hl _]. clear -Hl Hin. induction Hl as [|w g ws gs Hw _ IH]; [destruct Hin|]. destruct Hin as [-> |Hin]; [|exact (IH Hin)].
    assert (str_mem (u "--truncation-length") (cm_valued unflatten_command ++ cm_maybe unflatten_command) = false) as Hno by reflexivity.
    assert (In (u "--truncation-length") (cm_valued unflatten_command ++ cm_maybe unflatten_command) -> False) as X
      by (intros Y; apply str_mem_In in Y; rewrite Hno in Y; discriminate Y).
    apply X. apply in_or_app. inversion Hw; subst; auto.
Qed.

(** ** C64 *)
Theorem any_main Wd argv e t : main Wd argv = (e, t) ->
  (t = [] /\ (e = UsageShown \/ e = HelpShown
              \/ e = NotModelled /\ (In (u "--") argv \/ exists s z, from_words argv s /\ parse_int s = Some z /\ (z < 0)%Z)))
  \/ exists c, call_stands argv c /\ (forall s, In s (call_texts c) -> In s unused_values \/ from_words argv s)
     /\ ((run_call Wd c = Ok tt t /\ e = Finished)
         \/ (exists x, run_call Wd c = Raise x t /\ exists verbose, e = Failed verbose x)
         \/ (exists C, c = CallTemplate C /\ run_call Wd c = Raise EOSError t /\ e = Reported EOSError)).
Proof.
  unfold main. destruct (call_for argv) as [| | |[[v c]|]] eqn:E; intros H.
  - injection H as <- <-. auto.
  - injection H as <- <-. auto.
  - injection H as <- <-. left. split; [reflexivity|]. right. right. split; [reflexivity|exact (only_outside argv E)].
  - right. exists c. destruct (any_call argv v c E) as [A B]. split; [exact A|]. split; [exact B|].
    destruct (run_call Wd c) as [[] t'|x t'].
    + injection H as <- <-. left. split; reflexivity.
    + right. assert ((e, t) = (Failed v x, t') \/ (exists C, c = CallTemplate C) /\ x = EOSError /\ (e, t) = (Reported EOSError, t')) as [X|((C & ->) & -> & X)].
      { destruct c; try (left; symmetry; exact H). destruct x; try (left; symmetry; exact H). right. split; [eauto|]. split; [reflexivity|symmetry; exact H]. }
      * injection X as -> ->. left. exists x. split; [reflexivity|]. exists v. reflexivity.
      * injection X as -> ->. right. exists C. auto.
  - injection H as <- <-. auto.
Qed.

(** ** Deciding what a line says *)
Definition means_of (C : command) (n : str) : option str :=
  if str_mem n (cm_names C) then Some n
  else if startswith n (u "--") then match filter (fun f => startswith f n) (cm_names C) with [f] => Some f | _ => None end
  else None.
Lemma means_of_ok C n f : means_of C n = Some f -> means C n f.
Proof.
  unfold means_of. destruct (str_mem n (cm_names C)) eqn:E.
  - intros H. injection H as <-. apply str_mem_In in E. split; [exact E|left; reflexivity].
  - destruct (startswith n (u "--")) eqn:Es; [|discriminate]. destruct (filter (fun f => startswith f n) (cm_names C)) as [|a [|b l]] eqn:Ef; try discriminate.
    intros H. injection H as <-.
    assert (forall f', In f' (filter (fun f => startswith f n) (cm_names C)) <-> f' = a) as Ha.
    { intros f'. rewrite Ef. split; [intros [H|[]]; congruence|intros ->; left; reflexivity]. }
    pose proof (proj2 (Ha a) eq_refl) as X. apply filter_In in X as [X1 X2]. split; [exact X1|]. right. split; [|split; [exact Es|split; [exact X2|]]].
    + intros Hin. apply str_mem_In in Hin. rewrite Hin in E. discriminate E.
    + intros f' H1 H2. apply Ha. apply filter_In. split; assumption.
Qed.
Definition value_wordb (v : str) : bool := negb (startswith v (u "-")) || str_eqb v (u "-").
Lemma value_wordb_ok v : value_wordb v = true -> value_word v.
Proof. unfold value_wordb, value_word. intros H. apply orb_true_iff in H as [H|H]; [left; apply negb_true_iff; exact H|right; apply str_eqb_eq; exact H]. Qed.
Definition says_of (C : command) (w : word) : option item :=
  match w with
  | Alone n => match means_of C n with Some f => if str_mem f (cm_switches C ++ cm_maybe C) then Some (Switched f) else None | None => None end
  | Apart n v => match means_of C n with Some f => if str_mem f (cm_valued C ++ cm_maybe C) && value_wordb v then Some (Value f v) else None | None => None end
  | Joined n v => match means_of C n with
                  | Some f => if str_mem f (cm_valued C ++ cm_maybe C) then Some (Value f v)
                              else if str_mem f (cm_lists C) then Some (Values f [v]) else None
                  | None => None
                  end
  | Stuck n v => if str_mem n (cm_valued C) && negb (startswith n (u "--")) && negb (str_eqb v []) && negb (startswith v (u "=")) then Some (Value n v) else None
  | Listed n vs => match means_of C n with Some f => if str_mem f (cm_lists C) && forallb value_wordb vs then Some (Values f vs) else None | None => None end
  | Plain v => if value_wordb v then Some (Input v) else None
  end.
Lemma says_of_ok C w g : says_of C w = Some g -> says C w g.
Proof.
  destruct w as [n|n v|n v|n v|n vs|v]; cbn [says_of].
  - destruct (means_of C n) as [f|] eqn:E; [|discriminate]. destruct (str_mem f _) eqn:Em; [|discriminate]. intros H. injection H as <-.
    constructor; [apply means_of_ok; exact E|]. apply str_mem_In in Em. apply in_app_or in Em. exact Em.
  - destruct (means_of C n) as [f|] eqn:E; [|discriminate]. destruct (str_mem f _) eqn:Em; [|discriminate]. destruct (value_wordb v) eqn:Ev; [|discriminate]. intros H. injection H as <-.
    constructor; [apply means_of_ok; exact E| |apply value_wordb_ok; exact Ev]. apply str_mem_In in Em. apply in_app_or in Em. exact Em.
  - destruct (means_of C n) as [f|] eqn:E; [|discriminate]. destruct (str_mem f (cm_valued C ++ cm_maybe C)) eqn:Em.
    + intros H. injection H as <-. constructor; [apply means_of_ok; exact E|]. apply str_mem_In in Em. apply in_app_or in Em. exact Em.
    + destruct (str_mem f (cm_lists C)) eqn:El; [|discriminate]. intros H. injection H as <-. apply says_joined_list; [apply means_of_ok; exact E|apply str_mem_In; exact El].
  - destruct (str_mem n (cm_valued C)) eqn:E1; [|discriminate]. destruct (startswith n (u "--")) eqn:E2; [discriminate|]. destruct (str_eqb v []) eqn:E3; [discriminate|].
    destruct (startswith v (u "=")) eqn:E4; [discriminate|]. intros H. injection H as <-. constructor; [apply str_mem_In; exact E1|exact E2| |exact E4].
    intros ->. discriminate E3.
  - destruct (means_of C n) as [f|] eqn:E; [|discriminate]. destruct (str_mem f _) eqn:Em; [|discriminate]. destruct (forallb value_wordb vs) eqn:Ev; [|discriminate]. intros H. injection H as <-.
    constructor; [apply means_of_ok; exact E|apply str_mem_In; exact Em|]. apply Forall_forall. intros v Hv. apply value_wordb_ok. exact (proj1 (forallb_forall _ _) Ev v Hv).
  - destruct (value_wordb v) eqn:Ev; [|discriminate]. intros H. injection H as <-. constructor. apply value_wordb_ok. exact Ev.
Qed.
Fixpoint all_said (C : command) (ws : list word) : option (list item) :=
  match ws with
  | [] => Some []
  | w :: ws' => match says_of C w, all_said C ws' with Some g, Some gs => Some (g :: gs) | _, _ => None end
  end.
Definition open_endedb (C : command) (w : word) : bool :=
  match w with
  | Alone n => existsb (fun f => str_mem f (cm_maybe C)) (filter (fun f => startswith f n) (cm_names C))
  | Listed _ _ => true
  | _ => false
  end.
Lemma open_endedb_ok C w : open_endedb C w = false -> ~ open_ended C w.
Proof.
  destruct w as [n|n v|n v|n v|n vs|v]; cbn [open_endedb open_ended]; try (intros _ []; fail); [|discriminate].
  intros H (f & [Hf Hm] & Hb). assert (startswith f n = true) as Hs.
  { destruct Hm as [-> |(_ & _ & X & _)]; [|exact X]. rewrite <- (app_nil_r f) at 1. apply startswith_app. }
  assert (existsb (fun f => str_mem f (cm_maybe C)) (filter (fun f => startswith f n) (cm_names C)) = true) as X.
  { apply existsb_exists. exists f. split; [apply filter_In; split; assumption|apply str_mem_In; exact Hb]. }
  rewrite H in X. discriminate X.
Qed.
Fixpoint spaced (C : command) (ws : list word) : bool :=
  match ws with
  | [] => true
  | w :: ws' => match ws' with Plain _ :: _ => negb (open_endedb C w) | _ => true end && spaced C ws'
  end.
Lemma spaced_ok C ws : spaced C ws = true -> forall pre w v post, ws = pre ++ w :: Plain v :: post -> ~ open_ended C w.
Proof.
  induction ws as [|x ws IH]; intros H pre w v post E; [destruct pre; discriminate E|]. cbn [spaced] in H. apply andb_true_iff in H as [H1 H2].
  destruct pre as [|y pre]; injection E as -> ->; [|exact (IH H2 pre w v post eq_refl)]. apply open_endedb_ok. apply negb_true_iff. exact H1.
Qed.
Theorem line_decided C ws gs : all_said C ws = Some gs -> spaced C ws = true -> line_says C ws gs.
Proof.
  intros H1 H2. split; [|exact (spaced_ok C ws H2)]. clear H2. revert gs H1. induction ws as [|w ws IH]; intros gs H; cbn [all_said] in H; [injection H as <-; constructor|].
  destruct (says_of C w) as [g|] eqn:E; [|discriminate]. destruct (all_said C ws) as [gs'|]; [|discriminate]. injection H as <-.
  constructor; [apply says_of_ok; exact E|apply IH; reflexivity].
Qed.
Definition onlyb (names ok : list str) (gs : list item) : bool :=
  forallb (fun g => match g with Value f v => negb (str_mem f names) || str_mem v ok | _ => true end) gs.
Lemma onlyb_ok names ok gs : onlyb names ok gs = true -> only names ok gs.
Proof.
  intros H f v Hin Hf. pose proof (proj1 (forallb_forall _ _) H _ Hin) as X. cbv beta iota in X. apply str_mem_In in Hf. rewrite Hf in X. apply str_mem_In. exact X.
Qed.
Definition cut_atb (gs : list item) (n : nat) : bool :=
  forallb (fun g => match g with Value f v => negb (str_eqb f (u "--truncation-length")) || match parse_int v with Some _ => true | None => false end | _ => true end) gs
  && match value_of [u "--truncation-length"] gs with Some v => match parse_int v with Some z => Z.eqb z (Z.of_nat n) | None => false end | None => Nat.eqb n 3 end.
Lemma cut_atb_ok gs n : cut_atb gs n = true -> cut_at gs n.
Proof.
  intros H. apply andb_true_iff in H as [H1 H2]. split.
  - intros f v Hin [<- |[]]. pose proof (proj1 (forallb_forall _ _) H1 _ Hin) as X. cbv beta iota in X. rewrite str_eqb_refl in X. destruct (parse_int v) as [z|]; [exists z; reflexivity|discriminate X].
  - destruct (value_of [u "--truncation-length"] gs) as [v|]; [|apply Nat.eqb_eq; exact H2]. destruct (parse_int v) as [z|]; [|discriminate]. apply Z.eqb_eq in H2. rewrite H2. reflexivity.
Qed.
