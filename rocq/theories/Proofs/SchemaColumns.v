(** What the actions of the schema parser are. *)
From Verif.Base Require Import PyStr PyNum PyVal PyDict Outcome.
From Verif.Model Require Import Flatten Titles Schema.
From Verif.Spec Require Import SchemaFields.
From Verif.Proofs Require Import SchemaTrace SchemaRun.

Scheme dict_tr_m := Minimality for dict_tr Sort Prop
  with alts_tr_m := Minimality for alts_tr Sort Prop
  with props_tr_m := Minimality for props_tr Sort Prop
  with prop_tr_m := Minimality for prop_tr Sort Prop.
Combined Scheme trace_ind from dict_tr_m, alts_tr_m, props_tr_m, prop_tr_m.

Lemma typed_object_no_alts v : typed (u "object") v -> forall o, ~ alternatives v o.
Proof.
  intros Ty o (i & (r & d & -> & E) & _). unfold typed, types in Ty. rewrite E in Ty. cbn in Ty. destruct Ty as [Q|[]]. discriminate Q.
Qed.

Section Columns.
  Variable O : sopts.

  (** ** one level *)
  Definition prop_col (n : str) (v : sv) (f : str) (t : option str) : Prop :=
    (exists ty, leaf O v ty /\ f = n /\ t = title_of v) \/
    (an_object O v /\ exists f' t', gives O v f' t' /\ f = n ++ sl ++ f' /\ t = join_title (title_of v) t') \/
    (exists i f' t', objects v i /\ gives O i f' t' /\ rolled_up O v f' /\ f = n ++ zero_sl ++ f' /\ t = join_title (title_of v) t').
  Lemma column_iff S f t : gives O S f t <-> exists n v, property O S n v /\ prop_col n v f t.
  Proof.
    split.
    - intros H. destruct H as [S n v ty Pr L|S n v f t Pr Ob C|S n v i f t Pr Ob C R]; exists n, v; (split; [exact Pr|]).
      + left. eauto.
      + right. left. split; [exact Ob|]. exists f, t. split; [exact C|]. split; reflexivity.
      + right. right. exists i, f, t. split; [exact Ob|]. split; [exact C|]. split; [exact R|]. split; reflexivity.
    - intros (n & v & P & [(ty & L & -> & ->)|[(Ob & f' & t' & C & -> & ->)|(i & f' & t' & Ob & C & R & -> & ->)]]).
      + eapply col_leaf; eauto.
      + exact (col_object O S n v f' t' P Ob C).
      + exact (col_rollup O S n v i f' t' P Ob C R).
  Qed.

  Definition arr (S : sv) (P q : place) (ids : list str) (n : str) (v i : sv) : Prop :=
    exists T, objects_at O S P T q /\ property O T n v /\ objects v i /\ ids = ids_at O T q.
  Definition sub_place (pp : str) (pt : option str) (ids : list str) (n : str) (v : sv) (sep : str) : place :=
    {| at_path := pp ++ n ++ sep; at_titles := sub_title pt (title_of v); at_ids := ids |}.
  Lemma below_eq S P n v sep : below O S P n v sep = sub_place (at_path P) (at_titles P) (ids_at O S P) n v sep.
  Proof. unfold below, sub_place, sub_title. f_equal. Qed.
  Definition prop_arr (P : place) (ids : list str) (n : str) (v : sv) (q : place) (ids' : list str) (m : str) (w i : sv) : Prop :=
    (objects v i /\ q = P /\ ids' = ids /\ m = n /\ w = v) \/
    (an_object O v /\ arr v (sub_place (at_path P) (at_titles P) ids n v sl) q ids' m w i) \/
    (exists j, objects v j /\ arr j (sub_place (at_path P) (at_titles P) ids n v zero_sl) q ids' m w i).
  Lemma arr_iff S P q ids m w i : arr S P q ids m w i <-> exists n v, property O S n v /\ prop_arr P (ids_at O S P) n v q ids m w i.
  Proof.
    split.
    - intros (T & A & Pr & Ob & ->). destruct A as [S P|S P n v T q Pn On An|S P n v j T q Pn On An].
      + exists m, w. split; [exact Pr|]. left. auto.
      + exists n, v. split; [exact Pn|]. right. left. split; [exact On|]. rewrite below_eq in An. exists T. auto.
      + exists n, v. split; [exact Pn|]. right. right. exists j. split; [exact On|]. rewrite below_eq in An. exists T. auto.
    - intros (n & v & Pn & [(Ob & -> & -> & -> & ->)|[(On & T & An & Pr & Ob & ->)|(j & On & T & An & Pr & Ob & ->)]]).
      + exists S. split; [apply oa_here|]. auto.
      + exists T. split; [|auto]. eapply oa_object; [exact Pn|exact On|]. rewrite below_eq. exact An.
      + exists T. split; [|auto]. eapply oa_array; [exact Pn|exact On|]. rewrite below_eq. exact An.
  Qed.

  (** ** the facts *)
  Definition mk (pp : str) (pt : option str) (ids : list str) : place := {| at_path := pp; at_titles := pt; at_ids := ids |}.
  (** no empty names below an object *)
  Definition named_below (S : sv) (P : place) : Prop := forall T q n v, objects_at O S P T q -> property O T n v -> n <> [].
  Definition col_act (q : place) (n : str) (w : sv) (f : str) (t : option str) (c : str) (tt : option str) : Prop :=
    sub_heading O q n w f t c /\ tt = if so_titles O then Some (at_path q ++ n ++ zero_sl ++ f) else None.
  Record facts (tr : list act) (col : str -> option str -> Prop) (ar : place -> list str -> str -> sv -> sv -> Prop) : Prop := {
    f_yield : forall f t, In (AYield f t) tr <-> col f t;
    f_sheet : forall sn, In (ASheet sn) tr <-> exists q ids n w i, ar q ids n w i /\ sn = sheet_of O q n w;
    f_id : forall sn f, (exists lk, In (AId sn f lk) tr) <-> exists q ids n w i, ar q ids n w i /\ sn = sheet_of O q n w /\ In f ids;
    f_col : forall sn c tt, In (ACol sn c tt) tr <-> exists q ids n w i f t, ar q ids n w i /\ sn = sheet_of O q n w /\ gives O i f t /\ col_act q n w f t c tt;
    f_sub : forall k sn, In (ASubTitle k sn) tr <-> so_titles O = true /\ exists q ids n w i a, ar q ids n w i /\ at_titles q = Some a /\ k = (at_path q, n) /\ sn = sheet_of O q n w;
    f_roll : forall p, In (ARoll p) tr <-> exists q ids n w i f t, ar q ids n w i /\ gives O i f t /\ rolled_up O w f /\ p = at_path q ++ n ++ zero_sl ++ f }.

  Lemma facts_nil : facts [] (fun _ _ => False) (fun _ _ _ _ _ => False).
  Proof. split; intros; split; cbn; firstorder. Qed.
  Lemma facts_app t1 t2 c1 c2 a1 a2 : facts t1 c1 a1 -> facts t2 c2 a2 -> facts (t1 ++ t2) (fun f t => c1 f t \/ c2 f t) (fun q ids n w i => a1 q ids n w i \/ a2 q ids n w i).
  Proof.
    intros [A1 A2 A3 A4 A5 A6] [B1 B2 B3 B4 B5 B6]. split.
    - intros f t. rewrite in_app_iff, A1, B1. reflexivity.
    - intros sn. rewrite in_app_iff, A2, B2. split; [intros [(q & ids & n & w & i & H & E)|(q & ids & n & w & i & H & E)]; exists q, ids, n, w, i; auto|].
      intros (q & ids & n & w & i & [H|H] & E); [left|right]; exists q, ids, n, w, i; auto.
    - intros sn f. split.
      + intros (lk & H). apply in_app_iff in H as [H|H].
        * destruct (proj1 (A3 sn f) (ex_intro _ lk H)) as (q & ids & n & w & i & X & Y). exists q, ids, n, w, i. auto.
        * destruct (proj1 (B3 sn f) (ex_intro _ lk H)) as (q & ids & n & w & i & X & Y). exists q, ids, n, w, i. auto.
      + intros (q & ids & n & w & i & [H|H] & E).
        * destruct (proj2 (A3 sn f)) as (lk & X); [exists q, ids, n, w, i; auto|]. exists lk. apply in_or_app. auto.
        * destruct (proj2 (B3 sn f)) as (lk & X); [exists q, ids, n, w, i; auto|]. exists lk. apply in_or_app. auto.
    - intros sn c tt. rewrite in_app_iff, A4, B4. split.
      + intros [(q & ids & n & w & i & f & t & H & E)|(q & ids & n & w & i & f & t & H & E)]; exists q, ids, n, w, i, f, t; auto.
      + intros (q & ids & n & w & i & f & t & [H|H] & E); [left|right]; exists q, ids, n, w, i, f, t; auto.
    - intros k sn. rewrite in_app_iff, A5, B5. split.
      + intros [(Ht & q & ids & n & w & i & a & H & E)|(Ht & q & ids & n & w & i & a & H & E)]; (split; [exact Ht|]); exists q, ids, n, w, i, a; auto.
      + intros (Ht & q & ids & n & w & i & a & [H|H] & E); [left|right]; (split; [exact Ht|]); exists q, ids, n, w, i, a; auto.
    - intros p. rewrite in_app_iff, A6, B6. split.
      + intros [(q & ids & n & w & i & f & t & H & E)|(q & ids & n & w & i & f & t & H & E)]; exists q, ids, n, w, i, f, t; auto.
      + intros (q & ids & n & w & i & f & t & [H|H] & E); [left|right]; exists q, ids, n, w, i, f, t; auto.
  Qed.
  Lemma facts_eq tr c a c' a' : facts tr c a -> (forall f t, c f t <-> c' f t) -> (forall q ids n w i, a q ids n w i <-> a' q ids n w i) -> facts tr c' a'.
  Proof.
    intros [A1 A2 A3 A4 A5 A6] C A. split.
    - intros f t. rewrite A1. apply C.
    - intros sn. rewrite A2. split; intros (q & ids & n & w & i & H & E); exists q, ids, n, w, i; (split; [apply A; exact H|exact E]).
    - intros sn f. rewrite A3. split; intros (q & ids & n & w & i & H & E); exists q, ids, n, w, i; (split; [apply A; exact H|exact E]).
    - intros sn cc tt. rewrite A4. split; intros (q & ids & n & w & i & f & t & H & E); exists q, ids, n, w, i, f, t; (split; [apply A; exact H|exact E]).
    - intros k sn. rewrite A5. split; intros (Ht & q & ids & n & w & i & b & H & E); (split; [exact Ht|]); exists q, ids, n, w, i, b; (split; [apply A; exact H|exact E]).
    - intros p. rewrite A6. split; intros (q & ids & n & w & i & f & t & H & E); exists q, ids, n, w, i, f, t; (split; [apply A; exact H|exact E]).
  Qed.
  (** actions that are neither *)
  Definition other (a : act) : Prop := match a with AType _ _ | ATitle _ _ _ => True | _ => False end.
  Lemma facts_other tr : Forall other tr -> facts tr (fun _ _ => False) (fun _ _ _ _ _ => False).
  Proof.
    intros F. rewrite Forall_forall in F. split.
    - intros f t. split; [intros H; exact (F _ H)|intros []].
    - intros sn. split; [intros H; destruct (F _ H)|intros (q & ids & n & w & i & [] & _)].
    - intros sn f. split; [intros (lk & H); destruct (F _ H)|intros (q & ids & n & w & i & [] & _)].
    - intros sn c tt. split; [intros H; destruct (F _ H)|intros (q & ids & n & w & i & f & t & [] & _)].
    - intros k sn. split; [intros H; destruct (F _ H)|intros (Ht & q & ids & n & w & i & a & [] & _)].
    - intros p. split; [intros H; destruct (F _ H)|intros (q & ids & n & w & i & f & t & [] & _)].
  Qed.
  Lemma other_intable lk t n : Forall other (in_table lk t n).
  Proof. destruct t; repeat constructor. Qed.
  Lemma facts_object n v tr c a : facts tr c a ->
    facts (flat_map (lift_object n (title_of v)) tr) (fun f t => exists f' t', c f' t' /\ f = n ++ sl ++ f' /\ t = join_title (title_of v) t') a.
  Proof.
    intros [A1 A2 A3 A4 A5 A6].
    assert (Q : forall b, match b with AYield _ _ => True | _ => In b (flat_map (lift_object n (title_of v)) tr) <-> In b tr end).
    { intros b. destruct b; try exact I; rewrite in_flat_map; (split; [intros (y & Hy & Hb); destruct y; cbn in Hb; destruct Hb as [Hb|[]]; try discriminate; rewrite <- Hb; exact Hy|intros H; eexists; split; [exact H|left; reflexivity]]). }
    split.
    - intros f t. rewrite in_flat_map. split.
      + intros (y & Hy & Hb). destruct y; cbn in Hb; destruct Hb as [Hb|[]]; try discriminate. injection Hb as <- <-. exists f0, t0. split; [apply A1; exact Hy|auto].
      + intros (f' & t' & H & -> & ->). exists (AYield f' t'). split; [apply A1; exact H|left; reflexivity].
    - intros sn. rewrite (Q (ASheet sn)). apply A2.
    - intros sn f. rewrite <- A3. split; intros (lk & H); exists lk; apply (Q (AId sn f lk)); exact H.
    - intros sn cc tt. rewrite (Q (ACol sn cc tt)). apply A4.
    - intros k sn. rewrite (Q (ASubTitle k sn)). apply A5.
    - intros p. rewrite (Q (ARoll p)). apply A6.
  Qed.

  Lemma sheet_of_eq P n v : sheet_of O P n v = sub_name O (at_path P) (at_titles P) n (title_of v).
  Proof. unfold sheet_of, sub_name. destruct (so_titles O); [destruct (at_titles P)|]; reflexivity. Qed.
  Lemma sub_col_In sn P n v f t b : In b (sub_col O sn (at_path P) n (at_titles P) (title_of v) f t) <-> exists c tt, b = ACol sn c tt /\ col_act P n v f t c tt.
  Proof.
    unfold sub_col, col_act, sub_heading. destruct (so_titles O).
    - destruct t as [x|]; [destruct (at_titles P) as [a|]; [destruct (title_of v) as [b'|]|]|]; cbn [In];
        try (split; [intros []|intros (c & tt & _ & (a0 & b0 & x0 & A & B & C & _) & _); discriminate]).
      split.
      + intros [<-|[]]. eexists _, _. split; [reflexivity|]. split; [|reflexivity]. exists a, b', x. auto.
      + intros (c & tt & -> & (a0 & b0 & x0 & A & B & C & ->) & ->). injection A as <-. injection B as <-. injection C as <-. left. reflexivity.
    - cbn [In]. split; [intros [<-|[]]; eexists _, _; split; [reflexivity|]; split; reflexivity|]. intros (c & tt & -> & -> & ->). left. reflexivity.
  Qed.
  Lemma roll_act_In pp n t up f c b : In b (roll_act pp n t up f c) -> (exists p, b = ARoll p) \/ (b = AYield (n ++ zero_sl ++ f) (join_title t c) /\ up f = true).
  Proof. unfold roll_act. destruct (up f); cbn; [|intros []]. intros [<-|[<-|[]]]; eauto. Qed.

  Lemma facts_objects P n v i up tr a ids lk sn : facts tr (gives O i) a -> objects v i -> (forall f, up f = true <-> rolled_up O v f) -> sn = sheet_of O P n v ->
    facts ((if so_titles O then match at_titles P with Some _ => [ASubTitle (at_path P, n) sn] | None => [] end else []) ++ ASheet sn :: map (fun f => AId sn f lk) ids ++ flat_map (lift_objects O sn (at_path P) n (at_titles P) (title_of v) up) tr)
      (fun f t => exists f' t', gives O i f' t' /\ rolled_up O v f' /\ f = n ++ zero_sl ++ f' /\ t = join_title (title_of v) t')
      (fun q ids' m w j => (q = P /\ ids' = ids /\ m = n /\ w = v /\ j = i) \/ a q ids' m w j).
  Proof.
    intros [A1 A2 A3 A4 A5 A6] Ob Hup Esn. set (pre := if so_titles O then _ else _).
    assert (Pre : forall b, In b pre <-> so_titles O = true /\ (exists a, at_titles P = Some a) /\ b = ASubTitle (at_path P, n) sn).
    { intros b. unfold pre. destruct (so_titles O); [destruct (at_titles P) as [a0|]|]; cbn [In].
      - split; [intros [<-|[]]; eauto|intros (_ & _ & ->); auto].
      - split; [intros []|intros (_ & (a0 & Q) & _); discriminate].
      - split; [intros []|intros (Q & _); discriminate]. }
    assert (NoPre : forall b tl, (forall k s, b <> ASubTitle k s) -> In b (pre ++ tl) <-> In b tl).
    { intros b tl Hb. rewrite in_app_iff, Pre. split; [intros [(_ & _ & ->)|H]; [destruct (Hb _ _ eq_refl)|exact H]|auto]. }
    clearbody pre.
    set (L := lift_objects O sn (at_path P) n (at_titles P) (title_of v) up).
    assert (Q : forall b, match b with AYield _ _ | ACol _ _ _ | ARoll _ => True | _ => In b (flat_map L tr) <-> In b tr end).
    { intros b. destruct b; try exact I; rewrite in_flat_map;
        (split; [intros (y & Hy & Hb); destruct y; cbn [L lift_objects] in Hb; try (destruct Hb as [Hb|[]]; try discriminate; rewrite <- Hb; exact Hy);
                 exfalso; apply in_app_iff in Hb as [Hb|Hb]; [apply sub_col_In in Hb as (? & ? & Hb & _); discriminate|apply roll_act_In in Hb as [(? & Hb)|(Hb & _)]; discriminate]
               |intros H; eexists; split; [exact H|left; reflexivity]]). }
    split.
    - intros f t. rewrite NoPre by discriminate. cbn [In]. rewrite in_app_iff, in_map_iff, in_flat_map. split.
      + intros [H|[(x & H & _)|(y & Hy & Hb)]]; try discriminate. destruct y; cbn [L lift_objects] in Hb; try (destruct Hb as [Hb|[]]; discriminate).
        apply in_app_iff in Hb as [Hb|Hb]; [apply sub_col_In in Hb as (? & ? & Hb & _); discriminate|]. apply roll_act_In in Hb as [(? & Hb)|(Hb & U)]; [discriminate|].
        injection Hb as -> ->. exists f0, t0. split; [apply A1; exact Hy|]. split; [apply Hup; exact U|]. auto.
      + intros (f' & t' & C & R & -> & ->). right. right. exists (AYield f' t'). split; [apply A1; exact C|]. cbn [L lift_objects]. apply in_or_app. right. unfold roll_act. rewrite (proj2 (Hup f') R). right. left. reflexivity.
    - intros s0. rewrite NoPre by discriminate. cbn [In]. rewrite in_app_iff, in_map_iff, (Q (ASheet s0)), A2. split.
      + intros [H|[(x & H & _)|(q & ids' & m & w & j & H & E)]]; [|discriminate|exists q, ids', m, w, j; auto]. injection H as <-. exists P, ids, n, v, i. split; [left; auto|exact Esn].
      + intros (q & ids' & m & w & j & [(-> & -> & -> & -> & ->)|H] & ->); [left; rewrite Esn; reflexivity|]. right. right. exists q, ids', m, w, j. auto.
    - intros s0 f. split.
      + intros (lk' & H). rewrite NoPre in H by discriminate. destruct H as [H|H]; [discriminate|]. apply in_app_iff in H as [H|H].
        * apply in_map_iff in H as (x & H & Hx). injection H as -> -> ->. exists P, ids, n, v, i. split; [left; auto|]. split; [exact Esn|exact Hx].
        * apply (Q (AId s0 f lk')) in H. destruct (proj1 (A3 s0 f) (ex_intro _ lk' H)) as (q & ids' & m & w & j & X & Y). exists q, ids', m, w, j. auto.
      + intros (q & ids' & m & w & j & [(-> & -> & -> & -> & ->)|H] & -> & Hf).
        * exists lk. rewrite NoPre by discriminate. right. apply in_or_app. left. apply in_map_iff. exists f. split; [rewrite Esn; reflexivity|exact Hf].
        * destruct (proj2 (A3 (sheet_of O q m w) f)) as (lk' & X); [exists q, ids', m, w, j; auto|]. exists lk'. rewrite NoPre by discriminate. right. apply in_or_app. right. apply (Q (AId _ f lk')). exact X.
    - intros s0 c tt. rewrite NoPre by discriminate. cbn [In]. rewrite in_app_iff, in_map_iff, in_flat_map. split.
      + intros [H|[(x & H & _)|(y & Hy & Hb)]]; try discriminate. destruct y; cbn [L lift_objects] in Hb; try (destruct Hb as [Hb|[]]; try discriminate).
        * injection Hb as -> -> ->. apply A4 in Hy as (q & ids' & m & w & j & f & t & X & Y). exists q, ids', m, w, j, f, t. auto.
        * apply in_app_iff in Hb as [Hb|Hb]; [|apply roll_act_In in Hb as [(? & Hb)|(Hb & _)]; discriminate]. apply sub_col_In in Hb as (c' & tt' & Hb & CA). injection Hb as -> -> ->.
          exists P, ids, n, v, i, f, t. split; [left; auto|]. split; [exact Esn|]. split; [apply A1; exact Hy|exact CA].
      + intros (q & ids' & m & w & j & f & t & [(-> & -> & -> & -> & ->)|H] & -> & C & CA).
        * right. right. exists (AYield f t). split; [apply A1; exact C|]. cbn [L lift_objects]. apply in_or_app. left. apply sub_col_In. exists c, tt. split; [rewrite Esn; reflexivity|exact CA].
        * right. right. exists (ACol (sheet_of O q m w) c tt). split; [apply A4; exists q, ids', m, w, j, f, t; auto|]. left. reflexivity.
    - intros k s0. rewrite in_app_iff, Pre. cbn [In]. rewrite in_app_iff, in_map_iff, (Q (ASubTitle k s0)), A5. split.
      + intros [(Ht & (a0 & Ha) & [= -> ->])|[H|[(x & H & _)|(Ht & q & ids' & m & w & j & a0 & H & E)]]]; try discriminate; (split; [exact Ht|]).
        * exists P, ids, n, v, i, a0. split; [left; auto|auto].
        * exists q, ids', m, w, j, a0. auto.
      + intros (Ht & q & ids' & m & w & j & a0 & [(-> & -> & -> & -> & ->)|H] & Ha & -> & ->).
        * left. split; [exact Ht|]. split; [eauto|]. rewrite Esn. reflexivity.
        * right. right. right. split; [exact Ht|]. exists q, ids', m, w, j, a0. auto.
    - intros p. rewrite NoPre by discriminate. cbn [In]. rewrite in_app_iff, in_map_iff, in_flat_map. split.
      + intros [H|[(x & H & _)|(y & Hy & Hb)]]; try discriminate. destruct y; cbn [L lift_objects] in Hb; try (destruct Hb as [Hb|[]]; try discriminate).
        * injection Hb as ->. apply A6 in Hy as (q & ids' & m & w & j & f & t & X & Y). exists q, ids', m, w, j, f, t. auto.
        * apply in_app_iff in Hb as [Hb|Hb]; [apply sub_col_In in Hb as (? & ? & Hb & _); discriminate|]. unfold roll_act in Hb. destruct (up f) eqn:U; [|destruct Hb]. destruct Hb as [Hb|[Hb|[]]]; [|discriminate].
          injection Hb as <-. exists P, ids, n, v, i, f, t. split; [left; auto|]. split; [apply A1; exact Hy|]. split; [apply Hup; exact U|reflexivity].
      + intros (q & ids' & m & w & j & f & t & [(-> & -> & -> & -> & ->)|H] & C & R & ->).
        * right. right. exists (AYield f t). split; [apply A1; exact C|]. cbn [L lift_objects]. apply in_or_app. right. unfold roll_act. rewrite (proj2 (Hup f) R). left. reflexivity.
        * right. right. exists (ARoll (at_path q ++ m ++ zero_sl ++ f)). split; [apply A6; exists q, ids', m, w, j, f, t; auto|]. left. reflexivity.
  Qed.

  (** the names used below *)
  Definition named_prop (P : place) (ids : list str) (n : str) (v : sv) : Prop :=
    n <> [] /\ (an_object O v -> named_below v (sub_place (at_path P) (at_titles P) ids n v sl)) /\
    (forall i, objects v i -> named_below i (sub_place (at_path P) (at_titles P) ids n v zero_sl)).
  Lemma named_below_prop S P n v : named_below S P -> property O S n v -> named_prop P (ids_at O S P) n v.
  Proof.
    intros N Pr. split; [exact (N S P n v (oa_here O S P) Pr)|]. split.
    - intros Ob T q m w A. apply (N T q). eapply oa_object; [exact Pr|exact Ob|]. rewrite below_eq. exact A.
    - intros i Ob T q m w A. apply (N T q). eapply oa_array; [exact Pr|exact Ob|]. rewrite below_eq. exact A.
  Qed.

  Definition kept (v : sv) : Prop := so_nodep O = true -> ~ is_deprecated v.
  Lemma kinds_an_object v : an_object O v -> (forall ty, ~ leaf O v ty) /\ (forall i, ~ objects v i).
  Proof.
    intros [Ty NG]. split.
    - intros ty L. destruct L as [_ A|? (A & _) _|? (A & _)|? ? (A & _)|A|A|A|A|A]; contradiction.
    - intros i ((A & _) & _). contradiction.
  Qed.
  Lemma kinds_objects v i : objects v i -> types i <> [] /\ (forall ty, ~ leaf O v ty) /\ ~ an_object O v /\ (forall j, objects v j -> j = i).
  Proof.
    intros ((No & Ta & Ei) & Ty & Ns & Nn & Na). assert (types i <> []) by (intros Q; unfold typed in Ty; rewrite Q in Ty; exact Ty).
    split; [assumption|]. split; [|split].
    - intros ty L. destruct L as [A _|j (_ & _ & Ej) [A|A]|j (_ & _ & Ej) _ A|j k (_ & _ & Ej) _ _ A|_ A|_ A|_ A|_ A|_ A]; try contradiction; pose proof (entry_fun _ _ _ _ Ei Ej) as <-; contradiction.
    - intros [A _]. contradiction.
    - intros j ((_ & _ & Ej) & _). exact (entry_fun _ _ _ _ Ej Ei).
  Qed.

  Theorem trace_facts :
    (forall pp ids pt lk k v tr, dict_tr O pp ids pt lk k v tr -> (forall o, ~ alternatives v o) -> named_below v (mk (slashed pp) pt ids) ->
       facts tr (gives O v) (arr v (mk (slashed pp) pt ids))) /\
    (forall pp ids pt lk k l tr, alts_tr O pp ids pt lk k l tr -> pp = [] -> (forall v, In v l -> entry (u "type") v (VS (SStr (u "object"))) -> named_below v (mk pp pt ids)) ->
       facts tr (fun f t => exists v, In v l /\ entry (u "type") v (VS (SStr (u "object"))) /\ gives O v f t)
         (fun q ids' n w i => exists v, In v l /\ entry (u "type") v (VS (SStr (u "object"))) /\ arr v (mk pp pt ids) q ids' n w i)) /\
    (forall pp ids pt lk k l tr, props_tr O pp ids pt lk k l tr -> forall P, at_path P = pp -> at_titles P = pt -> (forall n v, In (n, v) l -> kept v -> named_prop P ids n v) ->
       facts tr (fun f t => exists n v, In (n, v) l /\ kept v /\ prop_col n v f t)
         (fun q ids' m w i => exists n v, In (n, v) l /\ kept v /\ prop_arr P ids n v q ids' m w i)) /\
    (forall pp ids pt lk k n v tr, prop_tr O pp ids pt lk k n v tr -> forall P, at_path P = pp -> at_titles P = pt -> (kept v -> named_prop P ids n v) ->
       facts tr (fun f t => kept v /\ prop_col n v f t) (fun q ids' m w i => kept v /\ prop_arr P ids n v q ids' m w i)).
  Proof.
    apply trace_ind.
    - intros pp ids pt lk k v l tr A _ _ N. destruct (N _ A).
    - intros pp ids pt lk k v o A _ N. destruct (N _ A).
    - intros pp ids pt lk k v r d tr _ Ep _ IH _ N.
      eapply facts_eq; [apply (IH (mk (slashed pp) pt ids)); [reflexivity|reflexivity|]| |].
      + intros n w Hin Hk. apply named_below_prop; [exact N|]. exists r, d. auto.
      + intros f t. rewrite column_iff. split; intros (n & w & H).
        * destruct H as (H1 & H2 & H3). exists n, w. split; [exists r, d; auto|exact H3].
        * destruct H as ((r' & d' & E & H1 & H2) & H3). pose proof (entry_fun _ _ _ _ Ep E) as Q. injection Q as <- <-. exists n, w. auto.
      + intros q ids' m w i. rewrite arr_iff. split; intros (n & x & H).
        * destruct H as (H1 & H2 & H3). exists n, x. split; [exists r, d; auto|exact H3].
        * destruct H as ((r' & d' & E & H1 & H2) & H3). pose proof (entry_fun _ _ _ _ Ep E) as Q. injection Q as <- <-. exists n, x. auto.
    - intros pp ids pt lk k v _ NP _ _. eapply facts_eq; [apply facts_nil| |].
      + intros f t. split; [intros []|]. intros C. apply column_iff in C as (n & w & (r & d & E & _) & _). exact (NP _ E).
      + intros q ids' m w i. split; [intros []|]. intros C. apply arr_iff in C as (n & x & (r & d & E & _) & _). exact (NP _ E).
    - intros pp ids pt lk k _ _. eapply facts_eq; [apply facts_nil| |]; [intros f t|intros q ids' m w i]; (split; [intros []|intros (v & [] & _)]).
    - intros pp ids pt lk k v l tr Ne _ IH Ep N. eapply facts_eq; [apply IH; [exact Ep|]| |].
      + intros x Hx. apply N. right. exact Hx.
      + intros f t. split; intros (x & Hx & E & H); exists x; (split; [|auto]); [right; exact Hx|]. destruct Hx as [<-|Hx]; [contradiction|exact Hx].
      + intros q ids' m w i. split; intros (x & Hx & E & H); exists x; (split; [|auto]); [right; exact Hx|]. destruct Hx as [<-|Hx]; [contradiction|exact Hx].
    - intros pp ids pt lk k v l t1 t2 E _ IH1 _ IH2 Ep N. subst pp.
      eapply facts_eq; [apply facts_app; [apply IH1|apply IH2]| |].
      + apply typed_object_no_alts. destruct E as (r & d & -> & E). unfold typed, types. rewrite E. left. reflexivity.
      + apply N; [left; reflexivity|exact E].
      + reflexivity.
      + intros x Hx. apply N. right. exact Hx.
      + intros f t. split; [intros [H|(x & Hx & Ex & H)]; [exists v|exists x]; cbn; auto|]. intros (x & [<-|Hx] & Ex & H); [left; exact H|right; exists x; auto].
      + intros q ids' m w i. split; [intros [H|(x & Hx & Ex & H)]; [exists v|exists x]; cbn; auto|]. intros (x & [<-|Hx] & Ex & H); [left; exact H|right; exists x; auto].
    - intros pp ids pt lk k P _ _ _. eapply facts_eq; [apply facts_nil| |]; [intros f t|intros q ids' m w i]; (split; [intros []|intros (n & v & [] & _)]).
    - intros pp ids pt lk k n v l t1 t2 _ IH1 _ IH2 P E1 E2 N.
      eapply facts_eq; [apply facts_app; [apply (IH1 P E1 E2)|apply (IH2 P E1 E2)]| |].
      + intros Hk. apply N; [left; reflexivity|exact Hk].
      + intros m w Hm. apply N. right. exact Hm.
      + intros f t. split; [intros [[Hk H]|(m & w & Hm & Hk & H)]; [exists n, v|exists m, w]; cbn; auto|]. intros (m & w & [Eq|Hm] & Hk & H); [injection Eq as <- <-; left; auto|right; exists m, w; auto].
      + intros q ids' m w i. split; [intros [[Hk H]|(m' & w' & Hm & Hk & H)]; [exists n, v|exists m', w']; cbn; auto|]. intros (m' & w' & [Eq|Hm] & Hk & H); [injection Eq as <- <-; left; auto|right; exists m', w'; auto].
    - intros pp ids pt lk k n v Hn Hd P _ _ _. eapply facts_eq; [apply facts_nil| |]; [intros f t|intros q ids' m w i]; (split; [intros []|intros [Hk _]; exact (Hk Hn Hd)]).
    - intros pp ids pt lk k n v Hk NL NO NA P _ _ _. eapply facts_eq; [apply facts_other, other_intable| |].
      + intros f t. split; [intros []|]. intros [_ [(ty & L & _)|[(Ob & _)|(i & f' & t' & Ob & _)]]]; [exact (NL _ L)|exact (NO Ob)|exact (NA _ Ob)].
      + intros q ids' m w i. split; [intros []|]. intros [_ [(Ob & _)|[(Ob & _)|(j & Ob & _)]]]; [exact (NA _ Ob)|exact (NO Ob)|exact (NA _ Ob)].
    - intros pp ids pt lk k n v ty pre Hk L Hp P _ _ _.
      assert (NO : ~ an_object O v) by (intros Ob; exact (proj1 (kinds_an_object v Ob) _ L)).
      assert (NA : forall i, ~ objects v i) by (intros i Ob; exact (proj1 (proj2 (kinds_objects v i Ob)) _ L)).
      assert (F : facts [AYield n (title_of v)] (fun f t => f = n /\ t = title_of v) (fun _ _ _ _ _ => False)).
      { split.
        - intros f t. cbn. split; [intros [Eq|[]]; injection Eq as <- <-; auto|intros [-> ->]; auto].
        - intros sn. cbn. split; [intros [H|[]]; discriminate|intros (? & ? & ? & ? & ? & [] & _)].
        - intros sn f. cbn. split; [intros (? & [H|[]]); discriminate|intros (? & ? & ? & ? & ? & [] & _)].
        - intros sn c tt. cbn. split; [intros [H|[]]; discriminate|intros (? & ? & ? & ? & ? & ? & ? & [] & _)].
        - intros k0 sn. cbn. split; [intros [H|[]]; discriminate|intros (? & ? & ? & ? & ? & ? & ? & [] & _)].
        - intros p. cbn. split; [intros [H|[]]; discriminate|intros (? & ? & ? & ? & ? & ? & ? & [] & _)]. }
      eapply facts_eq; [apply facts_app; [apply facts_other, other_intable|apply facts_app; [apply facts_other|apply (facts_app [AType (replace zero_sl sl pp ++ n) ty] [AYield n (title_of v)]); [apply facts_other|exact F]]]| |].
      + destruct Hp as [-> | ->]; repeat constructor.
      + repeat constructor.
      + intros f t. split; [intros [[]|[[]|[[]|[-> ->]]]]; split; [exact Hk|]; left; eauto|].
        intros [_ [(ty' & _ & -> & ->)|[(Ob & _)|(i & f' & t' & Ob & _)]]]; [auto 6|contradiction|destruct (NA _ Ob)].
      + intros q ids' m w i. split; [intros [[]|[[]|[[]|[]]]]|]. intros [_ [(Ob & _)|[(Ob & _)|(j & Ob & _)]]]; [destruct (NA _ Ob)|contradiction|destruct (NA _ Ob)].
    - intros pp ids pt lk k n v child tr Hk Ob _ _ IH P E1 E2 N. destruct (N Hk) as (Nn & N1 & _). specialize (N1 Ob). destruct (kinds_an_object v Ob) as (NL & NA).
      assert (Es : mk (slashed (pp ++ n)) (sub_title pt (title_of v)) ids = sub_place (at_path P) (at_titles P) ids n v sl).
      { unfold mk, sub_place. rewrite E1, E2. f_equal. unfold slashed. destruct (pp ++ n) eqn:Q; [apply app_eq_nil in Q as [_ ->]; congruence|]. rewrite <- Q, <- app_assoc. reflexivity. }
      rewrite Es in IH. specialize (IH (typed_object_no_alts v (proj1 Ob)) N1).
      eapply facts_eq; [apply facts_app; [apply facts_other, other_intable|apply (facts_app [AType (pp ++ n) (u "object")]); [apply facts_other; repeat constructor|apply facts_object; exact IH]]| |].
      + intros f t. split; [intros [[]|[[]|H]]; split; [exact Hk|]; right; left; auto|]. intros [_ [(ty' & L & _)|[(_ & H)|(i & f' & t' & A & _)]]]; [destruct (NL _ L)|auto|destruct (NA _ A)].
      + intros q ids' m w i. split; [intros [[]|[[]|H]]; split; [exact Hk|]; right; left; auto|]. intros [_ [(A & _)|[(_ & H)|(j & A & _)]]]; [destruct (NA _ A)|auto|destruct (NA _ A)].
    - intros pp ids pt lk k n v i child up sn tr Hk Ob _ Hup Esn _ IH P E1 E2 N. destruct (N Hk) as (Nn & _ & N1). specialize (N1 i Ob). destruct (kinds_objects v i Ob) as (_ & NL & NO & U).
      assert (Es : mk (slashed (pp ++ n ++ sl ++ [48%N])) (sub_title pt (title_of v)) ids = sub_place (at_path P) (at_titles P) ids n v zero_sl).
      { unfold mk, sub_place. rewrite E1, E2. f_equal. unfold slashed. destruct (pp ++ n ++ sl ++ [48%N]) eqn:Q; [apply app_eq_nil in Q as [_ Q]; apply app_eq_nil in Q as [_ Q]; discriminate|]. rewrite <- Q, <- !app_assoc. reflexivity. }
      rewrite Es in IH. specialize (IH (typed_object_no_alts i (proj1 (proj2 Ob))) N1).
      assert (Esn' : sn = sheet_of O P n v) by (rewrite sheet_of_eq, E1, E2; exact Esn).
      rewrite <- E1, <- E2.
      eapply facts_eq; [apply facts_app; [apply facts_other, other_intable|apply (facts_app [AType (replace zero_sl sl (at_path P) ++ n) (u "array")]); [apply facts_other; repeat constructor|apply facts_objects with (ids := ids) (lk := lk); [exact IH|exact Ob|exact Hup|exact Esn']]]| |].
      + intros f t. split; [intros [[]|[[]|(f' & t' & H)]]; split; [exact Hk|]; right; right; exists i, f', t'; tauto|].
        intros [_ [(ty' & L & _)|[(A & _)|(j & f' & t' & A & H)]]]; [destruct (NL _ L)|contradiction|]. right. right. rewrite (U j A) in H. exists f', t'. exact H.
      + intros q ids' m w j. split.
        * intros [[]|[[]|[(-> & -> & -> & -> & ->)|H]]]; (split; [exact Hk|]); [left; auto|right; right; exists i; auto].
        * intros [_ [(A & -> & -> & -> & ->)|[(A & _)|(j' & A & H)]]]; [|contradiction|]; right; right; [left; rewrite (U j A); auto|right]. rewrite (U j' A) in H. exact H.
  Qed.
End Columns.
