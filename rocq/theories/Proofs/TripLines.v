(** Lines under titles: what the reader makes of them. *)
From Coq Require Import Permutation Lia.
From Verif.Base Require Import PyStr PyNum PyVal PyDict Outcome.
From Verif.Model Require Import Warn Lib Convert Input Readers Flatten.
From Verif.Spec Require Import Filled Positions RoundTrip.
From Verif.Proofs Require Import ReaderFacts.

(** ** an OrderedDict filled under other headings *)
Lemma kset_map (g : str -> str) (val : str -> scalar) (v : scalar) (x : str) K1 k K2 : NoDup (map g (K1 ++ k :: K2)) -> g k = x ->
  kset (SStr x) v (map (fun k => (SStr (g k), val k)) (K1 ++ k :: K2)) = map (fun k => (SStr (g k), val k)) K1 ++ (SStr x, v) :: map (fun k => (SStr (g k), val k)) K2.
Proof.
  intros Hn E. induction K1 as [|a K1 IH]; cbn [app map].
  - unfold kset. cbn [aset]. rewrite E, py_eqb_str, str_eqb_refl. reflexivity.
  - cbn [app map] in Hn. inversion Hn as [|? ? Ha Hn']; subst. unfold kset. cbn [aset]. rewrite py_eqb_str. destruct (str_eqb_spec (g k) (g a)) as [Q|_].
    + exfalso. apply Ha. rewrite <- Q. apply in_map. apply in_elt.
    + f_equal. apply IH. exact Hn'.
Qed.
Lemma picks (g : str -> str) (H : list str) : exists K, NoDup (map g K) /\ incl K H /\
  (forall h, In h H -> (forall A h' B, H = A ++ h' :: B -> g h' = g h -> h' = h \/ In h B) -> In h K) /\
  forall val : str -> scalar, make_line (map (fun h => (SStr (g h), val h)) H) = map (fun k => (SStr (g k), val k)) K.
Proof.
  induction H as [|h H IH] using rev_ind.
  - exists []. split; [constructor|]. split; [apply incl_refl|]. split; [intros ? []|reflexivity].
  - destruct IH as (K & Hn & Hi & Hl & Hm).
    assert (Hstep : forall val, make_line (map (fun h => (SStr (g h), val h)) (H ++ [h])) = kset (SStr (g h)) (val h) (map (fun k => (SStr (g k), val k)) K)).
    { intros val. rewrite map_app. unfold make_line. rewrite fold_left_app. cbn [map fold_left fst snd]. f_equal. apply Hm. }
    assert (Hold : forall h0, In h0 H -> h0 <> h -> (forall A h' B, H ++ [h] = A ++ h' :: B -> g h' = g h0 -> h' = h0 \/ In h0 B) -> In h0 K /\ g h0 <> g h).
    { intros h0 H0 Ne Hlast. split.
      - apply Hl; [exact H0|]. intros A h' B E Eg. destruct (Hlast A h' (B ++ [h])) as [Q|Q]; [rewrite E, <- app_assoc; reflexivity|exact Eg|left; exact Q|]. right. apply in_app_or in Q as [Q|[Q|[]]]; [exact Q|congruence].
      - intros Q. destruct (Hlast H h [] eq_refl (eq_sym Q)) as [Q'|[]]. congruence. }
    destruct (in_dec (list_eq_dec N.eq_dec) (g h) (map g K)) as [Hin|Hin].
    + apply in_map_iff in Hin as (k & Ek & Hk). apply in_split in Hk as (K1 & K2 & ->). exists (K1 ++ h :: K2).
      assert (Em : map g (K1 ++ h :: K2) = map g (K1 ++ k :: K2)) by (rewrite !map_app; cbn [map]; rewrite Ek; reflexivity).
      split; [rewrite Em; exact Hn|]. split; [|split].
      * intros x Hx. apply in_app_or in Hx as [Hx|[<-|Hx]]; apply in_or_app; [left; apply Hi; apply in_or_app; left; exact Hx|right; left; reflexivity|left; apply Hi; apply in_or_app; right; right; exact Hx].
      * intros h0 H0 Hlast. destruct (list_eq_dec N.eq_dec h0 h) as [-> |Ne]; [apply in_elt|]. apply in_app_or in H0 as [H0|[H0|[]]]; [|congruence].
        destruct (Hold h0 H0 Ne Hlast) as [Q Qg]. apply in_app_or in Q as [Q|[Q|Q]]; apply in_or_app; [left; exact Q|congruence|right; right; exact Q].
      * intros val. rewrite Hstep, (kset_map g val (val h) (g h) K1 k K2 Hn Ek). rewrite map_app. cbn [map]. reflexivity.
    + exists (K ++ [h]). split; [|split; [|split]].
      * rewrite map_app. cbn [map]. apply NoDup_snoc; assumption.
      * intros x Hx. apply in_app_or in Hx as [Hx|Hx]; apply in_or_app; [left; apply Hi; exact Hx|right; exact Hx].
      * intros h0 H0 Hlast. apply in_or_app. destruct (list_eq_dec N.eq_dec h0 h) as [-> |Ne]; [right; left; reflexivity|]. left. apply in_app_or in H0 as [H0|[H0|[]]]; [|congruence]. exact (proj1 (Hold h0 H0 Ne Hlast)).
      * intros val. rewrite Hstep, kset_new; [rewrite map_app; reflexivity|]. apply kget_None_keys. intros k' v' Hk. apply in_map_iff in Hk as (k & E & Hk). injection E as <- <-. rewrite py_eqb_str.
        destruct (str_eqb_spec (g h) (g k)) as [Q|_]; [|reflexivity]. exfalso. apply Hin. rewrite Q. apply in_map. exact Hk.
Qed.

(** ** filled cells, as pairs *)
Definition kv (c : fcell) : scalar * scalar := (fc_key c, fc_value c).
Lemma headed_kv hs : forall line, match hs with Some l => (length line <= length l)%nat | None => True end -> map kv (headed hs line) = line.
Proof.
  intros line. revert hs. induction line as [|[k v] line IH]; intros hs Hl; [reflexivity|]. destruct hs as [[|h hs]|]; cbn [headed map kv fc_key fc_value].
  - cbn [length] in Hl. lia.
  - f_equal. apply IH. cbn [length] in Hl. lia.
  - f_equal. apply (IH None). exact I.
Qed.
Lemma filled_kv hs line : match hs with Some l => (length line <= length l)%nat | None => True end -> map kv (filled hs line) = filter (fun x => negb (blank (snd x))) line.
Proof.
  intros Hl. rewrite <- (headed_kv hs line Hl) at 2. unfold filled. generalize (headed hs line). intros l. induction l as [|c l IH]; [reflexivity|]. cbn [filter map kv snd]. destruct (blank (fc_value c)); cbn [negb map]; [exact IH|f_equal; exact IH].
Qed.
Lemma filter_map_comm {A B} (f : A -> B) (p : B -> bool) l : filter p (map f l) = map f (filter (fun x => p (f x)) l).
Proof. induction l as [|x l IH]; [reflexivity|]. cbn [map filter]. destruct (p (f x)); cbn [map]; rewrite IH; reflexivity. Qed.
Lemma filter_and {A} (p q : A -> bool) l : (forall x, In x l -> p x = true -> q x = true) -> filter p (filter q l) = filter p l.
Proof.
  induction l as [|x l IH]; intros H; [reflexivity|]. cbn [filter]. assert (I : filter p (filter q l) = filter p l) by (apply IH; intros; apply H; [right; assumption|assumption]).
  destruct (q x) eqn:Eq; cbn [filter].
  - destruct (p x); [f_equal|]; exact I.
  - destruct (p x) eqn:Ep; [rewrite (H x (or_introl eq_refl) Ep) in Eq; discriminate|exact I].
Qed.

Section Sheet.
  Variables (P : opts) (write : scalar -> scalar) (b : scalar) (H : list str) (g V : str -> str) (used : str -> bool) (at_ : list str -> option Z).
  Hypothesis Hb : blank b = true.
  Definition cell (row : Flatten.frow) (h : str) : scalar := match sget h row with Some (JS s) => write s | _ => b end.
  Hypothesis Hlast : forall h, In h H -> used h = true -> forall A h' B, H = A ++ h' :: B -> g h' = g h -> h' = h \/ In h B.
  Hypothesis Hinj : forall h h', In h H -> In h' H -> used h = true -> used h' = true -> V h = V h' -> h = h'.
  (** headings and untitled headings name the same fields *)
  Hypothesis Hnames : forall h, In h H -> used h = true -> ~ In [] (path_items (o_conv P) (SStr (V h))) /\
    names (path_items (o_conv P) (SStr (V h))) = names (path_items (o_conv P) (SStr (g h))) /\
    (forall a n, stands (path_items (o_conv P) (SStr (V h))) a n -> at_ a = n) /\ (forall a n, stands (path_items (o_conv P) (SStr (g h))) a n -> n = None).
  Hypothesis Hat : forall a, o_types P (join [slash] a) = u "array" \/ at_ a = None.
  (** the column of the root id *)
  Hypothesis Hroot : o_root_id P = [] \/ exists h, In h H /\ used h = true /\ V h = o_root_id P /\ g h = o_root_id P.

  Lemma kget_map f (K : list str) h (val : str -> scalar) : (forall k, In k K -> f k = f h -> k = h) -> In h K -> kget (SStr (f h)) (map (fun k => (SStr (f k), val k)) K) = Some (val h).
  Proof.
    induction K as [|k K IH]; intros Hi Hin; [destruct Hin|]. cbn [map]. unfold kget. cbn [aget]. rewrite py_eqb_str. destruct (str_eqb_spec (f h) (f k)) as [Q|Q].
    - rewrite (Hi k (or_introl eq_refl) (eq_sym Q)). reflexivity.
    - apply IH; [intros k' Hk'; apply Hi; right; exact Hk'|]. destruct Hin as [->|Hin]; [congruence|exact Hin].
  Qed.

  Theorem same_sheets : exists header', NoDup header' /\ (forall h, In h H -> used h = true -> In (V h) header') /\
    forall (x y : sheet_in) (rows rows' : list Flatten.frow), si_headings x = None -> si_lines x = map (table_line write b header') rows' ->
      si_headings y = None \/ si_headings y = Some (map SStr H) ->
      si_lines y = map (fun r => make_line (map (fun h => (SStr (g h), cell r h)) H)) rows ->
      Forall2 (fun r e => (forall h, In h H -> used h = true -> sget h r = sget (V h) e) /\ forall h, In h H -> used h = false -> sget h r = None) rows rows' ->
      fits x /\ fits y /\ Forall2 (same_but_positions P) (filled_rows P x) (filled_rows P y).
  Proof.
    destruct (picks g H) as (K & Kn & Ki & Kl & Km). set (K' := filter used K).
    assert (HK' : forall k, In k K' -> In k H /\ used k = true) by (intros k Hk; apply filter_In in Hk as [A B]; split; [apply Ki; exact A|exact B]).
    assert (HK2 : forall h, In h H -> used h = true -> In h K') by (intros h A B; apply filter_In; split; [apply Kl; [exact A|exact (Hlast h A B)]|exact B]).
    assert (Kn' : NoDup K) by (apply NoDup_map_inv in Kn; exact Kn).
    assert (Kg : forall k k', In k K -> In k' K -> g k = g k' -> k = k').
    { clear - Kn. intros k k' Hk Hk' E. induction K as [|a K IH]; [destruct Hk|]. cbn [map] in Kn. inversion Kn as [|? ? Ha Hn]; subst. destruct Hk as [->|Hk], Hk' as [->|Hk']; [reflexivity| | |apply IH; assumption].
      - exfalso. apply Ha. rewrite E. apply in_map. exact Hk'.
      - exfalso. apply Ha. rewrite <- E. apply in_map. exact Hk. }
    exists (map V K'). split; [|split].
    - assert (Hn : NoDup K') by (apply NoDup_filter; exact Kn'). clear - Hn HK' Hinj. induction K' as [|k l IH]; [constructor|]. inversion Hn as [|? ? Ha Hn']; subst. cbn [map]. constructor.
      + intros Q. apply in_map_iff in Q as (k' & E & Hk'). destruct (HK' k (or_introl eq_refl)). destruct (HK' k' (or_intror Hk')). apply Ha. rewrite (Hinj k k'); auto.
      + apply IH; [|exact Hn']. intros z Hz. apply HK'. right. exact Hz.
    - intros h A B. apply in_map. apply HK2; assumption.
    - intros x y rows rows' Hx Lx Hy Ly F.
      assert (Fy : fits y).
      { unfold fits. destruct Hy as [-> | ->]; [exact I|]. intros line Hin. rewrite Ly in Hin. apply in_map_iff in Hin as (r & <- & _). etransitivity; [apply make_line_length|]. rewrite !map_length. reflexivity. }
      split; [unfold fits; rewrite Hx; exact I|]. split; [exact Fy|].
      assert (Fr : forall r e, ((forall h, In h H -> used h = true -> sget h r = sget (V h) e) /\ forall h, In h H -> used h = false -> sget h r = None) ->
        let lx := table_line write b (map V K') e in let ly := make_line (map (fun h => (SStr (g h), cell r h)) H) in
        let R := filter (fun k => negb (blank (cell r k))) K' in
        filter (fun z => negb (blank (snd z))) lx = map (fun k => (SStr (V k), cell r k)) R /\ filter (fun z => negb (blank (snd z))) ly = map (fun k => (SStr (g k), cell r k)) R /\ line_root P lx = line_root P ly).
      { intros r e [F1 F2]. cbv zeta. assert (Elx : table_line write b (map V K') e = map (fun k => (SStr (V k), cell r k)) K').
        { unfold table_line. rewrite map_map. apply map_ext_in. intros k Hk. destruct (HK' k Hk) as [A B]. unfold cell. rewrite (F1 k A B). reflexivity. }
        rewrite Elx, Km. rewrite !filter_map_comm. cbn [snd]. split; [reflexivity|]. split.
        - f_equal. unfold K'. symmetry. apply filter_and. intros k Hk Q. destruct (used k) eqn:E; [reflexivity|]. unfold cell in Q. rewrite (F2 k (Ki k Hk) E), Hb in Q. discriminate.
        - unfold line_root. destruct (o_root_id P) as [|c rid] eqn:Er; [reflexivity|]. destruct Hroot as [Q|(h & A & B & C & D)]; [congruence|]. rewrite <- C at 1. rewrite <- D.
          rewrite (kget_map V K' h), (kget_map g K h); [reflexivity| | | |].
          + intros k Hk E. apply Kg; [exact Hk|apply Kl; [exact A|exact (Hlast h A B)]|exact E].
          + apply Kl; [exact A|exact (Hlast h A B)].
          + intros k Hk E. destruct (HK' k Hk). apply Hinj; assumption.
          + apply HK2; assumption. }
      unfold filled_rows. rewrite Hx, Lx, Ly.
      assert (G : Forall2 (same_but_positions P)
        (flat_map (fun line => match filled None line with [] => [] | c => [{| fr_sheet := si_name x; fr_root := line_root P line; fr_cells := c |}] end) (map (table_line write b (map V K')) rows'))
        (flat_map (fun line => match filled (si_headings y) line with [] => [] | c => [{| fr_sheet := si_name y; fr_root := line_root P line; fr_cells := c |}] end) (map (fun r => make_line (map (fun h => (SStr (g h), cell r h)) H)) rows))).
      { clear Lx Ly. revert rows rows' F. assert (Fl : forall r, match si_headings y with Some l => (length (make_line (map (fun h => (SStr (g h), cell r h)) H)) <= length l)%nat | None => True end).
        { intros r. destruct Hy as [-> | ->]; [exact I|]. etransitivity; [apply make_line_length|]. rewrite !map_length. reflexivity. }
        intros rows rows' F. induction F as [|r e rows rows' Fre F IH]; [constructor|]. cbn [map flat_map]. apply Forall2_app; [|exact IH]. clear IH F.
        destruct (Fr r e Fre) as (E1 & E2 & E3). cbv zeta in E1, E2, E3. pose proof (filled_kv None (table_line write b (map V K') e) I) as M1. pose proof (filled_kv (si_headings y) _ (Fl r)) as M2. rewrite E1 in M1. rewrite E2 in M2.
        set (R := filter (fun k => negb (blank (cell r k))) K') in *. revert M1 M2. generalize (filled None (table_line write b (map V K') e)) as c1. generalize (filled (si_headings y) (make_line (map (fun h => (SStr (g h), cell r h)) H))) as c2. intros c2 c1 M1 M2.
        assert (HR : forall k, In k R -> In k H /\ used k = true) by (intros k Hk; apply filter_In in Hk as [Hk _]; apply HK'; exact Hk).
        destruct c1 as [|c1 l1], c2 as [|c2 l2].
        - constructor.
        - destruct R; discriminate.
        - destruct R; discriminate.
        - constructor; [|constructor]. revert M1 M2. generalize (c1 :: l1) as a1. generalize (c2 :: l2) as a2. intros a2 a1 M1 M2. split; [exact E3|]. cbn [fr_cells]. split.
          + clear - M1 M2 HR Hnames. revert a1 a2 M1 M2. induction R as [|k R IH]; intros [|x1 a1] [|x2 a2] M1 M2; try discriminate; [constructor|]. cbn [map] in M1, M2.
            pose proof (f_equal (fun l => hd (SNone, SNone) l) M1) as P1. pose proof (f_equal (fun l => hd (SNone, SNone) l) M2) as P2. cbn [hd] in P1, P2. unfold kv in P1, P2. constructor.
            * injection P1 as Q1 Q2. injection P2 as Q3 Q4. rewrite Q1, Q2, Q3, Q4. split; [reflexivity|]. destruct (HR k (or_introl eq_refl)) as [A B]. destruct (Hnames k A B) as (N1 & N2 & _). auto.
            * apply IH; [intros z Hz; apply HR; right; exact Hz|congruence|congruence].
          + exists at_, (fun _ => None). split; [|split].
            * intros c a n Hc Hs. cbn [fr_cells] in Hc. apply (in_map kv) in Hc. rewrite M1 in Hc. apply in_map_iff in Hc as (k & E & Hk). injection E as E _. rewrite <- E in Hs. destruct (HR k Hk) as [A B]. exact (proj1 (proj2 (proj2 (Hnames k A B))) a n Hs).
            * intros c a n Hc Hs. cbn [fr_cells] in Hc. apply (in_map kv) in Hc. rewrite M2 in Hc. apply in_map_iff in Hc as (k & E & Hk). injection E as E _. rewrite <- E in Hs. destruct (HR k Hk) as [A B]. symmetry. exact (proj2 (proj2 (proj2 (Hnames k A B))) a n Hs).
            * intros a. destruct (Hat a) as [Q|Q]; [left; exact Q|right; rewrite Q; split; reflexivity]. }
      destruct Hy as [Hy|Hy]; rewrite Hy in *; [exact G|]. destruct H as [|h0 H0] eqn:EH; cbn [map] in *; [|exact G].
      (* no headings at all *)
      assert (En : K' = []) by (destruct K' as [|k l]; [reflexivity|destruct (proj1 (HK' k (or_introl eq_refl)))]).
      rewrite En. cbn [map]. clear. induction rows' as [|e rows' IH]; [constructor|exact IH].
  Qed.
End Sheet.
