(** CSV files: written and read back. *)
From Coq Require Import Lia Sorted Permutation.
From Verif.Base Require Import PyStr PyNum PyVal PyDict Outcome.
From Verif.Model Require Import Warn Lib Convert Input Flatten Readers Csv Ods Output.
From Verif.Spec Require Import Grids CsvText Written.
From Verif.Proofs Require Import FormatFacts CsvFacts OutputFacts.

Lemma fresh_fold {A} (f : A -> str * str) : forall l acc, NoDup (map fst acc ++ map (fun x => fst (f x)) l) ->
  fold_left (fun fs x => sset (fst (f x)) (snd (f x)) fs) l acc = acc ++ map f l.
Proof.
  induction l as [|x l IH]; intros acc D; cbn [fold_left map]; [rewrite app_nil_r; reflexivity|].
  assert (N : ~ In (fst (f x)) (map fst acc)). { intros Q. cbn [map] in D. apply NoDup_remove_2 in D. apply D. apply in_or_app. left. exact Q. }
  rewrite (sset_new (fst (f x)) (snd (f x)) acc) by (apply sget_None; exact N). rewrite IH.
  - rewrite <- app_assoc. cbn [app]. rewrite <- surjective_pairing. reflexivity.
  - rewrite map_app. cbn [map fst]. rewrite <- app_assoc. exact D.
Qed.
Lemma strip_prefix_app p s : strip_prefix p (p ++ s) = Some s.
Proof. induction p as [|c p IH]; [reflexivity|]. cbn. rewrite N.eqb_refl. exact IH. Qed.
Lemma mem_c_false c l : ~ In c l -> mem_c c l = false.
Proof. intros H. unfold mem_c. destruct (existsb (N.eqb c) l) eqn:E; [|reflexivity]. apply existsb_exists in E as (d & Hd & Q). apply N.eqb_eq in Q as ->. contradiction. Qed.
Lemma in_dir_path d n : ~ In slash n -> n <> [] -> in_dir d (dir_prefix d ++ n) = Some n.
Proof. intros H N. unfold in_dir. rewrite strip_prefix_app, (mem_c_false _ _ H). destruct n; [contradiction|reflexivity]. Qed.
(** a name without slashes is a file of the directory *)
Definition csv_name (W : wopts) (x : table) : str := w_prefix W ++ tb_name x ++ u ".csv".
Lemma csv_path_inside W x : ~ In slash (w_prefix W ++ tb_name x) -> csv_path W x = dir_prefix (w_output W) ++ csv_name W x.
Proof.
  intros H. unfold csv_path, path_join. fold (csv_name W x). destruct (startswith (csv_name W x) [slash]) eqn:E; [|reflexivity]. exfalso.
  apply startswith_spec in E as (t & Q). cbn in Q. unfold csv_name in Q. destruct (w_prefix W ++ tb_name x) as [|c s] eqn:P.
  - apply app_eq_nil in P as [P1 P2]. rewrite P1, P2 in Q. discriminate Q.
  - rewrite app_assoc, P in Q. injection Q as -> _. apply H. left. reflexivity.
Qed.
Lemma csv_name_noslash W x : ~ In slash (w_prefix W ++ tb_name x) -> ~ In slash (csv_name W x) /\ csv_name W x <> [].
Proof.
  intros H. unfold csv_name. split.
  - rewrite app_assoc, in_app_iff. intros [Q|Q]; [exact (H Q)|]. vm_compute in Q. intuition discriminate.
  - rewrite app_assoc. intros Q. apply app_eq_nil in Q as [_ Q]. discriminate Q.
Qed.
Lemma csv_name_inj W x y : csv_name W x = csv_name W y -> tb_name x = tb_name y.
Proof. unfold csv_name. intros H. apply app_inv_head, app_inv_tail in H. exact H. Qed.
Lemma csv_name_ends W x : endswith (csv_name W x) (u ".csv") = true /\ firstn (length (csv_name W x) - 4) (csv_name W x) = w_prefix W ++ tb_name x.
Proof.
  unfold csv_name. rewrite app_assoc. split.
  - unfold endswith. rewrite rev_app_distr. apply startswith_spec. eexists. reflexivity.
  - rewrite app_length. replace (length (w_prefix W ++ tb_name x) + length (u ".csv") - 4)%nat with (length (w_prefix W ++ tb_name x) + 0)%nat by (change (length (u ".csv")) with 4%nat; lia).
    rewrite firstn_app_2. cbn. apply app_nil_r.
Qed.

Lemma readable_rows E x : readable E x -> Forall (Forall survives) (tb_header x :: csv_rows E x).
Proof.
  intros (A & B). constructor; [exact A|]. unfold csv_rows. rewrite Forall_map. apply Forall_forall. intros row Hr. rewrite Forall_map. apply Forall_forall. intros h Hh. exact (B row h _ Hr Hh (get_value_has row h)).
Qed.
Lemma map_res_total {A B} (f : A -> R B) (g : A -> B) l : (forall x, In x l -> f x = Ok (g x) []) -> map_res f l = Ok (map g l) [].
Proof.
  induction l as [|x l IH]; intros H; [reflexivity|]. cbn [map_res map]. rewrite (H x (or_introl eq_refl)). change (Ok (g x) []) with (@ret warning _ (g x)). rewrite bind_ret_l, IH by (intros y Hy; apply H; right; exact Hy). reflexivity.
Qed.
Definition book_of (W : wopts) (E : wenv) (x : table) : str * grid := (w_prefix W ++ tb_name x, csv_grid (tb_header x :: csv_rows E x)).
Lemma files_book W E l : NoDup (map tb_name l) -> (forall x, In x l -> ~ In slash (w_prefix W ++ tb_name x)) -> (forall x, In x l -> readable E x) ->
  csv_book (w_output W) (fold_left (fun fs x => sset (fst (csv_file W E x)) (snd (csv_file W E x)) fs) l []) = Ok (map (book_of W E) l) [].
Proof.
  intros D S R. rewrite (fresh_fold (csv_file W E)).
  - cbn [app]. unfold csv_book, listing.
    assert (L : flat_map (fun f : str * str => match in_dir (w_output W) (fst f) with Some n => [(n, snd f)] | None => [] end) (map (csv_file W E) l) = map (fun x => (csv_name W x, snd (csv_file W E x))) l).
    { clear D R. induction l as [|x l IH]; [reflexivity|]. cbn [map flat_map]. cbn [fst csv_file]. rewrite csv_path_inside by (apply S; left; reflexivity).
      destruct (csv_name_noslash W x (S x (or_introl eq_refl))) as (N1 & N2). rewrite in_dir_path by assumption. cbn [app]. f_equal. apply IH. intros y Hy. apply S. right. exact Hy. }
    rewrite L. assert (F : filter (fun f : str * str => endswith (fst f) (u ".csv")) (map (fun x => (csv_name W x, snd (csv_file W E x))) l) = map (fun x => (csv_name W x, snd (csv_file W E x))) l).
    { clear. induction l as [|x l IH]; [reflexivity|]. cbn [map filter fst]. rewrite (proj1 (csv_name_ends W x)), IH. reflexivity. }
    rewrite F. clear L F.
    rewrite (map_res_total _ (fun f => (firstn (length (fst f) - 4) (fst f), match read_csv (snd f) with Ok rows _ => csv_grid rows | _ => [] end))).
    + rewrite map_map. f_equal. apply map_ext_in. intros x Hx. cbn [fst snd csv_file]. rewrite (proj2 (csv_name_ends W x)). rewrite csv_round_trip by (apply readable_rows, R, Hx). reflexivity.
    + intros f Hf. apply in_map_iff in Hf as (x & <- & Hx). cbn [fst snd csv_file]. rewrite csv_round_trip by (apply readable_rows, R, Hx). reflexivity.
  - cbn [map app fst csv_file]. rewrite (map_ext_in _ (fun x => dir_prefix (w_output W) ++ csv_name W x)) by (intros x Hx; apply csv_path_inside, S, Hx).
    clear S R. induction l as [|x l IH]; [constructor|]. cbn [map] in *. inversion D as [|? ? N D']; subst. constructor; [|apply IH, D']. intros Q. apply in_map_iff in Q as (y & Q & Hy). apply app_inv_head, csv_name_inj in Q. apply N. rewrite <- Q. apply in_map. exact Hy.
Qed.

(** ** Reading the sheets *)
Lemma csv_cells_map hs (f : str -> scalar) : csv_cells (map SStr hs) (map f hs) = map (fun h => (SStr h, f h)) hs.
Proof. induction hs as [|h hs IH]; [reflexivity|]. cbn. rewrite IH. reflexivity. Qed.
Lemma make_line_map hs (f : str -> scalar) : NoDup hs -> make_line (map (fun h => (SStr h, f h)) hs) = map (fun h => (SStr h, f h)) hs.
Proof.
  induction hs as [|h hs IH]; intros D; [reflexivity|]. inversion D as [|? ? N D']; subst. cbn [map]. rewrite make_line_cons; [rewrite IH by exact D'; reflexivity|].
  intros hv Hhv. apply in_map_iff in Hhv as (k & <- & Hk). cbn. apply str_eqb_neq. intros ->. contradiction.
Qed.
Definition line_of (E : wenv) (x : table) (row : frow) : line := map (fun h => (SStr h, SStr (text_of E (get_value row h)))) (tb_header x).
Definition sheet_read (W : wopts) (E : wenv) (x : table) : sheet_in :=
  {| si_name := w_prefix W ++ tb_name x; si_headings := Some (map SStr (tb_header x));
     si_lines := match tb_header x with [] => [] | _ => map (line_of E x) (tb_rows x) end |}.
Lemma csv_lines_of E x rd : NoDup (tb_header x) -> tb_header x <> [] -> rd_base rd = empty_conf ->
  csv_lines rd empty_conf (csv_grid (tb_header x :: csv_rows E x)) = Ok (map (line_of E x) (tb_rows x)) [].
Proof.
  intros D N B. unfold csv_lines. assert (C : conf_of rd empty_conf = empty_conf) by (unfold conf_of; rewrite B; destruct (rd_use rd); reflexivity). rewrite C. cbn -[csv_grid].
  unfold csv_grid, csv_rows. cbn [map length Nat.ltb Nat.leb skipn]. unfold ret. f_equal. rewrite map_map.
  induction (tb_rows x) as [|row rows IH]; [reflexivity|]. cbn [map filter]. rewrite map_map.
  assert (E1 : is_nil (map (fun x0 => SStr (text_of E (get_value row x0))) (tb_header x)) = false) by (destruct (tb_header x); [contradiction|reflexivity]). rewrite E1. cbn [negb map].
  rewrite csv_cells_map, make_line_map by exact D. f_equal. exact IH.
Qed.
Lemma csv_conf_of E x : no_hash x -> bind (get_conf Csv (csv_grid (tb_header x :: csv_rows E x))) (fun l => parse_sheet_configuration l empty_conf) = Ok empty_conf [].
Proof.
  intros H. unfold get_conf, csv_grid. cbn [map]. unfold csv_conf. unfold no_hash in H. destruct (tb_header x) as [|h hs]; [reflexivity|]. cbn [map].
  destruct (str_eqb_spec h (u "#")) as [->|]; [exfalso; apply H; reflexivity|reflexivity].
Qed.
Lemma read_sheet_of W E x rd : NoDup (tb_header x) -> rd_base rd = empty_conf ->
  read_sheet Csv rd (w_prefix W ++ tb_name x, csv_grid (tb_header x :: csv_rows E x), empty_conf) = Ok (sheet_read W E x) [].
Proof.
  intros D B. unfold read_sheet, headings_of, csv_headings. assert (C : conf_of rd empty_conf = empty_conf) by (unfold conf_of; rewrite B; destruct (rd_use rd); reflexivity). rewrite C. cbn -[csv_grid lines_in].
  unfold csv_grid at 1. cbn [map nth_error]. unfold sheet_read.
  assert (Q : tb_header x = [] \/ tb_header x <> []) by (destruct (tb_header x); [left; reflexivity|right; discriminate]). destruct Q as [Q|Q].
  - rewrite Q. reflexivity.
  - pose proof (csv_lines_of E x rd D Q B) as L. unfold lines_in. rewrite L. destruct (tb_header x) as [|h hs]; [contradiction|]. reflexivity.
Qed.
Lemma read_files W E l rd : NoDup (map tb_name l) -> rd_base rd = empty_conf -> rd_include rd = [] -> (forall x, In x l -> ~ In (w_prefix W ++ tb_name x) (rd_exclude rd)) ->
  (forall x, In x l -> NoDup (tb_header x)) -> (forall x, In x l -> no_hash x) ->
  exists l', Permutation l l' /\ StronglySorted (fun a b => not_after (w_prefix W ++ tb_name a) (w_prefix W ++ tb_name b)) l' /\
    read_book Csv rd (map (book_of W E) l) = Ok (map (sheet_read W E) l') [].
Proof.
  intros D B I X DH NH. set (nm := fun x : table => w_prefix W ++ tb_name x).
  assert (Dn : NoDup (map nm l)). { clear -D. induction l as [|x l IH]; cbn in *; [constructor|]. inversion D as [|? ? N D']; subst. constructor; [|apply IH, D']. intros Q. apply in_map_iff in Q as (y & Q & Hy). apply app_inv_head in Q. apply N. rewrite <- Q. apply in_map, Hy. }
  assert (Names : map fst (map (book_of W E) l) = map nm l) by (rewrite map_map; reflexivity).
  destruct (Permutation_map_inv nm l (l1 := sort_str (map nm l)) (Permutation_sym (sort_str_perm (map nm l)))) as (l' & El & Pl).
  exists l'. split; [exact Pl|]. split.
  - pose proof (sort_str_sorted (map nm l)) as S. rewrite El in S. clear -S. remember (map nm l') as ns eqn:En. revert l' En. induction S as [|n ns S IH F]; intros l' En; destruct l' as [|x l']; try discriminate; [constructor|].
    cbn in En. injection En as -> ->. constructor; [apply IH; reflexivity|]. rewrite Forall_map in F. exact F.
  - unfold read_book. rewrite select_wanted.
    + cbn [available]. rewrite Names. rewrite El.
      assert (Wt : filter (wanted rd) (map nm l') = map nm l').
      { assert (X' : forall x, In x l' -> ~ In (nm x) (rd_exclude rd)) by (intros x Hx; apply X, (Permutation_in x (Permutation_sym Pl) Hx)). clear -I X'. induction l' as [|x l' IH]; [reflexivity|]. cbn [map filter].
        assert (Q : wanted rd (nm x) = true). { unfold wanted. rewrite I. cbn. apply negb_true_iff, str_mem_false, X'. left. reflexivity. } rewrite Q. f_equal. apply IH. intros y Hy. apply X'. right. exact Hy. }
      rewrite Wt. clear Wt. rewrite (map_res_total _ (fun n => (n, match sget n (map (book_of W E) l) with Some g => g | None => [] end, empty_conf))).
      * rewrite map_map. change (Ok ?z []) with (@ret warning _ z). rewrite bind_ret_l.
        assert (G : forall x, In x l' -> sget (nm x) (map (book_of W E) l) = Some (snd (book_of W E x))).
        { intros x Hx. apply In_sget; [rewrite Names; exact Dn|]. change (nm x, snd (book_of W E x)) with (book_of W E x). apply in_map. apply (Permutation_in x (Permutation_sym Pl) Hx). }
        rewrite (map_ext_in _ (fun x => (nm x, snd (book_of W E x), empty_conf))) by (intros x Hx; rewrite (G x Hx); reflexivity).
        assert (Rd : forall x, In x l' -> read_sheet Csv rd (nm x, snd (book_of W E x), empty_conf) = Ok (sheet_read W E x) []).
        { intros x Hx. apply read_sheet_of; [apply DH, (Permutation_in x (Permutation_sym Pl) Hx)|exact B]. }
        clear -Rd. induction l' as [|x l' IH]; [reflexivity|]. cbn [map map_res]. rewrite (Rd x (or_introl eq_refl)). change (Ok (sheet_read W E x) []) with (@ret warning _ (sheet_read W E x)). rewrite bind_ret_l, IH by (intros y Hy; apply Rd; right; exact Hy). reflexivity.
      * intros n Hn. apply in_map_iff in Hn as (x & <- & Hx). apply (Permutation_in x (Permutation_sym Pl)) in Hx. unfold configure.
        assert (G : sget (nm x) (map (book_of W E) l) = Some (snd (book_of W E x))). { apply In_sget; [rewrite Names; exact Dn|]. change (nm x, snd (book_of W E x)) with (book_of W E x). apply in_map, Hx. }
        rewrite G. cbn [book_of snd]. pose proof (csv_conf_of E x (NH x Hx)) as Cf. destruct (get_conf Csv (csv_grid (tb_header x :: csv_rows E x))) as [c0 w0|]; [|discriminate]. cbn [bind] in *.
        destruct (parse_sheet_configuration c0 empty_conf) as [c1 w1|]; [|discriminate]. injection Cf as -> Ew. cbn. rewrite app_nil_r. rewrite Ew. reflexivity.
    + cbn [available]. rewrite Names. eapply Permutation_NoDup; [apply sort_str_perm|exact Dn].
Qed.
(** ** From tables to sheets *)
Lemma tables_in_order W main subs l : l = in_order W main subs -> Permutation (named (w_main W) main :: subs) l.
Proof. intros ->. constructor. apply sort_tables_perm. Qed.
Lemma sheet_read_lines W E x : tb_header x <> [] -> same_lines E x (si_lines (sheet_read W E x)).
Proof.
  intros N. unfold same_lines. assert (Q : si_lines (sheet_read W E x) = map (line_of E x) (tb_rows x)) by (unfold sheet_read; cbn [si_lines]; destruct (tb_header x); [contradiction|reflexivity]). rewrite Q.
  clear Q. induction (tb_rows x) as [|row rows IH]; cbn [map]; [constructor|]. constructor; [|exact IH]. unfold line_of. clear. induction (tb_header x) as [|h hs IH]; cbn [map]; [constructor|]. constructor; [|exact IH]. exists (get_value row h). split; [apply get_value_has|reflexivity].
Qed.
Theorem csv_tables_read W E main subs rd :
  NoDup (w_main W :: map tb_name subs) -> Forall (fine W E) (named (w_main W) main :: subs) ->
  (forall x, In x (named (w_main W) main :: subs) -> ~ In (w_prefix W ++ tb_name x) (rd_exclude rd)) -> rd_base rd = empty_conf -> rd_include rd = [] ->
  exists fs b sheets l, write_csv_files W E main subs [] = Ok fs [] /\ csv_book (w_output W) fs = Ok b [] /\ read_book Csv rd b = Ok sheets [] /\
    Permutation (named (w_main W) main :: subs) l /\ StronglySorted (fun a b => not_after (w_prefix W ++ tb_name a) (w_prefix W ++ tb_name b)) l /\
    Forall2 (fun x s => si_name s = w_prefix W ++ tb_name x /\ si_headings s = Some (map SStr (tb_header x)) /\ (tb_header x <> [] -> same_lines E x (si_lines s)) /\ (tb_header x = [] -> si_lines s = [])) l sheets.
Proof.
  intros D F X B I. unfold write_csv_files. set (l := in_order W main subs) in *. pose proof (tables_in_order W main subs l eq_refl) as P0. rewrite Forall_forall in F.
  assert (H : forall x, In x l -> fine W E x) by (intros x Hx; apply F, (Permutation_in x (Permutation_sym P0) Hx)).
  assert (D' : NoDup (map tb_name l)) by (eapply Permutation_NoDup; [apply Permutation_map, P0|exact D]).
  destruct (read_files W E l rd D' B I ltac:(intros x Hx; apply X, (Permutation_in x (Permutation_sym P0) Hx)) ltac:(intros x Hx; apply H, Hx) ltac:(intros x Hx; apply H, Hx)) as (l' & P & S & R).
  eexists. exists (map (book_of W E) l), (map (sheet_read W E) l'), l'. split; [apply csv_sheets_total; [apply Forall_forall; intros x Hx; apply H, Hx|intros x Hx; destruct (H x Hx) as (_ & _ & _ & _ & _ & Q); apply Q]|].
  split; [apply files_book; [exact D'|intros x Hx; apply H, Hx|intros x Hx; apply H, Hx]|]. split; [exact R|]. split; [eapply perm_trans; eassumption|]. split; [exact S|].
  clear. induction l' as [|x l' IH]; cbn [map]; [constructor|]. constructor; [|exact IH]. split; [reflexivity|]. split; [reflexivity|]. split; [apply sheet_read_lines|]. intros Q. unfold sheet_read. cbn [si_lines]. rewrite Q. reflexivity.
Qed.
(** what is in the files *)
Theorem csv_files_written W E main subs fs fs' w : NoDup (w_main W :: map tb_name subs) -> (forall x, In x (named (w_main W) main :: subs) -> ~ In 47%N (w_prefix W ++ tb_name x)) ->
  write_csv_files W E main subs fs = Ok fs' w ->
  (forall x, In x (named (w_main W) main :: subs) -> covered_rows x /\ exists rows, sget (dir_prefix (w_output W) ++ w_prefix W ++ tb_name x ++ u ".csv") fs' = Some (write_csv (w_term W) (tb_header x :: rows)) /\ holds (fun v c => c = text_of E v) x rows) /\
  (forall p, (forall x, In x (named (w_main W) main :: subs) -> p <> dir_prefix (w_output W) ++ w_prefix W ++ tb_name x ++ u ".csv") -> sget p fs' = sget p fs).
Proof.
  intros D S H. unfold write_csv_files in H. pose proof (tables_in_order W main subs _ eq_refl) as P0. set (l := in_order W main subs) in *. apply csv_sheets_ok in H as (-> & -> & C).
  assert (S' : forall x, In x l -> ~ In 47%N (w_prefix W ++ tb_name x)) by (intros x Hx; apply S, (Permutation_in x (Permutation_sym P0) Hx)).
  assert (D' : NoDup (map (csv_path W) l)).
  { apply (Permutation_NoDup (Permutation_map tb_name P0)) in D. clear -D S'. induction l as [|x l IH]; [constructor|]. cbn [map] in *. inversion D as [|? ? N D']; subst. constructor; [|apply IH; [exact D'|intros y Hy; apply S'; right; exact Hy]].
    intros Q. apply in_map_iff in Q as (y & Q & Hy). rewrite !csv_path_inside in Q by (apply S'; auto using in_eq, in_cons). apply app_inv_head, csv_name_inj in Q. apply N. rewrite <- Q. apply in_map, Hy. }
  split.
  - intros x Hx. apply (Permutation_in x P0) in Hx. split; [rewrite Forall_forall in C; apply C, Hx|]. exists (csv_rows E x). split.
    + rewrite <- (csv_path_inside W x (S' x Hx)) at 1. unfold csv_name. rewrite (fold_files_in W E l fs x D' Hx). reflexivity.
    + unfold holds, csv_rows. clear. induction (tb_rows x) as [|row rows IH]; cbn [map]; [constructor|]. constructor; [|exact IH]. clear. induction (tb_header x) as [|h hs IH]; cbn [map]; [constructor|]. constructor; [|exact IH]. exists (get_value row h). split; [apply get_value_has|reflexivity].
  - intros p Hp. apply fold_files. intros x Hx Q. apply (Hp x); [apply (Permutation_in x (Permutation_sym P0) Hx)|]. rewrite <- Q. apply csv_path_inside, S', Hx.
Qed.
