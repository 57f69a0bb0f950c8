(** C32, C33, C47, C48: writing tables to files, and reading the files back.
    The notions used in the statements are in Spec/Written.v and Spec/CsvText.v. *)
From Coq Require Import String Sorted Permutation.
From Verif.Base Require Import PyStr PyNum PyVal PyDict Outcome.
From Verif.Model Require Import Warn Lib Convert Input Flatten Readers Csv Ods Output.
From Verif.Spec Require Import Flat Grids CsvText Written.
From Verif.Tests Require Import TestLib FlattenLib.
From Verif.Proofs Require Import FlattenRun CsvFacts OutputFacts CsvFiles OdsFiles.

(** ** C32 writers put every value under its header *)
(** XLSX: one worksheet per table, the main sheet first, the others by name; a row
    of headings; below each row has under each heading the value for it *)
Theorem C32_xlsx : forall W E main subs doc w, rows_ok (main :: subs) -> write_xlsx W E main subs = Ok doc w ->
  exists l, sheets_in_order (named (w_main W) main) subs l /\ warned l w /\
    Forall2 (fun x sh => fst sh = firstn 31 (w_prefix W ++ tb_name x) /\
      exists rows, snd sh = map (fun h => JS (SStr h)) (tb_header x) :: rows /\ holds cleaned x rows) l doc.
Proof. exact xlsx_written. Qed.
Print Assumptions C32_xlsx.
(** ODS: the same, with cells whose text is that of the value *)
Theorem C32_ods : forall W E main subs doc w, rows_ok (main :: subs) -> write_ods W E main subs = Ok doc w ->
  exists l, sheets_in_order (named (w_main W) main) subs l /\ warned l w /\
    Forall2 (fun x sh => fst sh = firstn 31 (w_prefix W ++ tb_name x) /\ exists top rows, snd sh = top :: rows /\
      Forall2 (fun h c => ods_cell_for E (JS (SStr h)) c) (tb_header x) (or_cells top) /\ holds (ods_shows E) x (map or_cells rows)) l doc.
Proof. exact ods_written. Qed.
Print Assumptions C32_ods.
(** CSV: one file per table, the text of the value under its heading, nothing removed *)
Theorem C32_csv : forall W E main subs fs fs' w, NoDup (w_main W :: map tb_name subs) ->
  (forall x, In x (named (w_main W) main :: subs) -> ~ In 47%N (w_prefix W ++ tb_name x)) ->
  write_csv_files W E main subs fs = Ok fs' w ->
  (forall x, In x (named (w_main W) main :: subs) -> covered_rows x /\ exists rows,
     sget (dir_prefix (w_output W) ++ w_prefix W ++ tb_name x ++ u ".csv") fs' = Some (write_csv (w_term W) (tb_header x :: rows)) /\
     holds (fun v c => c = text_of E v) x rows) /\
  (forall p, (forall x, In x (named (w_main W) main :: subs) -> p <> dir_prefix (w_output W) ++ w_prefix W ++ tb_name x ++ u ".csv") -> sget p fs' = sget p fs).
Proof. exact csv_files_written. Qed.
Print Assumptions C32_csv.
(** tables made by flattening can always be written as CSV, if the files can be opened *)
Theorem C32_flattened : forall O drop pi, schema_ready O -> forall l s w, flatten O drop pi l = Ok s w -> name_free O s ->
  forall W E fs, (forall n, we_open E n = None) -> exists fs', write_csv_files W E (main_table s) (sub_tables s) fs = Ok fs' [].
Proof.
  intros O drop pi P l s w H F W E fs Op. eexists. unfold write_csv_files. apply csv_sheets_total; [|intros x _; apply Op].
  apply Forall_forall. intros x Hx row k v Hr Hk. assert (Q : exists y, In y (tables s) /\ tb_header y = tb_header x /\ tb_rows y = tb_rows x).
  { destruct Hx as [<-|Hx]; [exists (main_table s); split; [left; reflexivity|split; reflexivity]|]. exists x. split; [right; apply (Permutation_in x (Permutation_sym (sort_tables_perm _)) Hx)|split; reflexivity]. }
  destruct Q as (y & Hy & E1 & E2). rewrite <- E1. rewrite <- E2 in Hr. exact (flatten_covered O drop pi P l s w H F y row k v Hy Hr Hk).
Qed.
Print Assumptions C32_flattened.

(** a case: a bell in a text, a row without a value *)
Definition tx (s : string) : jv := JS (SStr (u s)).
Definition w_opts : wopts := {| w_main := u "main"; w_output := u "out"; w_prefix := []; w_term := CRLF |}.
Definition floats (s : scalar) : float_result :=
  match s with
  | SStr x => if str_eqb x (u "007") then FloatOk (FFin false 7 0) else if str_eqb x (u "nan") then FloatOk FNan else FloatValueError
  | SInt z => FloatOk (FFin (z <? 0)%Z (Z.to_N (Z.abs z)) 0)
  | SBool b => FloatOk (FFin false (if b then 1 else 0) 0)
  | _ => FloatValueError
  end.
Definition w_env : wenv := {| we_env := test_env; we_str := fun _ => u "[]"; we_float := floats; we_cell := fun _ => None; we_title := fun _ => None; we_open := fun _ => None |}.
Definition w_case : table := {| tb_name := []; tb_header := [u "id"; u "x"]; tb_rows := [[(u "x", JS (SStr ([7%N] ++ u "a,b"))); (u "id", tx "q")]; [(u "id", JS (SInt 5))]] |}.
Definition w_sub (n : string) : table := {| tb_name := u n; tb_header := [u "v"]; tb_rows := [[(u "v", tx "t")]] |}.
Example C32_meets : rows_ok [w_case; w_sub "b"; w_sub "a"] /\
  write_xlsx w_opts w_env w_case [w_sub "b"; w_sub "a"] =
    Ok [(u "main", [[tx "id"; tx "x"]; [tx "q"; tx "a,b"]; [JS (SInt 5); JS SNone]]); (u "a", [[tx "v"]; [tx "t"]]); (u "b", [[tx "v"]; [tx "t"]])] [OForbidden ([7%N] ++ u "a,b")] /\
  (exists doc, write_ods w_opts w_env w_case [w_sub "b"; w_sub "a"] = Ok doc [OForbidden ([7%N] ++ u "a,b")]) /\
  write_csv_files w_opts w_env w_case [w_sub "b"] [] =
    Ok [(u "out/main.csv", u "id,x" ++ [13; 10]%N ++ u "q,""" ++ [7%N] ++ u "a,b""" ++ [13; 10]%N ++ u "5," ++ [13; 10]%N); (u "out/b.csv", u "v" ++ [13; 10]%N ++ u "t" ++ [13; 10]%N)] [].
Proof.
  split; [|split; [vm_compute; reflexivity|split; [eexists; vm_compute; reflexivity|vm_compute; reflexivity]]].
  intros x row [<-|[<-|[<-|[]]]] Hr; cbn in Hr; intuition subst; cbn; repeat (constructor; [cbn; intuition discriminate|]); constructor.
Qed.

(** ** C33 CSV text round trip *)
Theorem C33_round_trip : forall t rows, Forall (Forall survives) rows -> read_csv (write_csv t rows) = Ok rows [].
Proof. exact csv_round_trip. Qed.
Print Assumptions C33_round_trip.
(** what is read back in general *)
Theorem C33_exact : forall t rows rows', Forall2 (Forall2 read_back) rows rows' ->
  Forall (fun row => Forall (fun f => (N.of_nat (length f) <= 131072)%N) row) rows' ->
  (forall f, In [f] rows -> f = [] \/ exists c, In c f /\ c <> 0%N) -> read_csv (write_csv t rows) = Ok rows' [].
Proof. exact csv_read_back. Qed.
Print Assumptions C33_exact.
Theorem C33_exact_total : forall s, exists s', read_back s s'.
Proof. intros s. eexists. apply read_back_total. Qed.
Print Assumptions C33_exact_total.
(** the sheets read from the files written for some tables are the tables *)
Theorem C33_files : forall W E main subs rd,
  NoDup (w_main W :: map tb_name subs) -> Forall (fine W E) (named (w_main W) main :: subs) ->
  (forall x, In x (named (w_main W) main :: subs) -> ~ In (w_prefix W ++ tb_name x) (rd_exclude rd)) -> rd_base rd = empty_conf -> rd_include rd = [] ->
  exists fs b sheets l, write_csv_files W E main subs [] = Ok fs [] /\ csv_book (w_output W) fs = Ok b [] /\ read_book Csv rd b = Ok sheets [] /\
    Permutation (named (w_main W) main :: subs) l /\ StronglySorted (fun a b => not_after (w_prefix W ++ tb_name a) (w_prefix W ++ tb_name b)) l /\
    Forall2 (fun x s => si_name s = w_prefix W ++ tb_name x /\ si_headings s = Some (map SStr (tb_header x)) /\
      (tb_header x <> [] -> same_lines E x (si_lines s)) /\ (tb_header x = [] -> si_lines s = [])) l sheets.
Proof. exact csv_tables_read. Qed.
Print Assumptions C33_files.

Definition odd_rows : list (list str) := [[u "a,b"; u "say ""hi"""; u "two" ++ [10%N] ++ u "lines"]; [[]]; []; [[]; u " "]].
Ltac surv1 := split; [cbn; intuition discriminate|split; [cbn; intuition discriminate|cbn; lia]].
Ltac survives_tac := repeat (constructor; [repeat (constructor; [surv1|]); constructor|]); constructor.
Example C33_meets : Forall (Forall survives) odd_rows /\ write_csv CRLF odd_rows <> [].
Proof. split; [survives_tac|discriminate]. Qed.
Example C33_files_meets : Forall (fine w_opts w_env) (named (w_main w_opts) (w_sub "x") :: [w_sub "b"; w_sub "a"]).
Proof.
  assert (F : forall n, ~ In 47%N (u n) -> fine w_opts w_env (w_sub n)).
  { intros n Hn. split; [intros row k v [<-|[]] [Q|[]]; injection Q as <- _; left; reflexivity|]. split; [repeat constructor; intros []|]. split; [discriminate|]. split; [|split; [exact Hn|reflexivity]].
    split; [constructor; [surv1|constructor]|]. intros row h v [<-|[]] [<-|[]] [[Q|[]]|[Q _]]; [injection Q as <-; surv1|exfalso; apply Q; left; reflexivity]. }
  constructor; [exact (F "main"%string ltac:(cbn; intuition discriminate))|]. constructor; [apply F; cbn; intuition discriminate|]. constructor; [apply F; cbn; intuition discriminate|constructor].
Qed.
(** a carriage return is read back as a line feed; a NUL is lost, a row with
    nothing else becomes an empty one *)
Theorem C33_return_refuted : forall t, read_csv (write_csv t [[[97; 13; 98]%N]]) = Ok [[[97; 10; 98]%N]] [].
Proof. intros []; vm_compute; reflexivity. Qed.
Print Assumptions C33_return_refuted.
Theorem C33_nul_refuted : forall t, read_csv (write_csv t [[[97; 0; 98]%N]; [[0%N]]]) = Ok [[[97; 98]%N]; []] [].
Proof. intros []; vm_compute; reflexivity. Qed.
Print Assumptions C33_nul_refuted.
(** a file with a text of more than 131072 characters can be written, not read *)
Theorem C33_long_refuted : forall t, read_csv (write_csv t [[repeat 97%N (N.to_nat 131073)]]) = Raise EOther [].
Proof. intros []; vm_compute; reflexivity. Qed.
Print Assumptions C33_long_refuted.

(** ** C47 CSV files stay in the output directory, one per sheet *)
(** every path that is written is that of a sheet in the output directory, and
    different sheets have different files *)
Theorem C47_inside : forall W E main subs fs fs' w, NoDup (w_main W :: map tb_name subs) ->
  (forall x, In x (named (w_main W) main :: subs) -> ~ In 47%N (w_prefix W ++ tb_name x)) ->
  write_csv_files W E main subs fs = Ok fs' w ->
  (forall p, sget p fs' <> sget p fs -> exists n, ~ In 47%N n /\ p = dir_prefix (w_output W) ++ n ++ u ".csv" /\ exists x, In x (named (w_main W) main :: subs) /\ n = w_prefix W ++ tb_name x) /\
  (forall x, In x (named (w_main W) main :: subs) -> exists rows, sget (dir_prefix (w_output W) ++ w_prefix W ++ tb_name x ++ u ".csv") fs' = Some (write_csv (w_term W) (tb_header x :: rows)) /\ length rows = length (tb_rows x)).
Proof.
  intros W E main subs fs fs' w D S H. destruct (csv_files_written W E main subs fs fs' w D S H) as (A & B). split.
  - intros p Hp. set (all := named (w_main W) main :: subs) in *.
    destruct (in_dec (list_eq_dec N.eq_dec) p (map (fun x => dir_prefix (w_output W) ++ w_prefix W ++ tb_name x ++ u ".csv") all)) as [Q|Q].
    + apply in_map_iff in Q as (x & <- & Hx). exists (w_prefix W ++ tb_name x). split; [apply S, Hx|]. split; [rewrite <- app_assoc; reflexivity|]. exists x. auto.
    + exfalso. apply Hp, B. intros x Hx ->. apply Q. apply in_map_iff. exists x. auto.
  - intros x Hx. destruct (A x Hx) as (_ & rows & R & F). exists rows. split; [exact R|]. symmetry. exact (Forall2_length F).
Qed.
Print Assumptions C47_inside.
Example C47_meets : NoDup (w_main w_opts :: map tb_name [w_sub "b"]) /\ exists fs, write_csv_files w_opts w_env w_case [w_sub "b"] [] = Ok fs [].
Proof. split; [repeat (constructor; [cbn; intuition discriminate|]); constructor|]. eexists. vm_compute. reflexivity. Qed.
(** an array of objects under the key "/etc/x" is written to /etc/x.csv *)
Theorem C47_outside_refuted : exists l s fs, flatten (ftest_opts []) false [] l = Ok s [] /\
  write_csv_files w_opts w_env (main_table s) (sub_tables s) [] = Ok fs [] /\ In (u "/etc/x.csv") (map fst fs).
Proof.
  exists [JO [(u "/etc/x", JA [JO [(u "a", tx "1")]])]]. eexists. eexists. split; [vm_compute; reflexivity|]. split; [vm_compute; reflexivity|]. vm_compute. auto.
Qed.
Print Assumptions C47_outside_refuted.
(** an array of objects with the name of the main sheet replaces the main sheet's file *)
Theorem C47_clash_refuted : exists l s, flatten (ftest_opts []) false [] l = Ok s [] /\ tb_rows (main_table s) = [[(u "id", tx "lost")]] /\
  write_csv_files w_opts w_env (main_table s) (sub_tables s) [] = Ok [(u "out/main.csv", u "id,main/0/a" ++ [13; 10]%N ++ u "lost,1" ++ [13; 10]%N)] [].
Proof.
  exists [JO [(u "id", tx "lost"); (u "main", JA [JO [(u "a", tx "1")]])]]. eexists. split; [vm_compute; reflexivity|]. split; vm_compute; reflexivity.
Qed.
Print Assumptions C47_clash_refuted.

(** ** C48 texts written to an ODS file come back *)
Theorem C48_texts : forall W E RE main subs doc w, rows_ok (main :: subs) -> Forall (ods_plain E) (main :: subs) ->
  NoDup (map (fun x => firstn 31 (w_prefix W ++ tb_name x)) (named (w_main W) main :: subs)) -> write_ods W E main subs = Ok doc w ->
  exists b l, read_ods RE false doc [] = Ok b [] /\ sheets_in_order (named (w_main W) main) subs l /\
    Forall2 (fun x s => fst s = firstn 31 (w_prefix W ++ tb_name x) /\ comes_back x (snd s)) l b.
Proof. exact ods_back. Qed.
Print Assumptions C48_texts.
Definition plain_case : table := {| tb_name := []; tb_header := [u "id"; u "x"]; tb_rows := [[(u "x", JS (SStr ([7%N] ++ u "a"))); (u "id", tx "q")]; [(u "id", tx "r")]] |}.
Example C48_meets : ods_plain w_env plain_case /\ exists doc, write_ods w_opts w_env plain_case [w_sub "b"] = Ok doc [OForbidden ([7%N] ++ u "a")].
Proof.
  split; [|eexists; vm_compute; reflexivity]. split; [intros h [<-|[<-|[]]]; right; reflexivity|].
  assert (S : forall s s', without_forbidden s s' -> s = [7%N] ++ u "a" \/ s = u "q" \/ s = u "r" -> stays_text w_env s').
  { intros s s' Hs Hc. destruct Hc as [-> |[-> | ->]]; right.
    - inversion Hs as [|? ? ? _ H|? ? ? N]; subst; [|exfalso; apply N; repeat split; try discriminate; reflexivity]. inversion H as [|? ? ? (F & _)|? ? ? _ H']; subst; [discriminate F|]. inversion H'; reflexivity.
    - inversion Hs as [|? ? ? (F & _)|? ? ? _ H']; subst; [discriminate F|]. inversion H'; reflexivity.
    - inversion Hs as [|? ? ? (F & _)|? ? ? _ H']; subst; [discriminate F|]. inversion H'; reflexivity. }
  intros row h v Hr Hh Hv. cbn in Hr. destruct Hr as [<-|[<-|[]]]; destruct Hv as [Hv|[_ ->]]; auto; cbn in Hv; right.
  - destruct Hv as [Q|[Q|[]]]; injection Q as _ <-; eexists; (split; [reflexivity|]); intros s' Hs; eapply S; eauto.
  - destruct Hv as [Q|[]]; injection Q as _ <-; eexists; (split; [reflexivity|]); intros s' Hs; eapply S; eauto.
Qed.
Definition one_cell (v : jv) : table := {| tb_name := []; tb_header := [u "v"]; tb_rows := [[(u "v", v)]] |}.
(** a text that reads as a number is no longer a text: "007" is read back as the
    number that "7.0" stands for *)
Theorem C48_number_refuted : forall E RE seven x, we_float E (SStr (u "007")) = FloatOk seven -> float_str (we_env E) seven = u "7.0" -> we_float E (SStr (u "v")) = FloatValueError ->
  oe_float RE (u "7.0") = Some x ->
  exists doc, write_ods w_opts E (one_cell (tx "007")) [] = Ok doc [] /\ read_ods RE false doc [] = Ok [(u "main", [[SStr (u "v")]; [x]])] [].
Proof.
  intros E RE seven x H1 H2 H3 H4. vm_compute in H1, H2, H3, H4. eexists. split; [vm_compute; rewrite H3, H1, H2; vm_compute; reflexivity|]. vm_compute. rewrite H4. reflexivity.
Qed.
Print Assumptions C48_number_refuted.
(** with the text "nan" the file can be written, not read *)
Theorem C48_nan_refuted : forall E RE, we_float E (SStr (u "nan")) = FloatOk FNan -> float_str (we_env E) FNan = u "nan" -> we_float E (SStr (u "v")) = FloatValueError ->
  exists doc, write_ods w_opts E (one_cell (tx "nan")) [] = Ok doc [] /\ read_ods RE false doc [] = Raise EValueError [].
Proof.
  intros E RE H1 H2 H3. vm_compute in H1, H2, H3. eexists. split; [vm_compute; rewrite H3, H1, H2; vm_compute; reflexivity|]. vm_compute. reflexivity.
Qed.
Print Assumptions C48_nan_refuted.
(** 0 and false come back as texts *)
Theorem C48_zero_refuted : forall E RE, we_float E (SStr (u "v")) = FloatValueError ->
  (exists doc, write_ods w_opts E (one_cell (JS (SInt 0))) [] = Ok doc [] /\ read_ods RE false doc [] = Ok [(u "main", [[SStr (u "v")]; [SStr (u "0")]])] []) /\
  (exists doc, write_ods w_opts E (one_cell (JS (SBool false))) [] = Ok doc [] /\ read_ods RE false doc [] = Ok [(u "main", [[SStr (u "v")]; [SStr (u "False")]])] []).
Proof.
  intros E RE H. vm_compute in H. split; (eexists; split; [vm_compute; rewrite H; vm_compute; reflexivity|]); vm_compute; reflexivity.
Qed.
Print Assumptions C48_zero_refuted.
(** sheets whose names agree in the first 31 characters: only one is read *)
Definition long_name (c : string) : str := (u "a_rather_long_name_for_some_things_" ++ u c)%list.
Theorem C48_names_refuted : exists doc, let sub c := {| tb_name := long_name c; tb_header := [u "v"]; tb_rows := [[(u "v", tx c)]] |} in
  write_ods w_opts w_env (one_cell (tx "m")) [sub "p"%string; sub "q"%string] = Ok doc [] /\
  forall RE, read_ods RE false doc [] = Ok [(u "main", [[SStr (u "v")]; [SStr (u "m")]]); (u "a_rather_long_name_for_some_thi", [[SStr (u "v")]; [SStr (u "q")]])] [].
Proof. eexists. split; [vm_compute; reflexivity|]. intros RE. vm_compute. reflexivity. Qed.
Print Assumptions C48_names_refuted.
