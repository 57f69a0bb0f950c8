(** C71: the source map files as JSON text.  What they should say: Spec/MapText.v;
    places and locations: Spec/Maps.v, Spec/Source.v; JSON: Spec/JsonGrammar.v. *)
From Coq Require Import String.
From Verif.Base Require Import PyStr PyNum PyVal PyDict Outcome.
From Verif.Model Require Import Warn Lib Convert Input Json SourceMap Flatten Readers Output Schema Commands JsonText MapText.
From Verif.Tests Require Import TestLib FlattenLib CommandLib.
From Verif.Spec Require Import Source Rows Cells Maps Commands JsonGrammar MapText.
From Verif.Proofs Require Import MapTextFacts MapFiles.
From Verif.Props Require Import JsonFiles.
Local Open Scope list_scope.

(** ** The texts *)
(** the text for a map is JSON, and says an object with a member for every entry, in
    their order: arrays [sheet, column, row, heading], [sheet, row], [sheet, heading] *)
Theorem C71_cells T E m : floats_are_json (te_env T) -> (forall k ls l, In (k, ECells ls) m -> In l ls -> common_heading (l_heading l)) ->
  exists t v, cells_text T E m = Ok t [] /\ cells_said T E m v /\ document_says false t v.
Proof. exact (fun HF => cells_text_says T E HF m). Qed.
Print Assumptions C71_cells.
Theorem C71_headings T E m : floats_are_json (te_env T) -> (forall k hs s x, In (k, hs) m -> In (s, x) hs -> common_heading x) ->
  exists t v, heads_text T E m = Ok t [] /\ heads_said T E m v /\ document_says false t v.
Proof. exact (fun HF => heads_text_says T E HF m). Qed.
Print Assumptions C71_headings.

(** ** The files of a run *)
(** without metatab: the output says [V], the cell source map file an object with
    members [d].  For every value [x] at a place of the list of records in [V] there
    is the member of that place, [[sheet, column, row, heading], ...], and each of
    these is a cell of the spreadsheet with that value; for every object with a value
    directly in it there is the member with the rows of these cells; there are no
    other members; every cell is listed, with its value, or named in a warning *)
Theorem C71_cell_file T Wd U w : let E := we_env (wd_wenv Wd) in floats_are_json (te_env T) -> unflatten_file Wd U = Ok tt w -> u_xml U = false -> ~ given (u_meta U) ->
  u_meta_only U = false \/ u_root_list U = true -> u_cells U <> [] ->
  let conf := default_conf (u_conf U) in let F := run_fancy U conf in
  exists f sheets O r j m wx, main_run Wd U f conf sheets O /\ unflatten O sheets = Ok r wx /\ json_written w (u_output U) j /\ cells_written w (u_cells U) m /\
    (common_headings sheets -> plain_out T j -> exists V t d, document_says false (json_text T j) V /\ cells_text T E m = Ok t [] /\ document_says false t (VObj d) /\
       NoDup (map fst d) /\
       (forall p v, leaf r p v -> exists jl x ls wj, json_cell E v = Ok jl wj /\ leaf_tells T false jl x /\ said_at V (root_place U (root_path U conf) ++ p) = Some x /\
          In (place_text F p, VArr ls) d /\ ls <> [] /\ forall y, In y ls -> exists l, cell_said T E l y /\ read_as O sheets l v) /\
       (forall q f v, leaf r (q ++ [PKey f]) v -> exists ls, In (place_text F q, VArr ls) d /\ ls <> [] /\
          forall y, In y ls -> exists f' v' l, leaf r (q ++ [PKey f']) v' /\ read_as O sheets l v' /\ row_said (l_sheet l, l_row l) y) /\
       (forall k x, In (k, x) d -> (exists p v, leaf r p v /\ k = place_text F p) \/ exists q f v, leaf r (q ++ [PKey f]) v /\ k = place_text F q) /\
       (forall g sp c, In g (fragments O sheets) -> In (sp, c) (icells (o_xml O) (o_id_name O) g) ->
          (exists p v ls y, leaf r p v /\ In (place_text F p, VArr ls) d /\ In y ls /\ cell_said T E (c_loc c) y /\ (v = c_val c \/ cv_eqb v (c_val c) = true)) \/
          exists x, In x wx /\ named_by x sp c)).
Proof. exact (cell_file Wd T U w). Qed.
Print Assumptions C71_cell_file.
(** the heading source map file: a member for every field of the records, with the
    columns [[sheet, heading], ...] of its values *)
Theorem C71_heading_file T Wd U w : let E := we_env (wd_wenv Wd) in floats_are_json (te_env T) -> unflatten_file Wd U = Ok tt w -> u_xml U = false -> ~ given (u_meta U) ->
  u_meta_only U = false \/ u_root_list U = true -> u_heads U <> [] ->
  let conf := default_conf (u_conf U) in let F := run_fancy U conf in
  exists f sheets O r h wx, main_run Wd U f conf sheets O /\ unflatten O sheets = Ok r wx /\ heads_written w (u_heads U) h /\
    (common_headings sheets -> exists t d, heads_text T E h = Ok t [] /\ document_says false t (VObj d) /\ NoDup (map fst d) /\
       (forall p v, leaf r p v -> exists hs, In (field_text F p, VArr hs) d) /\
       (forall k x, In (k, x) d -> exists hs, x = VArr hs /\ hs <> [] /\ (exists p v, leaf r p v /\ k = field_text F p) /\
          forall y, In y hs -> exists p v l, leaf r p v /\ field_text F p = k /\ read_as O sheets l v /\ heading_said T E (l_sheet l, l_heading l) y)).
Proof. exact (heading_file Wd T U w). Qed.
Print Assumptions C71_heading_file.

(** ** A run *)
Definition book71 : book :=
  [(u "main", [[SStr (u "id"); SStr (u "a/0/b"); SStr (u "x/y"); SInt 2020]; [SStr (u "1"); SStr (u "p"); SInt 5; SStr (u "z")]; [SStr (u "2"); SNone; SInt 6; SNone]]);
   (u "more", [[SStr (u "id"); SStr (u "a/0/c")]; [SStr (u "1"); SStr (u "q")]])].
Definition world71 : world := test_world book71 (JO []) (JS SNone) (VO None []).
Definition opts71 : uopts :=
  let U := with_meta [] false (unflatten_opts (u "xlsx")) in U.
Definition run71 : list event := Eval vm_compute in match unflatten_file world71 opts71 with Ok _ w => w | Raise _ _ => [] end.
Definition out71 : jout := Eval vm_compute in match flat_map (fun e => match e with Wrote _ (CJson j) => [j] | _ => [] end) run71 with j :: _ => j | [] => OArr [] end.
Definition cells71 : cmap := Eval vm_compute in flat_map (fun e => match e with Wrote _ (CCells m) => m | _ => [] end) run71.
Definition heads71 : hmap := Eval vm_compute in flat_map (fun e => match e with Wrote _ (CHeads m) => m | _ => [] end) run71.
Definition sheets71 : list sheet_in := Eval vm_compute in
  match read_book Xlsx {| rd_base := default_conf []; rd_use := true; rd_vertical := false; rd_include := []; rd_exclude := [[]] |} book71 with Ok r _ => r | Raise _ _ => [] end.
Example C71_meets : floats_are_json (te_env j_tenv) /\ unflatten_file world71 opts71 = Ok tt run71 /\ u_xml opts71 = false /\ ~ given (u_meta opts71) /\ u_meta_only opts71 = false /\
  u_cells opts71 <> [] /\ u_heads opts71 <> [] /\ (exists O, main_run world71 opts71 Xlsx (default_conf (u_conf opts71)) sheets71 O) /\ common_headings sheets71 /\
  json_written run71 (u_output opts71) out71 /\ cells_written run71 (u_cells opts71) cells71 /\ heads_written run71 (u_heads opts71) heads71 /\ plain_out j_tenv out71.
Proof.
  split; [exact j_floats_json|]. split; [vm_compute; reflexivity|]. split; [reflexivity|]. split; [intros (n & [= <-] & H); exact (H eq_refl)|]. split; [reflexivity|].
  split; [discriminate|]. split; [discriminate|]. split.
  { eexists. exists None. split; [left; split; reflexivity|]. split; [|reflexivity].
    exists book71, sheets71, [], []. split; [reflexivity|]. split; [vm_compute; reflexivity|reflexivity]. }
  split.
  { intros s Hs. vm_compute in Hs. repeat (destruct Hs as [<-|Hs]; [|]); try (destruct Hs).
    all: split; [intros hs h Hh Hin; vm_compute in Hh; injection Hh as <-; repeat (destruct Hin as [<-|Hin]; [exact I|]); destruct Hin|].
    all: intros line k x Hl Hk; vm_compute in Hl; repeat (destruct Hl as [<-|Hl]; [repeat (destruct Hk as [[= <- <-]|Hk]; [exact I|]); destruct Hk|]); destruct Hl. }
  split; [split; [vm_compute; tauto|intros f j H; vm_compute in H; repeat (destruct H as [[=]|H]); try (destruct H); subst; split; reflexivity]|].
  split; [intros f m; split; [intros H; vm_compute in H; repeat (destruct H as [[=]|H]); try (destruct H); subst; split; reflexivity|intros [-> ->]; vm_compute; tauto]|].
  split; [intros f m; split; [intros H; vm_compute in H; repeat (destruct H as [[=]|H]); try (destruct H); subst; split; reflexivity|intros [-> ->]; vm_compute; tauto]|].
  repeat first [apply po_object; repeat apply Forall_cons; try apply Forall_nil; cbn [snd]|apply po_array; repeat apply Forall_cons; try apply Forall_nil|apply po_leaf; apply pl_other; exact I].
Qed.
(** the entries for a value and for a record, read back from the file *)
Example C71_text : exists t d, cells_text j_tenv test_env cells71 = Ok t [] /\ loads t = Some (VObj d) /\
  sget (u "main/0/id") d = Some (VArr [VArr [VStr (u "main"); VStr (u "A"); VInt 2; VStr (u "id")]; VArr [VStr (u "more"); VStr (u "A"); VInt 2; VStr (u "id")]]) /\
  sget (u "main/0") d = Some (VArr [VArr [VStr (u "main"); VInt 2]; VArr [VStr (u "more"); VInt 2]]).
Proof. do 2 eexists. split; [vm_compute; reflexivity|]. split; [vm_compute; reflexivity|]. split; vm_compute; reflexivity. Qed.
(** the heading is written as it is in the sheet, the place in the output is not in
    it: the second row for "a/0/c" became item 1 *)
Example C71_heads_text : exists t d, heads_text j_tenv test_env heads71 = Ok t [] /\ loads t = Some (VObj d) /\
  sget (u "main/a/c") d = Some (VArr [VArr [VStr (u "more"); VStr (u "a/0/c")]]) /\ map fst d = [u "main/a/b"; u "main/a/c"; u "main/id"; u "main/x/y"].
Proof. do 2 eexists. split; [vm_compute; reflexivity|]. split; [vm_compute; reflexivity|]. split; vm_compute; reflexivity. Qed.
(** a Decimal that is no number could not be written as a heading (none is read from a spreadsheet) *)
Example C71_odd_heading : exists e w, cells_text j_tenv test_env [(u "a", ECells [{| l_sheet := u "s"; l_col := u "A"; l_row := 2; l_heading := SDec (DInf false) |}])] = Raise e w.
Proof. do 2 eexists. vm_compute. reflexivity. Qed.
