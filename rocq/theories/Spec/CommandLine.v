(** What a command line says (C63, C64).  The user writes words; each says one
    thing about one option; the meaning of the line is read off the things
    said.  Nothing here mentions how the words are parsed. *)
From Verif.Base Require Import PyStr PyNum PyVal PyDict.
From Verif.Model Require Import Commands Cli.
Local Open Scope N_scope.

(** ** What is written *)
Inductive word :=
| Alone (name : str)                      (** --xml *)
| Apart (name v : str)                    (** --schema v *)
| Joined (name v : str)                   (** --schema=v *)
| Stuck (name v : str)                    (** -sv *)
| Listed (name : str) (vs : list str)     (** --xml-schema a b *)
| Plain (v : str).                        (** in.json *)
Definition typed (w : word) : list str :=
  match w with
  | Alone n => [n]
  | Apart n v => [n; v]
  | Joined n v => [n ++ u "=" ++ v]
  | Stuck n v => [n ++ v]
  | Listed n vs => n :: vs
  | Plain v => [v]
  end.
Definition words_of (ws : list word) : list str := flat_map typed ws.
(** before the name of the subcommand: -v or --verbose, any number of times *)
Definition loud (t : str) : Prop := t = u "-v" \/ t = u "--verbose".
Definition is_loud (pre : list str) : bool := match pre with [] => false | _ => true end.

(** ** What can be said *)
(** the options of a subcommand: those without a value, those with one, those
    with or without one, those with any number *)
Record command := { cm_switches : list str; cm_valued : list str; cm_maybe : list str; cm_lists : list str }.
Definition cm_names (C : command) : list str :=
  [u "-h"; u "--help"] ++ cm_switches C ++ cm_valued C ++ cm_maybe C ++ cm_lists C.
Definition template_command : command :=
  {| cm_switches := [u "--rollup"; u "--use-titles"; u "--disable-local-refs"; u "--no-deprecated-fields"; u "--convert-wkt"];
     cm_valued := [u "-s"; u "--schema"; u "-f"; u "--output-format"; u "-m"; u "--main-sheet-name"; u "-o"; u "--output-name";
                   u "-r"; u "--root-id"; u "--truncation-length"; u "--line-terminator"];
     cm_maybe := []; cm_lists := [] |}.
Definition flatten_command : command :=
  {| cm_switches := [u "--xml"; u "--use-titles"; u "--root-is-list"; u "--disable-local-refs"; u "--remove-empty-schema-columns"; u "--convert-wkt"];
     cm_valued := [u "-s"; u "--schema"; u "-f"; u "--output-format"; u "--id-name"; u "-m"; u "--main-sheet-name"; u "-o"; u "--output-name";
                   u "--root-list-path"; u "-r"; u "--root-id"; u "--truncation-length"; u "--sheet-prefix"; u "--filter-field";
                   u "--filter-value"; u "--preserve-fields"; u "--line-terminator"];
     cm_maybe := [u "--rollup"]; cm_lists := [] |}.
Definition unflatten_command : command :=
  {| cm_switches := [u "--xml"; u "--convert-titles"; u "--vertical-orientation"; u "--metatab-only"; u "--metatab-vertical-orientation";
                     u "--root-is-list"; u "--disable-local-refs"; u "--convert-wkt"];
     cm_valued := [u "-f"; u "--input-format"; u "--id-name"; u "-b"; u "--base-json"; u "-m"; u "--root-list-path"; u "-e"; u "--encoding";
                   u "-o"; u "--output-name"; u "-c"; u "--cell-source-map"; u "-a"; u "--heading-source-map"; u "--timezone-name";
                   u "-r"; u "--root-id"; u "-s"; u "--schema"; u "--metatab-name"; u "--metatab-schema"; u "--default-configuration";
                   u "--xml-comment"];
     cm_maybe := []; cm_lists := [u "--xml-schema"] |}.

(** a name means the option of that name, or the only one it is the beginning of *)
Definition means (C : command) (n f : str) : Prop :=
  In f (cm_names C)
  /\ (n = f
      \/ ~ In n (cm_names C) /\ startswith n (u "--") = true /\ startswith f n = true
         /\ forall f', In f' (cm_names C) -> startswith f' n = true -> f' = f).
(** a word that cannot be taken for an option *)
Definition value_word (v : str) : Prop := startswith v (u "-") = false \/ v = u "-".

Inductive item :=
| Switched (f : str)              (** the option is there, without a value *)
| Value (f v : str)               (** the option has this value *)
| Values (f : str) (vs : list str)
| Input (v : str).                (** the name of the input *)
Inductive says (C : command) : word -> item -> Prop :=
| says_switch n f : means C n f -> In f (cm_switches C) \/ In f (cm_maybe C) -> says C (Alone n) (Switched f)
| says_apart n f v : means C n f -> In f (cm_valued C) \/ In f (cm_maybe C) -> value_word v -> says C (Apart n v) (Value f v)
| says_joined n f v : means C n f -> In f (cm_valued C) \/ In f (cm_maybe C) -> says C (Joined n v) (Value f v)
| says_joined_list n f v : means C n f -> In f (cm_lists C) -> says C (Joined n v) (Values f [v])
| says_stuck n v : In n (cm_valued C) -> startswith n (u "--") = false -> v <> [] -> startswith v (u "=") = false ->
    says C (Stuck n v) (Value n v)
| says_list n f vs : means C n f -> In f (cm_lists C) -> Forall value_word vs -> says C (Listed n vs) (Values f vs)
| says_input v : value_word v -> says C (Plain v) (Input v).
(** the name of the input does not come right after an option that could take
    it for its own value: --rollup without a value, --xml-schema *)
Definition open_ended (C : command) (w : word) : Prop :=
  match w with
  | Alone n => exists f, means C n f /\ In f (cm_maybe C)
  | Listed _ _ => True
  | _ => False
  end.
Definition line_says (C : command) (ws : list word) (gs : list item) : Prop :=
  Forall2 (says C) ws gs
  /\ forall pre w v post, ws = pre ++ w :: Plain v :: post -> ~ open_ended C w.

(** ** What it means *)
(** the last value given under one of these names *)
Fixpoint value_of (names : list str) (gs : list item) : option str :=
  match gs with
  | [] => None
  | g :: gs' => match value_of names gs' with
                | Some v => Some v
                | None => match g with Value f v => if str_mem f names then Some v else None | _ => None end
                end
  end.
Definition value_or (d : str) (names : list str) (gs : list item) : str :=
  match value_of names gs with Some v => v | None => d end.
Definition switched (name : str) (gs : list item) : bool :=
  existsb (fun g => match g with Switched f => str_eqb f name | _ => false end) gs.
(** the last list given *)
Fixpoint values_of (name : str) (gs : list item) : option (list str) :=
  match gs with
  | [] => None
  | g :: gs' => match values_of name gs' with
                | Some v => Some v
                | None => match g with Values f v => if str_eqb f name then Some v else None | _ => None end
                end
  end.
(** --rollup: every use of it, in order *)
Definition rolled (name : str) (gs : list item) : list rollitem :=
  flat_map (fun g => match g with
                     | Switched f => if str_eqb f name then [RTrue] else []
                     | Value f v => if str_eqb f name then [RPath v] else []
                     | _ => []
                     end) gs.
Definition roll_of (name : str) (gs : list item) : rollarg :=
  match rolled name gs with [] => RollFalse | l => RollList l end.
Definition inputs (gs : list item) : list str := flat_map (fun g => match g with Input v => [v] | _ => [] end) gs.
(** every value given under these names is one of [ok] *)
Definition only (names ok : list str) (gs : list item) : Prop := forall f v, In (Value f v) gs -> In f names -> In v ok.
(** every --truncation-length is a number, the last one is [n] (3 if there is none) *)
Definition cut_at (gs : list item) (n : nat) : Prop :=
  (forall f v, In (Value f v) gs -> In f [u "--truncation-length"] -> exists z, parse_int v = Some z)
  /\ match value_of [u "--truncation-length"] gs with Some v => parse_int v = Some (Z.of_nat n) | None => n = 3%nat end.

Definition out_formats : list str := [u "csv"; u "ods"; u "xlsx"; u "all"].
Definition in_formats : list str := [u "csv"; u "ods"; u "xlsx"].

Definition template_meaning (gs : list item) (n : nat) : copts :=
  {| c_schema := value_or [] [u "-s"; u "--schema"] gs;
     c_output := value_of [u "-o"; u "--output-name"] gs;
     c_format := value_or (u "all") [u "-f"; u "--output-format"] gs;
     c_main := value_or (u "main") [u "-m"; u "--main-sheet-name"] gs;
     c_rollup := switched (u "--rollup") gs;
     c_root_id := value_or [] [u "-r"; u "--root-id"] gs;
     c_titles := switched (u "--use-titles") gs;
     c_local_off := switched (u "--disable-local-refs") gs;
     c_trunc := n;
     c_nodep := switched (u "--no-deprecated-fields") gs;
     c_term := value_or (u "CRLF") [u "--line-terminator"] gs;
     c_wkt := switched (u "--convert-wkt") gs |}.
Definition flatten_meaning (input : str) (gs : list item) (n : nat) : flopts :=
  {| f_input := input;
     f_schema := value_or [] [u "-s"; u "--schema"] gs;
     f_output := value_of [u "-o"; u "--output-name"] gs;
     f_format := value_or (u "all") [u "-f"; u "--output-format"] gs;
     f_main := value_or (u "main") [u "-m"; u "--main-sheet-name"] gs;
     f_path := value_or (u "main") [u "--root-list-path"] gs;
     f_root_list := switched (u "--root-is-list") gs;
     f_prefix := value_or [] [u "--sheet-prefix"] gs;
     f_filter_field := value_of [u "--filter-field"] gs;
     f_filter_value := value_of [u "--filter-value"] gs;
     f_preserve := value_or [] [u "--preserve-fields"] gs;
     f_roll := roll_of (u "--rollup") gs;
     f_root_id := value_or [] [u "-r"; u "--root-id"] gs;
     f_titles := switched (u "--use-titles") gs;
     f_xml := switched (u "--xml") gs;
     f_id_name := value_or (u "id") [u "--id-name"] gs;
     f_local_off := switched (u "--disable-local-refs") gs;
     f_drop := switched (u "--remove-empty-schema-columns") gs;
     f_trunc := n;
     f_term := value_or (u "CRLF") [u "--line-terminator"] gs;
     f_wkt := switched (u "--convert-wkt") gs |}.
Definition unflatten_meaning (input : str) (gs : list item) : uopts :=
  {| u_input := input;
     u_base := value_of [u "-b"; u "--base-json"] gs;
     u_format := value_of [u "-f"; u "--input-format"] gs;
     u_output := value_of [u "-o"; u "--output-name"] gs;
     u_path := value_of [u "-m"; u "--root-list-path"] gs;
     u_root_list := switched (u "--root-is-list") gs;
     u_zone := value_or (u "UTC") [u "--timezone-name"] gs;
     u_root_id := value_or [] [u "-r"; u "--root-id"] gs;
     u_schema := value_or [] [u "-s"; u "--schema"] gs;
     u_titles := switched (u "--convert-titles") gs;
     u_cells := value_or [] [u "-c"; u "--cell-source-map"] gs;
     u_heads := value_or [] [u "-a"; u "--heading-source-map"] gs;
     u_id_name := value_of [u "--id-name"] gs;
     u_xml := switched (u "--xml") gs;
     u_vertical := switched (u "--vertical-orientation") gs;
     u_meta := value_of [u "--metatab-name"] gs;
     u_meta_only := switched (u "--metatab-only") gs;
     u_meta_schema := value_or [] [u "--metatab-schema"] gs;
     u_meta_vertical := switched (u "--metatab-vertical-orientation") gs;
     u_xsds := values_of (u "--xml-schema") gs;
     u_conf := value_or [] [u "--default-configuration"] gs;
     u_local_off := switched (u "--disable-local-refs") gs;
     u_comment := Some (value_or (u "XML generated by flatten-tool") [u "--xml-comment"] gs);
     u_trunc := 3;
     u_wkt := switched (u "--convert-wkt") gs |}.

(** ** What every command line does (C64) *)
(** [s] is a word, or the end of one *)
Definition from_words (argv : list str) (s : str) : Prop := exists w p, In w argv /\ w = p ++ s.
(** the texts a call is given *)
Definition maybe (o : option str) : list str := match o with Some s => [s] | None => [] end.
Definition call_texts (c : call) : list str :=
  match c with
  | CallTemplate C => [c_schema C; c_format C; c_main C; c_root_id C; c_term C] ++ maybe (c_output C)
  | CallFlatten F =>
    [f_input F; f_schema F; f_format F; f_main F; f_path F; f_prefix F; f_preserve F; f_root_id F; f_id_name F; f_term F]
    ++ maybe (f_output F) ++ maybe (f_filter_field F) ++ maybe (f_filter_value F)
    ++ match f_roll F with RollList l => roll_paths l | _ => [] end
  | CallUnflatten U encoding =>
    [u_input U; u_zone U; u_root_id U; u_schema U; u_cells U; u_heads U; u_meta_schema U; u_conf U; encoding]
    ++ maybe (u_base U) ++ maybe (u_format U) ++ maybe (u_output U) ++ maybe (u_path U) ++ maybe (u_id_name U) ++ maybe (u_meta U)
    ++ match u_xsds U with Some l => l | None => [] end ++ maybe (u_comment U)
  end.
(** the values the options have when they are not used *)
Definition unused_values : list str :=
  [[]; u "all"; u "main"; u "id"; u "CRLF"; u "UTC"; u "utf8"; u "XML generated by flatten-tool"].
(** the input is a word of the line, the format one that exists *)
Definition call_stands (argv : list str) (c : call) : Prop :=
  match c with
  | CallTemplate C => from_words argv (c_schema C) /\ In (c_format C) out_formats
  | CallFlatten F => In (f_input F) argv /\ In (f_format F) out_formats
  | CallUnflatten U _ => In (u_input U) argv /\ exists f, u_format U = Some f /\ In f in_formats
  end.
