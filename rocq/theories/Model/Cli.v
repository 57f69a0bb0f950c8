(** The command line, /repo/flattentool/cli.py, and the part of the standard
    library's argparse it uses (argparse.py of CPython 3.11: _parse_optional,
    _get_option_tuples, _parse_known_args, _get_values, _SubParsersAction).

    SIMPLIFICATIONS.
    - The separator "--" is not modelled: a command line that has it is
      [POutside].
    - A negative --truncation-length is not modelled either ([POutside]).
    - The texts of help, usage and error messages are left out. *)
From Verif.Base Require Import PyStr PyNum PyVal PyDict Outcome.
From Verif.Model Require Import Readers Schema Flatten Commands.

Local Open Scope N_scope.

Definition dash : N := 45.
Definition equals : N := 61.

(** ** What an option is *)
Inductive aval := AStr (s : str) | AInt (z : Z) | ABool (b : bool) | AList (l : list aval).
(** action="store_true"; an ordinary option; action="append", nargs="?",
    const=True; nargs="*"; and -h *)
Inductive akind := KFlag | KOne | KMaybe | KMany | KHelp.
Record aopt := {
  ao_flags : list str; ao_dest : str; ao_kind : akind; ao_int : bool; ao_choices : option (list str); ao_required : bool;
  ao_default : option aval }.
Record aparser := { ap_opts : list aopt; ap_pos : list str }.

(** [add_argument] with a long option: the attribute is named after the first
    long option, dashes turned into underscores *)
Definition dest_of (flags : list str) : str :=
  match find (fun f => startswith f (u "--")) flags with
  | Some f => replace_c dash 95 (skipn 2 f)
  | None => []
  end.
Definition opt_flag (flags : list str) : aopt :=
  {| ao_flags := flags; ao_dest := dest_of flags; ao_kind := KFlag; ao_int := false; ao_choices := None; ao_required := false;
     ao_default := Some (ABool false) |}.
Definition opt_one (flags : list str) : aopt :=
  {| ao_flags := flags; ao_dest := dest_of flags; ao_kind := KOne; ao_int := false; ao_choices := None; ao_required := false;
     ao_default := None |}.
Definition opt_required (flags : list str) : aopt :=
  {| ao_flags := flags; ao_dest := dest_of flags; ao_kind := KOne; ao_int := false; ao_choices := None; ao_required := true;
     ao_default := None |}.
Definition opt_choice (flags choices : list str) (required : bool) : aopt :=
  {| ao_flags := flags; ao_dest := dest_of flags; ao_kind := KOne; ao_int := false; ao_choices := Some choices; ao_required := required;
     ao_default := None |}.
Definition opt_int (flags : list str) (default : Z) : aopt :=
  {| ao_flags := flags; ao_dest := dest_of flags; ao_kind := KOne; ao_int := true; ao_choices := None; ao_required := false;
     ao_default := Some (AInt default) |}.
Definition opt_default (flags : list str) (default : str) : aopt :=
  {| ao_flags := flags; ao_dest := dest_of flags; ao_kind := KOne; ao_int := false; ao_choices := None; ao_required := false;
     ao_default := Some (AStr default) |}.
Definition opt_maybe (flags : list str) : aopt :=
  {| ao_flags := flags; ao_dest := dest_of flags; ao_kind := KMaybe; ao_int := false; ao_choices := None; ao_required := false;
     ao_default := None |}.
Definition opt_many (flags : list str) (dest : str) : aopt :=
  {| ao_flags := flags; ao_dest := dest; ao_kind := KMany; ao_int := false; ao_choices := None; ao_required := false;
     ao_default := None |}.
Definition opt_help : aopt :=
  {| ao_flags := [u "-h"; u "--help"]; ao_dest := []; ao_kind := KHelp; ao_int := false; ao_choices := None; ao_required := false;
     ao_default := None |}.

(** ** The parsers of create_parser *)
(** [sorted(OUTPUT_FORMATS) + ["all"]] and [sorted(INPUT_FORMATS)], cli.py:37-38 *)
Definition output_formats : list str := [u "csv"; u "ods"; u "xlsx"; u "all"].
Definition input_formats : list str := [u "csv"; u "ods"; u "xlsx"].
(** cli.py:34-45 *)
Definition main_parser : aparser := {| ap_opts := [opt_help; opt_flag [u "-v"; u "--verbose"]]; ap_pos := [] |}.
(** cli.py:47-107 *)
Definition template_parser : aparser :=
  {| ap_opts := [
       opt_help;
       opt_required [u "-s"; u "--schema"];
       opt_choice [u "-f"; u "--output-format"] output_formats false;
       opt_one [u "-m"; u "--main-sheet-name"];
       opt_one [u "-o"; u "--output-name"];
       opt_flag [u "--rollup"];
       opt_one [u "-r"; u "--root-id"];
       opt_flag [u "--use-titles"];
       opt_flag [u "--disable-local-refs"];
       opt_flag [u "--no-deprecated-fields"];
       opt_int [u "--truncation-length"] 3;
       opt_one [u "--line-terminator"];
       opt_flag [u "--convert-wkt"]];
     ap_pos := [] |}.
(** cli.py:109-197 *)
Definition flatten_parser : aparser :=
  {| ap_opts := [
       opt_help;
       opt_one [u "-s"; u "--schema"];
       opt_choice [u "-f"; u "--output-format"] output_formats false;
       opt_flag [u "--xml"];
       opt_one [u "--id-name"];
       opt_one [u "-m"; u "--main-sheet-name"];
       opt_one [u "-o"; u "--output-name"];
       opt_one [u "--root-list-path"];
       opt_maybe [u "--rollup"];
       opt_one [u "-r"; u "--root-id"];
       opt_flag [u "--use-titles"];
       opt_int [u "--truncation-length"] 3;
       opt_flag [u "--root-is-list"];
       opt_one [u "--sheet-prefix"];
       opt_one [u "--filter-field"];
       opt_one [u "--filter-value"];
       opt_one [u "--preserve-fields"];
       opt_flag [u "--disable-local-refs"];
       opt_flag [u "--remove-empty-schema-columns"];
       opt_one [u "--line-terminator"];
       opt_flag [u "--convert-wkt"]];
     ap_pos := [u "input_name"] |}.
(** cli.py:198-311 *)
Definition unflatten_parser : aparser :=
  {| ap_opts := [
       opt_help;
       opt_choice [u "-f"; u "--input-format"] input_formats true;
       opt_flag [u "--xml"];
       opt_one [u "--id-name"];
       opt_one [u "-b"; u "--base-json"];
       opt_one [u "-m"; u "--root-list-path"];
       opt_one [u "-e"; u "--encoding"];
       opt_one [u "-o"; u "--output-name"];
       opt_one [u "-c"; u "--cell-source-map"];
       opt_one [u "-a"; u "--heading-source-map"];
       opt_one [u "--timezone-name"];
       opt_one [u "-r"; u "--root-id"];
       opt_one [u "-s"; u "--schema"];
       opt_flag [u "--convert-titles"];
       opt_flag [u "--vertical-orientation"];
       opt_one [u "--metatab-name"];
       opt_one [u "--metatab-schema"];
       opt_flag [u "--metatab-only"];
       opt_flag [u "--metatab-vertical-orientation"];
       opt_many [u "--xml-schema"] (u "xml_schemas");
       opt_one [u "--default-configuration"];
       opt_flag [u "--root-is-list"];
       opt_flag [u "--disable-local-refs"];
       opt_default [u "--xml-comment"] (u "XML generated by flatten-tool");
       opt_flag [u "--convert-wkt"]];
     ap_pos := [u "input_name"] |}.
Definition subparsers : list (str * aparser) :=
  [(u "create-template", template_parser); (u "flatten", flatten_parser); (u "unflatten", unflatten_parser)].

(** ** Which words are options *)
Definition find_opt (P : aparser) (flag : str) : option aopt := find (fun o => str_mem flag (ao_flags o)) (ap_opts P).
Definition all_flags (P : aparser) : list str := flat_map ao_flags (ap_opts P).
(** [s.partition(c)]: what is before the first [c], and what is after it *)
Fixpoint partition_at (c : N) (s : str) : str * option str :=
  match s with
  | [] => ([], None)
  | x :: s' => if x =? c then ([], Some s') else let '(a, b) := partition_at c s' in (x :: a, b)
  end.
(** _negative_number_matcher: -\d+ or -\d*.\d+ *)
Definition negative_number (s : str) : bool :=
  match s with
  | c :: t =>
    (c =? dash) &&
    match partition_at 46 t with
    | (_ :: _, None) => forallb is_digit t
    | (a, Some ((_ :: _) as b)) => forallb is_digit a && forallb is_digit b
    | _ => false
    end
  | [] => false
  end.
(** a word is an argument; or an option, with the text after "=" ([sep]) or
    after a one-letter option; or looks like an option but is none; or could be
    several.  [sep] says whether there was a "=". *)
Inductive acls := CArg | COpt (flag : str) (o : aopt) (sep : bool) (explicit : option str) | CUnknown | CAmbiguous.
(** _get_option_tuples *)
Definition option_tuples (P : aparser) (w : str) : list (str * bool * option str) :=
  if startswith w (u "--") then
    let '(prefix, explicit) := partition_at equals w in
    map (fun f => (f, match explicit with Some _ => true | None => false end, explicit))
        (filter (fun f => startswith f prefix) (all_flags P))
  else
    flat_map (fun f => if str_eqb f (firstn 2 w) then [(f, false, Some (skipn 2 w))]
                       else if startswith f w then [(f, false, None)] else []) (all_flags P).
(** _parse_optional *)
Definition classify (P : aparser) (w : str) : acls :=
  match w with
  | [] => CArg
  | c :: t =>
    if negb (c =? dash) then CArg
    else match find_opt P w with
    | Some o => COpt w o false None
    | None =>
      match t with
      | [] => CArg
      | _ =>
        let '(a, b) := partition_at equals w in
        match b, find_opt P a with
        | Some v, Some o => COpt a o true (Some v)
        | _, _ =>
          match option_tuples P w with
          | [(f, sep, e)] => match find_opt P f with Some o => COpt f o sep e | None => CUnknown end
          | _ :: _ :: _ => CAmbiguous
          | [] => if negative_number w then CArg else if existsb (N.eqb 32) w then CArg else CUnknown
          end
        end
      end
    end
  end.

(** ** Taking the options in turn *)
Record pstate := { ps_ns : list (str * option aval); ps_seen : list str; ps_left : list str; ps_extra : bool }.
Inductive presult (A : Type) := PUsage | PHelp | POutside | PDone (a : A).
Arguments PUsage {A}. Arguments PHelp {A}. Arguments POutside {A}. Arguments PDone {A}.
Definition set_ns (dest : str) (v : aval) (st : pstate) : pstate :=
  {| ps_ns := sset dest (Some v) (ps_ns st); ps_seen := dest :: ps_seen st; ps_left := ps_left st; ps_extra := ps_extra st |}.
Definition add_extra (st : pstate) : pstate :=
  {| ps_ns := ps_ns st; ps_seen := ps_seen st; ps_left := ps_left st; ps_extra := true |}.
(** _get_value and _check_value *)
Definition get_value (o : aopt) (s : str) : option aval :=
  if ao_int o then option_map AInt (parse_int s)
  else match ao_choices o with
       | Some l => if str_mem s l then Some (AStr s) else None
       | None => Some (AStr s)
       end.
Fixpoint get_values (o : aopt) (l : list str) : option (list aval) :=
  match l with
  | [] => Some []
  | s :: l' => match get_value o s, get_values o l' with Some v, Some r => Some (v :: r) | _, _ => None end
  end.
(** the words already appended *)
Definition items_of (v : option (option aval)) : list aval := match v with Some (Some (AList l)) => l | _ => [] end.
(** take_action: _get_values and the action itself *)
Definition take_action (st : pstate) (o : aopt) (args : list str) : presult pstate :=
  match ao_kind o, args with
  | KHelp, _ => PHelp
  | KFlag, _ => PDone (set_ns (ao_dest o) (ABool true) st)
  | KMany, _ => match get_values o args with Some l => PDone (set_ns (ao_dest o) (AList l) st) | None => PUsage end
  | KMaybe, [] => PDone (set_ns (ao_dest o) (AList (items_of (sget (ao_dest o) (ps_ns st)) ++ [ABool true])) st)
  | KMaybe, s :: _ => match get_value o s with
                      | Some v => PDone (set_ns (ao_dest o) (AList (items_of (sget (ao_dest o) (ps_ns st)) ++ [v])) st)
                      | None => PUsage
                      end
  | KOne, s :: _ => match get_value o s with Some v => PDone (set_ns (ao_dest o) v st) | None => PUsage end
  | KOne, [] => PUsage
  end.
Fixpoint take_actions (st : pstate) (l : list (aopt * list str)) : presult pstate :=
  match l with
  | [] => PDone st
  | (o, args) :: l' => match take_action st o args with PDone st' => take_actions st' l' | r => r end
  end.

Definition no_args (o : aopt) : bool := match ao_kind o with KFlag | KHelp => true | _ => false end.
(** the loop of consume_optional, for an option with text stuck to it: one-letter
    options without arguments may be followed by others in the same word.
    [None]: a usage error.  Otherwise the actions to take, the last of them, if
    its arguments are in the words that follow, and whether some letter was not
    an option. *)
Fixpoint unpack (P : aparser) (o : aopt) (short sep : bool) (ex : str) : option (list (aopt * list str) * option aopt * bool) :=
  if no_args o then
    match ex with
    | [] => None
    | c :: ex' =>
      if short then
        if sep || (c =? dash) then None
        else match find_opt P [dash; c] with
             | None => Some ([(o, [])], None, true)
             | Some o' =>
               match ex' with
               | [] => Some ([(o, [])], Some o', false)
               | d :: ex'' =>
                 match (if d =? equals then unpack P o' true true ex'' else unpack P o' true false ex') with
                 | Some (acts, last, extra) => Some ((o, []) :: acts, last, extra)
                 | None => None
                 end
               end
             end
      else None
    end
  else Some ([(o, [ex])], None, false).
Definition is_arg (c : acls) : bool := match c with CArg => true | _ => false end.
Fixpoint leading_args (l : list (str * acls)) : list str :=
  match l with
  | (w, CArg) :: l' => w :: leading_args l'
  | _ => []
  end.
(** _match_argument against the words that follow: how many of them are taken *)
Definition follow (o : aopt) (rest : list (str * acls)) : option (list str) :=
  match ao_kind o with
  | KFlag | KHelp => Some []
  | KOne => match rest with (w, CArg) :: _ => Some [w] | _ => None end
  | KMaybe => match rest with (w, CArg) :: _ => Some [w] | _ => Some [] end
  | KMany => Some (leading_args rest)
  end.
(** consume_optional: the new state and the number of following words used *)
Definition consume_optional (P : aparser) (st : pstate) (flag : str) (o : aopt) (sep : bool) (explicit : option str)
    (rest : list (str * acls)) : presult (pstate * nat) :=
  match (match explicit with
         | None => Some ([], Some o, false)
         | Some ex => unpack P o (negb (startswith flag (u "--"))) sep ex
         end) with
  | None => PUsage
  | Some (acts, last, extra) =>
    match (match last with None => Some ([], O) | Some o' => option_map (fun l => ([(o', l)], List.length l)) (follow o' rest) end) with
    | None => PUsage
    | Some (more, n) =>
      match take_actions st (acts ++ more) with
      | PDone st' => PDone (if extra then add_extra st' else st', n)
      | PUsage => PUsage | PHelp => PHelp | POutside => POutside
      end
    end
  end.
(** consume_positionals, for a positional that takes one word *)
Definition consume_positional (st : pstate) (w : str) : pstate :=
  match ps_left st with
  | p :: l => {| ps_ns := sset p (Some (AStr w)) (ps_ns st); ps_seen := ps_seen st; ps_left := l; ps_extra := ps_extra st |}
  | [] => add_extra st
  end.
(** the loop of _parse_known_args; [skip] words have been used already *)
Fixpoint parse_words (P : aparser) (st : pstate) (skip : nat) (ws : list (str * acls)) : presult pstate :=
  match ws with
  | [] => PDone st
  | (w, c) :: rest =>
    match skip with
    | S k => parse_words P st k rest
    | O =>
      match c with
      | CArg => parse_words P (consume_positional st w) O rest
      | CUnknown => parse_words P (add_extra st) O rest
      | CAmbiguous => PUsage
      | COpt flag o sep ex =>
        match consume_optional P st flag o sep ex rest with
        | PDone (st', n) => parse_words P st' n rest
        | PUsage => PUsage | PHelp => PHelp | POutside => POutside
        end
      end
    end
  end.
Definition defaults (P : aparser) : list (str * option aval) :=
  flat_map (fun o => match ao_kind o with KHelp => [] | _ => [(ao_dest o, ao_default o)] end) (ap_opts P)
  ++ map (fun p => (p, None)) (ap_pos P).
Definition start_state (P : aparser) : pstate :=
  {| ps_ns := defaults P; ps_seen := []; ps_left := ap_pos P; ps_extra := false |}.
Definition all_there (P : aparser) (st : pstate) : bool :=
  match ps_left st with [] => true | _ => false end
  && forallb (fun o => negb (ao_required o) || str_mem (ao_dest o) (ps_seen st)) (ap_opts P).
Definition classified (P : aparser) (ws : list str) : list (str * acls) := map (fun w => (w, classify P w)) ws.
Definition ambiguous (ws : list (str * acls)) : bool := existsb (fun wc => match snd wc with CAmbiguous => true | _ => false end) ws.
(** parse_known_args of a subparser *)
Definition parse_sub (P : aparser) (ws : list str) : presult pstate :=
  let l := classified P ws in
  if ambiguous l then PUsage
  else match parse_words P (start_state P) O l with
       | PDone st => if all_there P st then PDone st else PUsage
       | r => r
       end.
(** the main parser: its options, up to the first word that is not one; that
    word names the subparser, which gets the rest *)
Fixpoint parse_main (st : pstate) (skip : nat) (ws : list (str * acls)) : presult (pstate * option (str * list (str * option aval))) :=
  match ws with
  | [] => PDone (st, None)
  | (w, c) :: rest =>
    match skip with
    | S k => parse_main st k rest
    | O =>
      match c with
      | CArg =>
        match sget w subparsers with
        | None => PUsage
        | Some P => match parse_sub P (map fst rest) with
                    | PDone st' => PDone (if ps_extra st' then add_extra st else st, Some (w, ps_ns st'))
                    | PUsage => PUsage | PHelp => PHelp | POutside => POutside
                    end
        end
      | CUnknown => parse_main (add_extra st) O rest
      | CAmbiguous => PUsage
      | COpt flag o sep ex =>
        match consume_optional main_parser st flag o sep ex rest with
        | PDone (st', n) => parse_main st' n rest
        | PUsage => PUsage | PHelp => PHelp | POutside => POutside
        end
      end
    end
  end.
(** parse_args: the namespace of the main parser, and that of the subparser *)
Definition parse_args (argv : list str) : presult (list (str * option aval) * option (str * list (str * option aval))) :=
  if str_mem (u "--") argv then POutside
  else
    let l := classified main_parser argv in
    if ambiguous l then PUsage
    else match parse_main (start_state main_parser) O l with
         | PDone (st, sub) => if ps_extra st then PUsage else PDone (ps_ns st, sub)
         | PUsage => PUsage | PHelp => PHelp | POutside => POutside
         end.

(** ** From the namespace to the arguments of the function *)
(** kwargs_from_parsed_args, cli.py:316-322 *)
Definition kwargs_from_parsed_args (ns : list (str * option aval)) : list (str * aval) :=
  flat_map (fun kv => match snd kv with Some v => [(fst kv, v)] | None => [] end) ns.
(** a parameter of the function, or its default, __init__.py:18-32, 83-106, 208-236 *)
Definition kw_str (k d : str) (kw : list (str * aval)) : str := match sget k kw with Some (AStr s) => s | _ => d end.
Definition kw_opt (k : str) (kw : list (str * aval)) : option str := match sget k kw with Some (AStr s) => Some s | _ => None end.
Definition kw_bool (k : str) (kw : list (str * aval)) : bool := match sget k kw with Some (ABool b) => b | _ => false end.
Definition kw_int (k : str) (d : Z) (kw : list (str * aval)) : Z := match sget k kw with Some (AInt z) => z | _ => d end.
Definition kw_strs (k : str) (kw : list (str * aval)) : option (list str) :=
  match sget k kw with Some (AList l) => Some (flat_map (fun v => match v with AStr s => [s] | _ => [] end) l) | _ => None end.
Definition kw_roll (k : str) (kw : list (str * aval)) : rollarg :=
  match sget k kw with
  | Some (AList l) => RollList (flat_map (fun v => match v with AStr s => [RPath s] | ABool _ => [RTrue] | _ => [] end) l)
  | _ => RollFalse
  end.
(** the function called.  The encoding of unflatten is kept beside [uopts]:
    what is in the files is given by the world. *)
Inductive call := CallTemplate (C : copts) | CallFlatten (F : flopts) | CallUnflatten (U : uopts) (encoding : str).
Definition template_call (kw : list (str * aval)) (trunc : nat) : copts :=
  {| c_schema := kw_str (u "schema") [] kw; c_output := kw_opt (u "output_name") kw; c_format := kw_str (u "output_format") (u "all") kw;
     c_main := kw_str (u "main_sheet_name") (u "main") kw; c_rollup := kw_bool (u "rollup") kw; c_root_id := kw_str (u "root_id") [] kw;
     c_titles := kw_bool (u "use_titles") kw; c_local_off := kw_bool (u "disable_local_refs") kw; c_trunc := trunc;
     c_nodep := kw_bool (u "no_deprecated_fields") kw; c_term := kw_str (u "line_terminator") (u "CRLF") kw;
     c_wkt := kw_bool (u "convert_wkt") kw |}.
Definition flatten_call (kw : list (str * aval)) (trunc : nat) : flopts :=
  {| f_input := kw_str (u "input_name") [] kw; f_schema := kw_str (u "schema") [] kw; f_output := kw_opt (u "output_name") kw;
     f_format := kw_str (u "output_format") (u "all") kw; f_main := kw_str (u "main_sheet_name") (u "main") kw;
     f_path := kw_str (u "root_list_path") (u "main") kw; f_root_list := kw_bool (u "root_is_list") kw;
     f_prefix := kw_str (u "sheet_prefix") [] kw; f_filter_field := kw_opt (u "filter_field") kw;
     f_filter_value := kw_opt (u "filter_value") kw; f_preserve := kw_str (u "preserve_fields") [] kw; f_roll := kw_roll (u "rollup") kw;
     f_root_id := kw_str (u "root_id") [] kw; f_titles := kw_bool (u "use_titles") kw; f_xml := kw_bool (u "xml") kw;
     f_id_name := kw_str (u "id_name") (u "id") kw; f_local_off := kw_bool (u "disable_local_refs") kw;
     f_drop := kw_bool (u "remove_empty_schema_columns") kw; f_trunc := trunc; f_term := kw_str (u "line_terminator") (u "CRLF") kw;
     f_wkt := kw_bool (u "convert_wkt") kw |}.
Definition unflatten_call (kw : list (str * aval)) (trunc : nat) : uopts :=
  {| u_input := kw_str (u "input_name") [] kw; u_base := kw_opt (u "base_json") kw; u_format := kw_opt (u "input_format") kw;
     u_output := kw_opt (u "output_name") kw; u_path := kw_opt (u "root_list_path") kw; u_root_list := kw_bool (u "root_is_list") kw;
     u_zone := kw_str (u "timezone_name") (u "UTC") kw; u_root_id := kw_str (u "root_id") [] kw; u_schema := kw_str (u "schema") [] kw;
     u_titles := kw_bool (u "convert_titles") kw; u_cells := kw_str (u "cell_source_map") [] kw;
     u_heads := kw_str (u "heading_source_map") [] kw; u_id_name := kw_opt (u "id_name") kw; u_xml := kw_bool (u "xml") kw;
     u_vertical := kw_bool (u "vertical_orientation") kw; u_meta := kw_opt (u "metatab_name") kw;
     u_meta_only := kw_bool (u "metatab_only") kw; u_meta_schema := kw_str (u "metatab_schema") [] kw;
     u_meta_vertical := kw_bool (u "metatab_vertical_orientation") kw; u_xsds := kw_strs (u "xml_schemas") kw;
     u_conf := kw_str (u "default_configuration") [] kw; u_local_off := kw_bool (u "disable_local_refs") kw;
     u_comment := kw_opt (u "xml_comment") kw; u_trunc := trunc; u_wkt := kw_bool (u "convert_wkt") kw |}.
Definition call_of (name : str) (kw : list (str * aval)) : presult call :=
  let trunc := kw_int (u "truncation_length") 3 kw in
  if (trunc <? 0)%Z then POutside
  else
    let n := Z.to_nat trunc in
    if str_eqb name (u "create-template") then PDone (CallTemplate (template_call kw n))
    else if str_eqb name (u "flatten") then PDone (CallFlatten (flatten_call kw n))
    else PDone (CallUnflatten (unflatten_call kw n) (kw_str (u "encoding") (u "utf8") kw)).

(** ** main, cli.py:342-376 *)
(** how the program ends, its exit status below *)
Inductive ending :=
| UsageShown                  (** argparse's error *)
| HelpShown
| Finished
| Reported (e : exn)          (** create-template prints an OSError and returns *)
| Failed (verbose : bool) (e : exn)   (** an uncaught exception: its message only, or the traceback *)
| NotModelled.
Definition status (e : ending) : N :=
  match e with UsageShown => 2 | Failed _ _ => 1 | _ => 0 end.
(** what the arguments ask for: nothing but help, or a call *)
Definition call_for (argv : list str) : presult (option (bool * call)) :=
  match parse_args argv with
  | PDone (ns, None) => PDone None
  | PDone (ns, Some (name, sub)) =>
    match call_of name (kwargs_from_parsed_args sub) with
    | PDone c => PDone (Some (kw_bool (u "verbose") (kwargs_from_parsed_args ns), c))
    | PUsage => PUsage | PHelp => PHelp | POutside => POutside
    end
  | PUsage => PUsage | PHelp => PHelp | POutside => POutside
  end.
Definition run_call (Wd : world) (c : call) : IO unit :=
  match c with
  | CallTemplate C => create_template Wd C
  | CallFlatten F => flatten_file Wd F
  | CallUnflatten U _ => unflatten_file Wd U
  end.
Definition main (Wd : world) (argv : list str) : ending * list event :=
  match call_for argv with
  | PUsage => (UsageShown, [])
  | PHelp | PDone None => (HelpShown, [])
  | POutside => (NotModelled, [])
  | PDone (Some (verbose, c)) =>
    match run_call Wd c with
    | Ok _ t => (Finished, t)
    | Raise e t =>
      match c, e with
      | CallTemplate _, EOSError => (Reported e, t)
      | _, _ => (Failed verbose e, t)
      end
    end
  end.
