(** The three functions a user calls, /repo/flattentool/__init__.py:
    create_template (18-78), flatten (81-176), unflatten (208-411), and the part
    of JSONParser that reads its arguments, json_input.py:117-318.

    A run is a trace of [event]s (files opened, files written, warnings) and a
    result or an exception.

    SIMPLIFICATIONS.
    - What is in the files is given by a [world]; parsing JSON, XML, XLSX, ODS
      and resolving the references of a schema is not modelled here.  A file that
      cannot be parsed raises when it is opened (ijson raises when it gets to the
      malformed place).
    - A file is written after its contents have been computed: the model shows no
      partly written files when an exception is raised while writing.
    - Temporary files (ZODB) and unknown keyword arguments are left out. *)
From Verif.Base Require Import PyStr PyNum PyVal PyDict Outcome.
From Verif.Model Require Import Warn Lib Convert Input Json SourceMap Readers Ods Titles TitleLines Flatten Schema SortXml XmlInput XmlOut Csv Output.
Local Open Scope res_scope.

(** ** Traces *)
Inductive anywarn :=
| AInput (w : warning) | ASchema (w : swarning) | AFlatten (w : fwarning) | AOutput (w : owarning) | AXml (tag : str)
| ARollupIgnored                               (* json_input.py:208-215 *)
| APreserveNotInSchema (paths : list str).     (* json_input.py:293-303 *)
(** JSON as written *)
Inductive jout := OLeaf (j : jsonv) | OObj (l : list (str * jout)) | OArr (l : list jout).
Inductive content :=
| CText (s : str) | CXlsx (l : list worksheet) | COds (l : list (str * list ods_row))
| CJson (j : jout) | CXml (root : xel) (comment : str) | CCells (m : cmap) | CHeads (m : hmap).
Inductive event :=
| Warned (w : anywarn)
| Opened (file : str)
| Wrote (file : option str) (c : content).     (** no file name: standard output *)
Notation IO := (res event).
Definition lift {W A} (f : W -> anywarn) (m : res W A) : IO A :=
  match m with
  | Ok a w => Ok a (map (fun x => Warned (f x)) w)
  | Raise e w => Raise e (map (fun x => Warned (f x)) w)
  end.
Definition write (file : option str) (c : content) : IO unit := Ok tt [Wrote file c].
Definition outcome A : Type := exn + A.
Definition open_file {A} (file : str) (o : outcome A) : IO A :=
  match o with inl e => Raise e [Opened file] | inr a => Ok a [Opened file] end.
Fixpoint each {A B} (f : A -> IO B) (l : list A) : IO (list B) :=
  match l with [] => ret [] | x :: l' => y <- f x ;; r <- each f l' ;; ret (y :: r) end.

(** ** The world *)
Record world := {
  wd_schema : bool -> str -> outcome sv;          (** a JSON schema (disable_local_refs, name) *)
  wd_json : str -> outcome jv;                    (** a JSON document, numbers as ijson gives them *)
  wd_base : str -> outcome jv;                    (** a JSON document, numbers as json.load gives them *)
  wd_xml : option str -> str -> outcome jv;       (** xmltodict.parse with that force_list: the root element's value *)
  wd_lines : str -> outcome (list str);           (** the lines of a text file *)
  wd_isfile : str -> bool;                        (** os.path.isfile *)
  wd_book : fmt -> str -> outcome book;           (** a spreadsheet *)
  wd_xsd : str -> outcome xel;                    (** an XML schema *)
  wd_xsd_fuel : nat;                              (** bound for recursive XML schemas, see Model/SortXml.v *)
  wd_xenv : xenv;
  wd_wenv : wenv;
  wd_lower : str -> str;
  wd_shape : option (jobj -> option str);
  wd_set_order : list str -> list str;
  wd_conv : bool -> str -> conv_env }.            (** convert_wkt, timezone_name *)

(** [output.FORMATS], [input.FORMATS], [FORMATS_SUFFIX], [LINE_TERMINATORS];
    output.py:167-175, input.py:964 *)
Definition formats : list (str * fmt) := [(u "xlsx", Xlsx); (u "csv", Csv); (u "ods", Ods)].
Definition suffix (f : fmt) : str := match f with Xlsx => u ".xlsx" | Ods => u ".ods" | Csv => [] end.
Definition terminators : list (str * term) := [(u "LF", LF); (u "CRLF", CRLF)].
(** None and "" are both falsy *)
Definition truthy (o : option str) : bool := match o with Some (_ :: _) => true | _ => false end.
Definition or_default (o : option str) (d : str) : str := match o with Some ((_ :: _) as s) => s | _ => d end.

Section Commands.
  Variable Wd : world.

  (** ** Writing spreadsheets, __init__.py:55-78, 149-176 *)
  Definition spreadsheet_output (main_sheet prefix : str) (t : term) (main : table) (subs : list table) (f : fmt) (name : str) : IO unit :=
    let W := {| w_main := main_sheet; w_output := name; w_prefix := prefix; w_term := t |} in
    match f with
    | Xlsx => b <- lift AOutput (write_xlsx W (wd_wenv Wd) main subs) ;; write (Some name) (CXlsx b)
    | Ods => b <- lift AOutput (write_ods W (wd_wenv Wd) main subs) ;; write (Some name) (COds b)
    | Csv => fs <- lift AOutput (write_csv_files W (wd_wenv Wd) main subs []) ;;
             _ <- each (fun pf : str * str => write (Some (fst pf)) (CText (snd pf))) fs ;; ret tt
    end.
  Definition write_outputs (main_sheet prefix : str) (t : term) (main : table) (subs : list table) (default : str)
      (output_format : str) (output_name : option str) : IO unit :=
    if str_eqb output_format (u "all") then
      let name := or_default output_name default in
      _ <- each (fun nf : str * fmt => spreadsheet_output main_sheet prefix t main subs (snd nf) (name ++ suffix (snd nf))) formats ;; ret tt
    else match sget output_format formats with
         | Some f => spreadsheet_output main_sheet prefix t main subs f (or_default output_name (default ++ suffix f))
         | None => Raise EFlattenToolError []
         end.

  (** ** create_template, __init__.py:18-78 *)
  Record copts := {
    c_schema : str; c_output : option str; c_format : str; c_main : str; c_rollup : bool; c_root_id : str; c_titles : bool;
    c_local_off : bool; c_trunc : nat; c_nodep : bool; c_term : str; c_wkt : bool }.
  Definition schema_parser (local_off : bool) (file : str) (O : sopts) : IO sps :=
    v <- open_file file (wd_schema Wd local_off file) ;; lift ASchema (parse_schema O v).
  Definition create_template (C : copts) : IO unit :=
    match sget (c_term C) terminators with
    | None => Raise EFlattenToolError []
    | Some t =>
      s <- schema_parser (c_local_off C) (c_schema C)
             {| so_rollup := c_rollup C; so_root_id := c_root_id C; so_titles := c_titles C; so_trunc := c_trunc C;
                so_nodep := c_nodep C; so_wkt := c_wkt C; so_lower := wd_lower Wd |} ;;
      write_outputs (c_main C) [] t (table_of [] [] (sp_main s)) (map (fun nx => table_of [] (fst nx) (snd nx)) (sp_subs s))
                    (u "template") (c_format C) (c_output C)
    end.

  (** ** flatten *)
  (** the rollup argument: False, True, or a list of True and paths *)
  Inductive rollitem := RTrue | RPath (p : str).
  Inductive rollarg := RollFalse | RollTrue | RollList (l : list rollitem).
  Definition roll_truthy (r : rollarg) : bool := match r with RollFalse | RollList [] => false | _ => true end.
  Record flopts := {
    f_input : str; f_schema : str; f_output : option str; f_format : str; f_main : str; f_path : str; f_root_list : bool;
    f_prefix : str; f_filter_field : option str; f_filter_value : option str; f_preserve : str; f_roll : rollarg;
    f_root_id : str; f_titles : bool; f_xml : bool; f_id_name : str; f_local_off : bool; f_drop : bool; f_trunc : nat;
    f_term : str; f_wkt : bool }.
  (** json_input.py:204-247.  [_(message, category)] is a call of gettext with
      two arguments: a TypeError. *)
  Definition roll_paths (l : list rollitem) : list str := flat_map (fun x => match x with RTrue => [] | RPath p => [p] end) l.
  Definition resolve_rollup (schema : option sps) (r : rollarg) : IO (list str) :=
    if roll_truthy r then
      match match schema with Some s => sp_rollup s | None => [] end with
      | (_ :: _) as l =>
        _ <- (match r with
              | RollList [RTrue] => ret tt
              | RollList (_ :: _) => Ok tt [Warned ARollupIgnored]
              | _ => ret tt
              end) ;; ret l
      | [] =>
        match r with
        | RollList [RTrue] | RollTrue => Raise ETypeError []
        | RollList [RPath p] =>
          if wd_isfile Wd p then ls <- open_file p (wd_lines Wd p) ;; ret (map (strip is_ws) ls) else ret [p]
        | RollList l => ret (roll_paths l)
        | RollFalse => ret []
        end
      end
    else ret [].
  (** ijson.items: the values whose prefix is [path]; the prefix of a value are
      the keys (and "item" for the items of arrays) that lead to it, joined by
      "."; a value that is returned is not searched *)
  Fixpoint ijson_items (path : str) (steps : list str) (v : jv) : list jv :=
    if str_eqb (join [46%N] steps) path then [v]
    else match v with
         | JS _ => []
         | JA l => flat_map (ijson_items path (steps ++ [u "item"])) l
         | JO d => flat_map (fun kv => ijson_items path (steps ++ [fst kv]) (snd kv)) d
         end.
  (** input.py:1137-1171 path_search with the arguments json_input.py:266-270
      uses; a part that ends in "[]" is not modelled *)
  Fixpoint path_search (v : jv) (path : list str) : outcome jv :=
    match path with
    | [] => inr v
    | k :: path' =>
      if endswith k (u "[]") then inl EOther
      else match v with
           | JO d => path_search (match sget k d with Some x => x | None => JO [] end) path'
           | _ => inl ETypeError
           end
    end.
  (** iterating over the value (json_input.py:322) *)
  Definition iterate (v : jv) : outcome (list jv) :=
    match v with
    | JA l => inr l
    | JO d => inr (map (fun kv => JS (SStr (fst kv))) d)
    | JS (SStr s) => inr (map (fun c => JS (SStr [c])) s)
    | JS _ => inl ETypeError
    end.
  (** json_input.py:249-270, 308-318: the records *)
  Definition records_of (F : flopts) (v : jv) : IO (list jv) :=
    if f_xml F then
      match (match (if f_root_list F then None else Some (f_path F)) with
             | None => inr (list_dict_consistency v)
             | Some p => path_search (list_dict_consistency v) (split_on slash p)
             end) with
      | inl e => Raise e []
      | inr r => match iterate r with inl e => Raise e [] | inr l => ret l end
      end
    else ret (ijson_items (if f_root_list F then u "item" else replace_c slash 46%N (f_path F) ++ u ".item") [] v).
  Definition read_document (F : flopts) : IO jv :=
    open_file (f_input F) (if f_xml F then wd_xml Wd (if f_root_list F then None else Some (f_path F)) (f_input F)
                           else wd_json Wd (f_input F)).
  (** json_input.py:272-306 *)
  Definition preserve_lines (F : flopts) : IO (list str) :=
    match f_preserve F with [] => ret [] | file => open_file file (wd_lines Wd file) end.
  Definition preserve_warning (schema : option sps) (lines : list str) (given : bool) : IO unit :=
    match schema with
    | Some s => if given then Ok tt [Warned (APreserveNotInSchema
                    (filter (fun f => negb (shas f (sp_flat s))) (wd_set_order Wd (preserve_fields_input lines))))] else ret tt
    | None => ret tt
    end.
  Definition parser_opts (F : flopts) (schema : option sps) (roll preserve : list str) : popts :=
    {| po_str := we_env (wd_wenv Wd); po_titles := f_titles F;
       po_schema := match schema with Some s => Some (schema_info_of s) | None => None end;
       po_root_id := f_root_id F; po_id_name := f_id_name F; po_xml := f_xml F;
       po_filter := match f_filter_field F, f_filter_value F with
                    | Some ((_ :: _) as k), Some ((_ :: _) as v) => Some (k, v)
                    | _, _ => None
                    end;
       po_preserve := preserve_fields preserve; po_rollup := roll; po_trunc := f_trunc F; po_wkt := f_wkt F;
       po_shape := wd_shape Wd; po_set_order := wd_set_order Wd |}.
  (** json_input.py:117-318; for XML the document is read before the preserve
      file, for JSON after it *)
  Definition json_parser (F : flopts) (schema : option sps) : IO pst :=
    roll <- resolve_rollup schema (f_roll F) ;;
    x <- (if f_xml F then
            v <- read_document F ;; l <- records_of F v ;;
            lines <- preserve_lines F ;; _ <- preserve_warning schema lines (negb (is_nil (f_preserve F))) ;; ret (lines, l)
          else
            lines <- preserve_lines F ;; _ <- preserve_warning schema lines (negb (is_nil (f_preserve F))) ;;
            v <- read_document F ;; l <- records_of F v ;; ret (lines, l)) ;;
    lift AFlatten (flatten (parser_opts F schema roll (fst x)) (f_drop F) (preserve_fields_input (fst x)) (snd x)).
  (** __init__.py:81-176 *)
  Definition flatten_file (F : flopts) : IO unit :=
    match f_filter_field F, f_filter_value F with
    | None, Some _ | Some _, None => Raise EFlattenToolError []
    | _, _ =>
      match sget (f_term F) terminators with
      | None => Raise EFlattenToolError []
      | Some t =>
        schema <- (match f_schema F with
                   | [] => ret None
                   | file => s <- schema_parser (f_local_off F) file
                                    {| so_rollup := roll_truthy (f_roll F); so_root_id := f_root_id F; so_titles := f_titles F;
                                       so_trunc := f_trunc F; so_nodep := false; so_wkt := f_wkt F; so_lower := wd_lower Wd |} ;;
                             ret (Some s)
                   end) ;;
        s <- json_parser F schema ;;
        write_outputs (f_main F) (f_prefix F) t (main_table s) (sub_tables s) (u "flattened") (f_format F) (f_output F)
      end
    end.

  (** ** unflatten *)
  Record uopts := {
    u_input : str; u_base : option str; u_format : option str; u_output : option str; u_path : option str; u_root_list : bool;
    u_zone : str; u_root_id : str; u_schema : str; u_titles : bool; u_cells : str; u_heads : str; u_id_name : option str;
    u_xml : bool; u_vertical : bool; u_meta : option str; u_meta_only : bool; u_meta_schema : str; u_meta_vertical : bool;
    u_xsds : option (list str); u_conf : str; u_local_off : bool; u_comment : option str; u_trunc : nat; u_wkt : bool }.

  (** a value of the output object *)
  Inductive bval := BJson (j : jv) | BNode (n : vnode) | BRecords (l : list vdict).
  Definition base := list (str * bval).

  (** [d.update(c)] on configurations: the keys that [c] has *)
  Definition or_else {A} (a b : option A) : option A := match a with Some _ => a | None => b end.
  Definition conf_update (d c : sheet_conf) : sheet_conf :=
    {| sc_skip := or_else (sc_skip c) (sc_skip d); sc_header := or_else (sc_header c) (sc_header d);
       sc_ignore := sc_ignore c || sc_ignore d; sc_hash := sc_hash c || sc_hash d;
       sc_xmlroot := or_else (sc_xmlroot c) (sc_xmlroot d); sc_rootlist := or_else (sc_rootlist c) (sc_rootlist d);
       sc_idname := or_else (sc_idname c) (sc_idname d) |}.
  (** __init__.py:263-265 *)
  Definition default_conf (text : str) : sheet_conf :=
    fold_left conf_item (map (strip is_ws) (split_on 44%N text)) empty_conf.

  (** one use of a SpreadsheetInput: read_sheets, fancy_unflatten;
      __init__.py:270-302, 324-357, input.py.  The configurations found are
      returned too. *)
  Definition read_spreadsheet (f : fmt) (file : str) (rd : reader) (titles : bool) (schema : option sps) (O : opts) (F : fancy)
      : IO (list vdict * option cmap * option hmap * list (str * sheet_conf)) :=
    b <- open_file file (wd_book Wd f file) ;;
    lift AInput (
      confs <- map_res (configure f b) (select rd (available f b)) ;;
      sheets <- map_res (read_sheet f rd) confs ;;
      sheets' <- (if titles then convert_sheets (wd_lower Wd) (match schema with Some s => Some (sp_table s) | None => None end) sheets
                  else ret sheets) ;;
      r <- fancy_unflatten O F sheets' ;;
      ret (r, map (fun x : str * grid * sheet_conf => let '(n, _, c) := x in (n, c)) confs)).
  Definition types_for (schema : option sps) (k : str) : str := match schema with Some s => types_of s k | None => [] end.
  Definition optional_schema (file : str) (local_off : bool) (O : sopts) : IO (option sps) :=
    match file with [] => ret None | _ => s <- schema_parser local_off file O ;; ret (Some s) end.
  (** SIMPLIFICATION: id_name=None (only for the metatab, __init__.py:277) is a
      name that no heading can give. *)
  Definition no_id : str := [slash].

  (** __init__.py:270-316: the metatab.  The root id is that of
      SpreadsheetInput's signature. *)
  Definition read_metatab (U : uopts) (f : fmt) (name : str) : IO (list vdict * option cmap * option hmap * list (str * sheet_conf)) :=
    schema <- optional_schema (u_meta_schema U) (u_local_off U)
                {| so_rollup := false; so_root_id := []; so_titles := false; so_trunc := 3; so_nodep := false;
                   so_wkt := u_wkt U; so_lower := wd_lower Wd |} ;;
    read_spreadsheet f (u_input U)
      {| rd_base := empty_conf; rd_use := false; rd_vertical := u_meta_vertical U; rd_include := [name]; rd_exclude := [] |}
      (u_titles U) schema
      {| o_conv := wd_conv Wd (u_wkt U) (u_zone U); o_types := types_for schema; o_root_id := u "ocid";
         o_id_name := match u_id_name U with Some n => n | None => no_id end; o_xml := u_xml U; o_vertical := u_meta_vertical U |}
      {| f_root_is_list := false; f_root_list_path := u "meta"; f_cells := negb (is_nil (u_cells U)); f_headings := negb (is_nil (u_heads U)) |}.
  (** __init__.py:324-357 *)
  Definition read_main (U : uopts) (f : fmt) (conf : sheet_conf) (path id_name : str)
      : IO (list vdict * option cmap * option hmap * list (str * sheet_conf)) :=
    schema <- optional_schema (u_schema U) (u_local_off U)
                {| so_rollup := true; so_root_id := u_root_id U; so_titles := false; so_trunc := u_trunc U; so_nodep := false;
                   so_wkt := u_wkt U; so_lower := wd_lower Wd |} ;;
    read_spreadsheet f (u_input U)
      {| rd_base := conf; rd_use := true; rd_vertical := u_vertical U; rd_include := [];
         rd_exclude := match u_meta U with Some n => [n] | None => [] end |}
      (u_titles U) schema
      {| o_conv := wd_conv Wd (u_wkt U) (u_zone U); o_types := types_for schema; o_root_id := u_root_id U;
         o_id_name := id_name; o_xml := u_xml U; o_vertical := u_vertical U |}
      {| f_root_is_list := u_root_list U; f_root_list_path := path; f_cells := negb (is_nil (u_cells U)); f_headings := negb (is_nil (u_heads U)) |}.

  (** __init__.py:303-308: "meta/0/" and "meta/" are cut off the keys of the maps *)
  Definition add_cut {A} (n : nat) (m m0 : list (str * A)) : list (str * A) :=
    fold_left (fun d kv => sset (skipn n (fst kv)) (snd kv) d) m m0.
  Definition from_opt {A} (o : option (list A)) : list A := match o with Some l => l | None => [] end.
  (** [d.update(m)] *)
  Definition update {A} (d m : list (str * A)) : list (str * A) := fold_left (fun d kv => sset (fst kv) (snd kv) d) m d.

  (** the state of unflatten after the metatab: base, configuration, source maps *)
  Record ust := { us_base : jv + base; us_conf : sheet_conf; us_cells : cmap; us_heads : hmap }.
  (** __init__.py:253-261; a base that is not an object is [inl] *)
  Definition read_base (U : uopts) : IO (jv + base) :=
    if u_root_list U then ret (inl (JS SNone))
    else match u_base U with
         | Some ((_ :: _) as file) =>
           v <- open_file file (wd_base Wd file) ;;
           ret (match v with JO d => inr (map (fun kv => (fst kv, BJson (snd kv))) d) | _ => inl v end)
         | _ => ret (inr [])
         end.
  (** __init__.py:267-316 *)
  Definition metatab_stage (U : uopts) (f : fmt) (b0 : jv + base) (conf : sheet_conf) : IO ust :=
    match u_meta U with
    | Some ((_ :: _) as name) =>
      if u_root_list U then ret {| us_base := b0; us_conf := conf; us_cells := []; us_heads := [] |}
      else
        x <- read_metatab U f name ;;
        let '(result, cells, heads, confs) := x in
        b1 <- (match result with
               | [] => ret b0
               | d :: _ => match b0 with
                           | inr b => ret (inr (update b (map (fun kv => (fst kv, BNode (snd kv))) d)))
                           | inl v => Raise EAttributeError []
                           end
               end) ;;
        ret {| us_base := b1;
               us_conf := conf_update conf (match sget name confs with Some c => c | None => empty_conf end);
               us_cells := add_cut 7 (from_opt cells) [];
               us_heads := add_cut 5 (from_opt heads) [] |}
    | _ => ret {| us_base := b0; us_conf := conf; us_cells := []; us_heads := [] |}
    end.
  (** the result: an object, a list of records, or a base that is not an object *)
  Inductive final := FObject (b : base) | FRecords (l : list vdict) | FBase (v : jv).
  (** __init__.py:318-366 *)
  Definition main_stage (U : uopts) (f : fmt) (s : ust) : IO (final * cmap * hmap) :=
    let path := match u_path U with Some p => p | None => match sc_rootlist (us_conf s) with Some p => p | None => u "main" end end in
    let id_name := match u_id_name U with Some n => n | None => match sc_idname (us_conf s) with Some n => n | None => u "id" end end in
    if negb (u_meta_only U) || u_root_list U then
      x <- read_main U f (us_conf s) path id_name ;;
      let '(result, cells, heads, _) := x in
      r <- (if u_root_list U then ret (FRecords result)
            else match us_base s with
                 | inr b => ret (FObject (sset path (BRecords result) b))
                 | inl _ => Raise ETypeError []
                 end) ;;
      ret (r, update (us_cells s) (from_opt cells), update (us_heads s) (from_opt heads))
    else ret (match us_base s with inr b => FObject b | inl v => FBase v end, us_cells s, us_heads s).

  (** ** Output of unflatten, __init__.py:368-411 *)
  Let E : env := we_env (wd_wenv Wd).
  Definition dump_list {A B} (f : A -> R B) : list A -> R (list B) :=
    fix go (l : list A) : R (list B) := match l with [] => ret [] | x :: l' => y <- f x ;; r <- go l' ;; ret (y :: r) end.
  Definition dump_items {A} (f : A -> R jout) (d : list (str * A)) : R (list (str * jout)) :=
    dump_list (fun kv => y <- f (snd kv) ;; ret (fst kv, y)) d.
  Fixpoint dump_json (v : jv) : R jout :=
    match v with
    | JS s => j <- json_scalar E s ;; ret (OLeaf j)
    | JA l => r <- dump_list dump_json l ;; ret (OArr r)
    | JO d => r <- dump_items dump_json d ;; ret (OObj r)
    end.
  Fixpoint dump_node (n : vnode) : R jout :=
    match n with
    | VLeaf c => j <- json_cell E c ;; ret (OLeaf j)
    | VDict d => r <- dump_items dump_node d ;; ret (OObj r)
    | VList l => r <- dump_list (fun d => x <- dump_items dump_node d ;; ret (OObj x)) l ;; ret (OArr r)
    end.
  Definition dump_record (d : vdict) : R jout := r <- dump_items dump_node d ;; ret (OObj r).
  Definition dump_records (l : list vdict) : R jout := r <- dump_list dump_record l ;; ret (OArr r).
  Definition dump_value (b : bval) : R jout :=
    match b with BJson v => dump_json v | BNode n => dump_node n | BRecords l => dump_records l end.
  Definition dump (r : final) : R jout :=
    match r with
    | FObject b => x <- dump_items dump_value b ;; ret (OObj x)
    | FRecords l => dump_records l
    | FBase v => dump_json v
    end.

  (** the same data for toxml.  SIMPLIFICATION: a GeoJSON value is a text. *)
  Definition xml_cell (c : cellval) : jv :=
    match c with
    | CV s => JS s
    | CList l => JA (map JS l)
    | CList2 l => JA (map (fun x => JA (map JS x)) l)
    | CGeo g => JS (SStr g)
    end.
  Fixpoint xml_node (n : vnode) : jv :=
    match n with
    | VLeaf c => xml_cell c
    | VDict d => JO (map (fun kv => (fst kv, xml_node (snd kv))) d)
    | VList l => JA (map (fun d => JO (map (fun kv => (fst kv, xml_node (snd kv))) d)) l)
    end.
  Definition xml_records (l : list vdict) : jv := xml_node (VList l).
  Definition xml_value (b : bval) : jv := match b with BJson v => v | BNode n => xml_node n | BRecords l => xml_records l end.
  Definition xml_final (r : final) : jv :=
    match r with
    | FObject b => JO (map (fun kv => (fst kv, xml_value (snd kv))) b)
    | FRecords l => xml_records l
    | FBase v => v
    end.
  Definition xml_stage (U : uopts) (conf : sheet_conf) (path : str) (r : final) : IO unit :=
    (* toxml builds the elements before it reads the schemas *)
    _ <- lift AXml (dict_to_xml (wd_xenv Wd) (xml_final r) (match sc_xmlroot conf with Some t => t | None => u "iati-activities" end)
                                [(u "xml", u "http://www.w3.org/XML/1998/namespace")]) ;;
    schema <- (match u_xsds U with
               | None => ret None
               | Some files => trees <- each (fun n => open_file n (wd_xsd Wd n)) files ;;
                               ret (Some (create_schema_dict trees (wd_xsd_fuel Wd) path None))
               end) ;;
    x <- match toxml (wd_xenv Wd) (xml_final r) (match sc_xmlroot conf with Some t => t | None => u "iati-activities" end) schema (u_comment U) with
         | Ok x _ => ret x
         | Raise e _ => Raise e []
         end ;;
    write (u_output U) (CXml (fst x) (snd x)).
  Definition json_stage (U : uopts) (r : final) : IO unit :=
    j <- lift AInput (dump r) ;; write (u_output U) (CJson j).
  (** __init__.py:392-411 *)
  Definition map_stage (U : uopts) (cells : cmap) (heads : hmap) : IO unit :=
    _ <- (match u_cells U with [] => ret tt | file => write (Some file) (CCells cells) end) ;;
    match u_heads U with [] => ret tt | file => write (Some file) (CHeads heads) end.

  Definition unflatten_file (U : uopts) : IO unit :=
    match u_format U with
    | None => Raise EFlattenToolError []
    | Some fname =>
      match sget fname formats with
      | None => Raise EFlattenToolError []
      | Some f =>
        if truthy (u_meta U) && truthy (u_base U) then Raise EFlattenToolError []
        else
          b0 <- read_base U ;;
          s <- metatab_stage U f b0 (default_conf (u_conf U)) ;;
          x <- main_stage U f s ;;
          let '(r, cells, heads) := x in
          let path := match u_path U with Some p => p | None => match sc_rootlist (us_conf s) with Some p => p | None => u "main" end end in
          _ <- (if u_xml U then xml_stage U (us_conf s) path r else json_stage U r) ;;
          map_stage U cells heads
      end
    end.
End Commands.
