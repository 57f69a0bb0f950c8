(** Generated by tools/clitests.py: what the standard library's argparse makes of
    the command lines of /repo/examples/**/cmd.txt and of random ones, with the
    options of cli.py. *)
From Verif.Base Require Import PyStr PyNum PyVal PyDict Outcome.
From Verif.Model Require Import Cli.
Local Open Scope Z_scope.

Fixpoint aval_eqb (a b : aval) : bool :=
  match a, b with
  | AStr s, AStr t => str_eqb s t
  | AInt x, AInt y => Z.eqb x y
  | ABool x, ABool y => Bool.eqb x y
  | AList l, AList m => (fix go l m := match l, m with [], [] => true | x :: l', y :: m' => aval_eqb x y && go l' m' | _, _ => false end) l m
  | _, _ => false
  end.
(** None and False are left out of the expected attributes *)
Definition set_there (v : option aval) : bool := match v with None | Some (ABool false) => false | _ => true end.
Definition ns_ok (ns want : list (str * option aval)) (n : nat) : bool :=
  Nat.eqb (List.length ns) n
  && Nat.eqb (List.length (filter (fun kv => set_there (snd kv)) ns)) (List.length want)
  && forallb (fun kv => match sget (fst kv) ns, snd kv with Some (Some a), Some b => aval_eqb a b | _, _ => false end) want.
Definition verbose_of (ns : list (str * option aval)) : bool := match sget (u "verbose") ns with Some (Some (ABool b)) => b | _ => false end.
Definition line_ok (c : list str * presult (bool * option (str * nat * list (str * option aval)))) : bool :=
  match parse_args (fst c), snd c with
  | PUsage, PUsage | PHelp, PHelp | POutside, POutside => true
  | PDone (ns, None), PDone (v, None) => Bool.eqb (verbose_of ns) v
  | PDone (ns, Some (name, sub)), PDone (v, Some (name', n, want)) => Bool.eqb (verbose_of ns) v && str_eqb name name' && ns_ok sub want n
  | _, _ => false
  end.
Definition lines : list (list str * presult (bool * option (str * nat * list (str * option aval)))) := [
  ([(u "unflatten"); (u "-f"); (u "csv"); (u "examples/bods/unflatten/input"); (u "-o"); (u "examples/bods/unflatten/actual/out.json"); (u "--root-is-list"); (u "--id-name=statementID"); (u "--schema"); (u "examples/bods/schema/bods-package.json")],
   PDone (false, Some ((u "unflatten"), 25%nat, [((u "input_name"), (Some (AStr (u "examples/bods/unflatten/input")))); ((u "input_format"), (Some (AStr (u "csv")))); ((u "id_name"), (Some (AStr (u "statementID")))); ((u "output_name"), (Some (AStr (u "examples/bods/unflatten/actual/out.json")))); ((u "schema"), (Some (AStr (u "examples/bods/schema/bods-package.json")))); ((u "root_is_list"), (Some (ABool true))); ((u "xml_comment"), (Some (AStr (u "XML generated by flatten-tool"))))])));
  ([(u "unflatten"); (u "-f=csv"); (u "--root-list-path=cafe"); (u "examples/cafe/list-of-objects/")],
   PDone (false, Some ((u "unflatten"), 25%nat, [((u "input_name"), (Some (AStr (u "examples/cafe/list-of-objects/")))); ((u "input_format"), (Some (AStr (u "csv")))); ((u "root_list_path"), (Some (AStr (u "cafe")))); ((u "xml_comment"), (Some (AStr (u "XML generated by flatten-tool"))))])));
  ([(u "unflatten"); (u "--input-format=xlsx"); (u "--metatab-only"); (u "--metatab-name"); (u "Meta"); (u "--metatab-vertical-orientation"); (u "examples/cafe/meta-tab-only/meta-tab.xlsx")],
   PDone (false, Some ((u "unflatten"), 25%nat, [((u "input_name"), (Some (AStr (u "examples/cafe/meta-tab-only/meta-tab.xlsx")))); ((u "input_format"), (Some (AStr (u "xlsx")))); ((u "metatab_name"), (Some (AStr (u "Meta")))); ((u "metatab_only"), (Some (ABool true))); ((u "metatab_vertical_orientation"), (Some (ABool true))); ((u "xml_comment"), (Some (AStr (u "XML generated by flatten-tool"))))])));
  ([(u "unflatten"); (u "--input-format=xlsx"); (u "--metatab-name"); (u "Meta"); (u "--metatab-vertical-orientation"); (u "examples/cafe/meta-tab/meta-tab.xlsx")],
   PDone (false, Some ((u "unflatten"), 25%nat, [((u "input_name"), (Some (AStr (u "examples/cafe/meta-tab/meta-tab.xlsx")))); ((u "input_format"), (Some (AStr (u "xlsx")))); ((u "metatab_name"), (Some (AStr (u "Meta")))); ((u "metatab_vertical_orientation"), (Some (ABool true))); ((u "xml_comment"), (Some (AStr (u "XML generated by flatten-tool"))))])));
  ([(u "unflatten"); (u "-f=csv"); (u "--root-list-path=cafe"); (u "examples/cafe/multiple/")],
   PDone (false, Some ((u "unflatten"), 25%nat, [((u "input_name"), (Some (AStr (u "examples/cafe/multiple/")))); ((u "input_format"), (Some (AStr (u "csv")))); ((u "root_list_path"), (Some (AStr (u "cafe")))); ((u "xml_comment"), (Some (AStr (u "XML generated by flatten-tool"))))])));
  ([(u "unflatten"); (u "-f=csv"); (u "--root-list-path=cafe"); (u "examples/cafe/object/")],
   PDone (false, Some ((u "unflatten"), 25%nat, [((u "input_name"), (Some (AStr (u "examples/cafe/object/")))); ((u "input_format"), (Some (AStr (u "csv")))); ((u "root_list_path"), (Some (AStr (u "cafe")))); ((u "xml_comment"), (Some (AStr (u "XML generated by flatten-tool"))))])));
  ([(u "unflatten"); (u "-f=csv"); (u "--root-list-path=cafe"); (u "--schema=examples/cafe/plain-list-schema/tagsArraySchema.json"); (u "examples/cafe/plain-list-schema/")],
   PDone (false, Some ((u "unflatten"), 25%nat, [((u "input_name"), (Some (AStr (u "examples/cafe/plain-list-schema/")))); ((u "input_format"), (Some (AStr (u "csv")))); ((u "root_list_path"), (Some (AStr (u "cafe")))); ((u "schema"), (Some (AStr (u "examples/cafe/plain-list-schema/tagsArraySchema.json")))); ((u "xml_comment"), (Some (AStr (u "XML generated by flatten-tool"))))])));
  ([(u "unflatten"); (u "-f=csv"); (u "--root-list-path=cafe"); (u "examples/cafe/plain-list/")],
   PDone (false, Some ((u "unflatten"), 25%nat, [((u "input_name"), (Some (AStr (u "examples/cafe/plain-list/")))); ((u "input_format"), (Some (AStr (u "csv")))); ((u "root_list_path"), (Some (AStr (u "cafe")))); ((u "xml_comment"), (Some (AStr (u "XML generated by flatten-tool"))))])));
  ([(u "unflatten"); (u "-f=csv"); (u "--root-list-path=cafe"); (u "examples/cafe/relationship-grandchild/"); (u "-s"); (u "examples/receipt/cafe.schema"); (u "--convert-titles")],
   PDone (false, Some ((u "unflatten"), 25%nat, [((u "input_name"), (Some (AStr (u "examples/cafe/relationship-grandchild/")))); ((u "input_format"), (Some (AStr (u "csv")))); ((u "root_list_path"), (Some (AStr (u "cafe")))); ((u "schema"), (Some (AStr (u "examples/receipt/cafe.schema")))); ((u "convert_titles"), (Some (ABool true))); ((u "xml_comment"), (Some (AStr (u "XML generated by flatten-tool"))))])));
  ([(u "unflatten"); (u "-f=csv"); (u "--root-list-path=cafe"); (u "examples/cafe/relationship-lists-of-objects-simple/")],
   PDone (false, Some ((u "unflatten"), 25%nat, [((u "input_name"), (Some (AStr (u "examples/cafe/relationship-lists-of-objects-simple/")))); ((u "input_format"), (Some (AStr (u "csv")))); ((u "root_list_path"), (Some (AStr (u "cafe")))); ((u "xml_comment"), (Some (AStr (u "XML generated by flatten-tool"))))])));
  ([(u "unflatten"); (u "-f=csv"); (u "--root-list-path=cafe"); (u "examples/cafe/relationship-lists-of-objects/")],
   PDone (false, Some ((u "unflatten"), 25%nat, [((u "input_name"), (Some (AStr (u "examples/cafe/relationship-lists-of-objects/")))); ((u "input_format"), (Some (AStr (u "csv")))); ((u "root_list_path"), (Some (AStr (u "cafe")))); ((u "xml_comment"), (Some (AStr (u "XML generated by flatten-tool"))))])));
  ([(u "unflatten"); (u "-f=csv"); (u "--root-list-path=cafe"); (u "examples/cafe/relationship-merge-multiple/")],
   PDone (false, Some ((u "unflatten"), 25%nat, [((u "input_name"), (Some (AStr (u "examples/cafe/relationship-merge-multiple/")))); ((u "input_format"), (Some (AStr (u "csv")))); ((u "root_list_path"), (Some (AStr (u "cafe")))); ((u "xml_comment"), (Some (AStr (u "XML generated by flatten-tool"))))])));
  ([(u "unflatten"); (u "-f=csv"); (u "--root-list-path=cafe"); (u "examples/cafe/relationship-merge-single/")],
   PDone (false, Some ((u "unflatten"), 25%nat, [((u "input_name"), (Some (AStr (u "examples/cafe/relationship-merge-single/")))); ((u "input_format"), (Some (AStr (u "csv")))); ((u "root_list_path"), (Some (AStr (u "cafe")))); ((u "xml_comment"), (Some (AStr (u "XML generated by flatten-tool"))))])));
  ([(u "unflatten"); (u "-f=csv"); (u "--root-list-path=cafe"); (u "examples/cafe/relationship-missing-ids/")],
   PDone (false, Some ((u "unflatten"), 25%nat, [((u "input_name"), (Some (AStr (u "examples/cafe/relationship-missing-ids/")))); ((u "input_format"), (Some (AStr (u "csv")))); ((u "root_list_path"), (Some (AStr (u "cafe")))); ((u "xml_comment"), (Some (AStr (u "XML generated by flatten-tool"))))])));
  ([(u "unflatten"); (u "-f=csv"); (u "--root-list-path=cafe"); (u "examples/cafe/relationship-multiple/")],
   PDone (false, Some ((u "unflatten"), 25%nat, [((u "input_name"), (Some (AStr (u "examples/cafe/relationship-multiple/")))); ((u "input_format"), (Some (AStr (u "csv")))); ((u "root_list_path"), (Some (AStr (u "cafe")))); ((u "xml_comment"), (Some (AStr (u "XML generated by flatten-tool"))))])));
  ([(u "unflatten"); (u "-f=csv"); (u "examples/cafe/simple/"); (u "--root-is-list")],
   PDone (false, Some ((u "unflatten"), 25%nat, [((u "input_name"), (Some (AStr (u "examples/cafe/simple/")))); ((u "input_format"), (Some (AStr (u "csv")))); ((u "root_is_list"), (Some (ABool true))); ((u "xml_comment"), (Some (AStr (u "XML generated by flatten-tool"))))])));
  ([(u "unflatten"); (u "-f=csv"); (u "--root-list-path=cafe"); (u "--base-json=examples/cafe/simple-base-json/base.json"); (u "examples/cafe/simple-base-json/")],
   PDone (false, Some ((u "unflatten"), 25%nat, [((u "input_name"), (Some (AStr (u "examples/cafe/simple-base-json/")))); ((u "input_format"), (Some (AStr (u "csv")))); ((u "base_json"), (Some (AStr (u "examples/cafe/simple-base-json/base.json")))); ((u "root_list_path"), (Some (AStr (u "cafe")))); ((u "xml_comment"), (Some (AStr (u "XML generated by flatten-tool"))))])));
  ([(u "unflatten"); (u "-f=csv"); (u "--root-list-path=cafe"); (u "examples/cafe/simple-col/")],
   PDone (false, Some ((u "unflatten"), 25%nat, [((u "input_name"), (Some (AStr (u "examples/cafe/simple-col/")))); ((u "input_format"), (Some (AStr (u "csv")))); ((u "root_list_path"), (Some (AStr (u "cafe")))); ((u "xml_comment"), (Some (AStr (u "XML generated by flatten-tool"))))])));
  ([(u "unflatten"); (u "-f=csv"); (u "examples/cafe/simple/"); (u "-o=examples/cafe/simple-file/unflattened.json")],
   PDone (false, Some ((u "unflatten"), 25%nat, [((u "input_name"), (Some (AStr (u "examples/cafe/simple/")))); ((u "input_format"), (Some (AStr (u "csv")))); ((u "output_name"), (Some (AStr (u "examples/cafe/simple-file/unflattened.json")))); ((u "xml_comment"), (Some (AStr (u "XML generated by flatten-tool"))))])));
  ([(u "unflatten"); (u "-f=csv"); (u "--root-list-path=cafe"); (u "examples/cafe/simple-row/")],
   PDone (false, Some ((u "unflatten"), 25%nat, [((u "input_name"), (Some (AStr (u "examples/cafe/simple-row/")))); ((u "input_format"), (Some (AStr (u "csv")))); ((u "root_list_path"), (Some (AStr (u "cafe")))); ((u "xml_comment"), (Some (AStr (u "XML generated by flatten-tool"))))])));
  ([(u "unflatten"); (u "-f=csv"); (u "examples/cafe/simple/"); (u "--root-list-path=cafe")],
   PDone (false, Some ((u "unflatten"), 25%nat, [((u "input_name"), (Some (AStr (u "examples/cafe/simple/")))); ((u "input_format"), (Some (AStr (u "csv")))); ((u "root_list_path"), (Some (AStr (u "cafe")))); ((u "xml_comment"), (Some (AStr (u "XML generated by flatten-tool"))))])));
  ([(u "unflatten"); (u "-f=csv"); (u "--root-list-path=cafe"); (u "examples/cafe/skip-and-headers/")],
   PDone (false, Some ((u "unflatten"), 25%nat, [((u "input_name"), (Some (AStr (u "examples/cafe/skip-and-headers/")))); ((u "input_format"), (Some (AStr (u "csv")))); ((u "root_list_path"), (Some (AStr (u "cafe")))); ((u "xml_comment"), (Some (AStr (u "XML generated by flatten-tool"))))])));
  ([(u "unflatten"); (u "-f=csv"); (u "--root-list-path=cafe"); (u "--schema=examples/cafe/tables-human-1/cafe.schema"); (u "--convert-titles"); (u "examples/cafe/tables-human-1/")],
   PDone (false, Some ((u "unflatten"), 25%nat, [((u "input_name"), (Some (AStr (u "examples/cafe/tables-human-1/")))); ((u "input_format"), (Some (AStr (u "csv")))); ((u "root_list_path"), (Some (AStr (u "cafe")))); ((u "schema"), (Some (AStr (u "examples/cafe/tables-human-1/cafe.schema")))); ((u "convert_titles"), (Some (ABool true))); ((u "xml_comment"), (Some (AStr (u "XML generated by flatten-tool"))))])));
  ([(u "unflatten"); (u "-f=csv"); (u "--root-list-path=cafe"); (u "--schema=examples/cafe/tables-human-2/cafe.schema"); (u "--convert-titles"); (u "examples/cafe/tables-human-2/")],
   PDone (false, Some ((u "unflatten"), 25%nat, [((u "input_name"), (Some (AStr (u "examples/cafe/tables-human-2/")))); ((u "input_format"), (Some (AStr (u "csv")))); ((u "root_list_path"), (Some (AStr (u "cafe")))); ((u "schema"), (Some (AStr (u "examples/cafe/tables-human-2/cafe.schema")))); ((u "convert_titles"), (Some (ABool true))); ((u "xml_comment"), (Some (AStr (u "XML generated by flatten-tool"))))])));
  ([(u "unflatten"); (u "-f=csv"); (u "--root-list-path=cafe"); (u "examples/cafe/tables-index-reserved/")],
   PDone (false, Some ((u "unflatten"), 25%nat, [((u "input_name"), (Some (AStr (u "examples/cafe/tables-index-reserved/")))); ((u "input_format"), (Some (AStr (u "csv")))); ((u "root_list_path"), (Some (AStr (u "cafe")))); ((u "xml_comment"), (Some (AStr (u "XML generated by flatten-tool"))))])));
  ([(u "unflatten"); (u "-f=csv"); (u "--root-list-path=cafe"); (u "examples/cafe/tables-index/")],
   PDone (false, Some ((u "unflatten"), 25%nat, [((u "input_name"), (Some (AStr (u "examples/cafe/tables-index/")))); ((u "input_format"), (Some (AStr (u "csv")))); ((u "root_list_path"), (Some (AStr (u "cafe")))); ((u "xml_comment"), (Some (AStr (u "XML generated by flatten-tool"))))])));
  ([(u "unflatten"); (u "-f=csv"); (u "--root-list-path=cafe"); (u "--schema=examples/cafe/tables-typed-schema/cafe.schema"); (u "examples/cafe/tables-typed-schema/")],
   PDone (false, Some ((u "unflatten"), 25%nat, [((u "input_name"), (Some (AStr (u "examples/cafe/tables-typed-schema/")))); ((u "input_format"), (Some (AStr (u "csv")))); ((u "root_list_path"), (Some (AStr (u "cafe")))); ((u "schema"), (Some (AStr (u "examples/cafe/tables-typed-schema/cafe.schema")))); ((u "xml_comment"), (Some (AStr (u "XML generated by flatten-tool"))))])));
  ([(u "unflatten"); (u "-f=xlsx"); (u "--root-list-path=cafe"); (u "examples/cafe/tables-typed-xlsx/tables.xlsx")],
   PDone (false, Some ((u "unflatten"), 25%nat, [((u "input_name"), (Some (AStr (u "examples/cafe/tables-typed-xlsx/tables.xlsx")))); ((u "input_format"), (Some (AStr (u "xlsx")))); ((u "root_list_path"), (Some (AStr (u "cafe")))); ((u "xml_comment"), (Some (AStr (u "XML generated by flatten-tool"))))])));
  ([(u "unflatten"); (u "-f=csv"); (u "examples/cafe/simple/")],
   PDone (false, Some ((u "unflatten"), 25%nat, [((u "input_name"), (Some (AStr (u "examples/cafe/simple/")))); ((u "input_format"), (Some (AStr (u "csv")))); ((u "xml_comment"), (Some (AStr (u "XML generated by flatten-tool"))))])));
  ([(u "create-template"); (u "--no-deprecated-fields"); (u "--use-titles"); (u "--main-sheet-name=interviewee"); (u "--schema=examples/create-template/deprecated-ref.schema"); (u "-f"); (u "csv"); (u "-o"); (u "examples/create-template/deprecated-no-ref/actual")],
   PDone (false, Some ((u "create-template"), 12%nat, [((u "schema"), (Some (AStr (u "examples/create-template/deprecated-ref.schema")))); ((u "output_format"), (Some (AStr (u "csv")))); ((u "main_sheet_name"), (Some (AStr (u "interviewee")))); ((u "output_name"), (Some (AStr (u "examples/create-template/deprecated-no-ref/actual")))); ((u "use_titles"), (Some (ABool true))); ((u "no_deprecated_fields"), (Some (ABool true))); ((u "truncation_length"), (Some (AInt (3))))])));
  ([(u "create-template"); (u "--no-deprecated-fields"); (u "--use-titles"); (u "--main-sheet-name=cafe"); (u "--schema=examples/create-template/deprecated.schema"); (u "-f"); (u "csv"); (u "-o"); (u "examples/create-template/deprecated-no/actual")],
   PDone (false, Some ((u "create-template"), 12%nat, [((u "schema"), (Some (AStr (u "examples/create-template/deprecated.schema")))); ((u "output_format"), (Some (AStr (u "csv")))); ((u "main_sheet_name"), (Some (AStr (u "cafe")))); ((u "output_name"), (Some (AStr (u "examples/create-template/deprecated-no/actual")))); ((u "use_titles"), (Some (ABool true))); ((u "no_deprecated_fields"), (Some (ABool true))); ((u "truncation_length"), (Some (AInt (3))))])));
  ([(u "create-template"); (u "--use-titles"); (u "--main-sheet-name=interviewee"); (u "--schema=examples/create-template/deprecated-ref.schema"); (u "-f"); (u "csv"); (u "-o"); (u "examples/create-template/deprecated-yes-ref/actual")],
   PDone (false, Some ((u "create-template"), 12%nat, [((u "schema"), (Some (AStr (u "examples/create-template/deprecated-ref.schema")))); ((u "output_format"), (Some (AStr (u "csv")))); ((u "main_sheet_name"), (Some (AStr (u "interviewee")))); ((u "output_name"), (Some (AStr (u "examples/create-template/deprecated-yes-ref/actual")))); ((u "use_titles"), (Some (ABool true))); ((u "truncation_length"), (Some (AInt (3))))])));
  ([(u "create-template"); (u "--use-titles"); (u "--main-sheet-name=cafe"); (u "--schema=examples/create-template/deprecated.schema"); (u "-f"); (u "csv"); (u "-o"); (u "examples/create-template/deprecated-yes/actual")],
   PDone (false, Some ((u "create-template"), 12%nat, [((u "schema"), (Some (AStr (u "examples/create-template/deprecated.schema")))); ((u "output_format"), (Some (AStr (u "csv")))); ((u "main_sheet_name"), (Some (AStr (u "cafe")))); ((u "output_name"), (Some (AStr (u "examples/create-template/deprecated-yes/actual")))); ((u "use_titles"), (Some (ABool true))); ((u "truncation_length"), (Some (AInt (3))))])));
  ([(u "create-template"); (u "--disable-local-refs"); (u "--schema=examples/create-template/refs-disable-local-refs/main.json"); (u "-f"); (u "csv"); (u "-o"); (u "examples/create-template/refs-disable-local-refs/actual")],
   PDone (false, Some ((u "create-template"), 12%nat, [((u "schema"), (Some (AStr (u "examples/create-template/refs-disable-local-refs/main.json")))); ((u "output_format"), (Some (AStr (u "csv")))); ((u "output_name"), (Some (AStr (u "examples/create-template/refs-disable-local-refs/actual")))); ((u "disable_local_refs"), (Some (ABool true))); ((u "truncation_length"), (Some (AInt (3))))])));
  ([(u "create-template"); (u "--schema=examples/create-template/refs/main.json"); (u "-f"); (u "csv"); (u "-o"); (u "examples/create-template/refs/actual")],
   PDone (false, Some ((u "create-template"), 12%nat, [((u "schema"), (Some (AStr (u "examples/create-template/refs/main.json")))); ((u "output_format"), (Some (AStr (u "csv")))); ((u "output_name"), (Some (AStr (u "examples/create-template/refs/actual")))); ((u "truncation_length"), (Some (AInt (3))))])));
  ([(u "create-template"); (u "--use-titles"); (u "--main-sheet-name=cafe"); (u "--schema=examples/receipt/cafe-rollup.schema"); (u "--rollup"); (u "-f"); (u "csv"); (u "-o"); (u "examples/create-template/rollup/actual")],
   PDone (false, Some ((u "create-template"), 12%nat, [((u "schema"), (Some (AStr (u "examples/receipt/cafe-rollup.schema")))); ((u "output_format"), (Some (AStr (u "csv")))); ((u "main_sheet_name"), (Some (AStr (u "cafe")))); ((u "output_name"), (Some (AStr (u "examples/create-template/rollup/actual")))); ((u "rollup"), (Some (ABool true))); ((u "use_titles"), (Some (ABool true))); ((u "truncation_length"), (Some (AInt (3))))])));
  ([(u "create-template"); (u "--use-titles"); (u "--main-sheet-name=cafe"); (u "--schema=examples/receipt/cafe.schema"); (u "-f"); (u "csv"); (u "-o"); (u "examples/create-template/simple/actual")],
   PDone (false, Some ((u "create-template"), 12%nat, [((u "schema"), (Some (AStr (u "examples/receipt/cafe.schema")))); ((u "output_format"), (Some (AStr (u "csv")))); ((u "main_sheet_name"), (Some (AStr (u "cafe")))); ((u "output_name"), (Some (AStr (u "examples/create-template/simple/actual")))); ((u "use_titles"), (Some (ABool true))); ((u "truncation_length"), (Some (AInt (3))))])));
  ([(u "create-template"); (u "--truncation-length"); (u "5"); (u "--schema=examples/receipt/cafe.schema"); (u "-f"); (u "csv"); (u "-o"); (u "examples/create-template/truncation-length/actual")],
   PDone (false, Some ((u "create-template"), 12%nat, [((u "schema"), (Some (AStr (u "examples/receipt/cafe.schema")))); ((u "output_format"), (Some (AStr (u "csv")))); ((u "output_name"), (Some (AStr (u "examples/create-template/truncation-length/actual")))); ((u "truncation_length"), (Some (AInt (5))))])));
  ([(u "flatten"); (u "--filter-field=type"); (u "--filter-value=pub"); (u "examples/flatten/filter/input.json"); (u "-o"); (u "examples/flatten/filter/actual")],
   PDone (false, Some ((u "flatten"), 21%nat, [((u "input_name"), (Some (AStr (u "examples/flatten/filter/input.json")))); ((u "output_name"), (Some (AStr (u "examples/flatten/filter/actual")))); ((u "truncation_length"), (Some (AInt (3)))); ((u "filter_field"), (Some (AStr (u "type")))); ((u "filter_value"), (Some (AStr (u "pub"))))])));
  ([(u "flatten"); (u "--line-terminator=LF"); (u "--root-list-path=cafe"); (u "--main-sheet-name=cafe"); (u "--schema=examples/receipt/cafe.schema"); (u "examples/receipt/normalised/expected.json"); (u "-o"); (u "examples/flatten/line-terminator/actual")],
   PDone (false, Some ((u "flatten"), 21%nat, [((u "input_name"), (Some (AStr (u "examples/receipt/normalised/expected.json")))); ((u "schema"), (Some (AStr (u "examples/receipt/cafe.schema")))); ((u "main_sheet_name"), (Some (AStr (u "cafe")))); ((u "output_name"), (Some (AStr (u "examples/flatten/line-terminator/actual")))); ((u "root_list_path"), (Some (AStr (u "cafe")))); ((u "truncation_length"), (Some (AInt (3)))); ((u "line_terminator"), (Some (AStr (u "LF"))))])));
  ([(u "flatten"); (u "--preserve-fields"); (u "examples/flatten/preserve-fields/fields_to_preserve.csv"); (u "examples/flatten/preserve-fields/input.json"); (u "-o"); (u "examples/flatten/preserve-fields/actual")],
   PDone (false, Some ((u "flatten"), 21%nat, [((u "input_name"), (Some (AStr (u "examples/flatten/preserve-fields/input.json")))); ((u "output_name"), (Some (AStr (u "examples/flatten/preserve-fields/actual")))); ((u "truncation_length"), (Some (AInt (3)))); ((u "preserve_fields"), (Some (AStr (u "examples/flatten/preserve-fields/fields_to_preserve.csv"))))])));
  ([(u "flatten"); (u "--remove-empty-schema-columns"); (u "--root-list-path=cafe"); (u "--main-sheet-name=cafe"); (u "--schema=examples/receipt/cafe.schema"); (u "examples/flatten/remove-empty-schema-columns/input.json"); (u "-o"); (u "examples/flatten/remove-empty-schema-columns/actual")],
   PDone (false, Some ((u "flatten"), 21%nat, [((u "input_name"), (Some (AStr (u "examples/flatten/remove-empty-schema-columns/input.json")))); ((u "schema"), (Some (AStr (u "examples/receipt/cafe.schema")))); ((u "main_sheet_name"), (Some (AStr (u "cafe")))); ((u "output_name"), (Some (AStr (u "examples/flatten/remove-empty-schema-columns/actual")))); ((u "root_list_path"), (Some (AStr (u "cafe")))); ((u "truncation_length"), (Some (AInt (3)))); ((u "remove_empty_schema_columns"), (Some (ABool true)))])));
  ([(u "flatten"); (u "--root-list-path=cafe"); (u "--use-titles"); (u "--main-sheet-name=cafe"); (u "--rollup=owners"); (u "--schema=examples/flatten/rollup/badschema/cafe-rollup.schema"); (u "examples/flatten/rollup/input.json"); (u "-o"); (u "examples/flatten/rollup/badschema/actual")],
   PDone (false, Some ((u "flatten"), 21%nat, [((u "input_name"), (Some (AStr (u "examples/flatten/rollup/input.json")))); ((u "schema"), (Some (AStr (u "examples/flatten/rollup/badschema/cafe-rollup.schema")))); ((u "main_sheet_name"), (Some (AStr (u "cafe")))); ((u "output_name"), (Some (AStr (u "examples/flatten/rollup/badschema/actual")))); ((u "root_list_path"), (Some (AStr (u "cafe")))); ((u "rollup"), (Some (AList [(AStr (u "owners"))]))); ((u "use_titles"), (Some (ABool true))); ((u "truncation_length"), (Some (AInt (3))))])));
  ([(u "flatten"); (u "--root-list-path=cafe"); (u "--main-sheet-name=cafe"); (u "--rollup=owners"); (u "examples/flatten/rollup/input.json"); (u "-o"); (u "examples/flatten/rollup/direct/actual")],
   PDone (false, Some ((u "flatten"), 21%nat, [((u "input_name"), (Some (AStr (u "examples/flatten/rollup/input.json")))); ((u "main_sheet_name"), (Some (AStr (u "cafe")))); ((u "output_name"), (Some (AStr (u "examples/flatten/rollup/direct/actual")))); ((u "root_list_path"), (Some (AStr (u "cafe")))); ((u "rollup"), (Some (AList [(AStr (u "owners"))]))); ((u "truncation_length"), (Some (AInt (3))))])));
  ([(u "flatten"); (u "--root-list-path=cafe"); (u "--main-sheet-name=cafe"); (u "--rollup=examples/flatten/rollup/file/fields_to_rollup.txt"); (u "examples/flatten/rollup/input.json"); (u "-o"); (u "examples/flatten/rollup/file/actual")],
   PDone (false, Some ((u "flatten"), 21%nat, [((u "input_name"), (Some (AStr (u "examples/flatten/rollup/input.json")))); ((u "main_sheet_name"), (Some (AStr (u "cafe")))); ((u "output_name"), (Some (AStr (u "examples/flatten/rollup/file/actual")))); ((u "root_list_path"), (Some (AStr (u "cafe")))); ((u "rollup"), (Some (AList [(AStr (u "examples/flatten/rollup/file/fields_to_rollup.txt"))]))); ((u "truncation_length"), (Some (AInt (3))))])));
  ([(u "flatten"); (u "--root-list-path=cafe"); (u "--use-titles"); (u "--main-sheet-name=cafe"); (u "--rollup"); (u "--schema=examples/flatten/rollup/schema/cafe-rollup.schema"); (u "examples/flatten/rollup/input.json"); (u "-o"); (u "examples/flatten/rollup/schema/actual")],
   PDone (false, Some ((u "flatten"), 21%nat, [((u "input_name"), (Some (AStr (u "examples/flatten/rollup/input.json")))); ((u "schema"), (Some (AStr (u "examples/flatten/rollup/schema/cafe-rollup.schema")))); ((u "main_sheet_name"), (Some (AStr (u "cafe")))); ((u "output_name"), (Some (AStr (u "examples/flatten/rollup/schema/actual")))); ((u "root_list_path"), (Some (AStr (u "cafe")))); ((u "rollup"), (Some (AList [(ABool true)]))); ((u "use_titles"), (Some (ABool true))); ((u "truncation_length"), (Some (AInt (3))))])));
  ([(u "flatten"); (u "--root-is-list"); (u "examples/flatten/root-is-list/data.json"); (u "-o"); (u "examples/flatten/root-is-list/actual")],
   PDone (false, Some ((u "flatten"), 21%nat, [((u "input_name"), (Some (AStr (u "examples/flatten/root-is-list/data.json")))); ((u "output_name"), (Some (AStr (u "examples/flatten/root-is-list/actual")))); ((u "truncation_length"), (Some (AInt (3)))); ((u "root_is_list"), (Some (ABool true)))])));
  ([(u "flatten"); (u "--sheet-prefix=test-"); (u "--root-list-path=cafe"); (u "--main-sheet-name=cafe"); (u "--schema=examples/receipt/cafe.schema"); (u "examples/receipt/normalised/expected.json"); (u "-o"); (u "examples/flatten/sheet-prefix/actual")],
   PDone (false, Some ((u "flatten"), 21%nat, [((u "input_name"), (Some (AStr (u "examples/receipt/normalised/expected.json")))); ((u "schema"), (Some (AStr (u "examples/receipt/cafe.schema")))); ((u "main_sheet_name"), (Some (AStr (u "cafe")))); ((u "output_name"), (Some (AStr (u "examples/flatten/sheet-prefix/actual")))); ((u "root_list_path"), (Some (AStr (u "cafe")))); ((u "truncation_length"), (Some (AInt (3)))); ((u "sheet_prefix"), (Some (AStr (u "test-"))))])));
  ([(u "flatten"); (u "--root-list-path=cafe"); (u "--main-sheet-name=cafe"); (u "--schema=examples/receipt/cafe.schema"); (u "examples/receipt/normalised/expected.json"); (u "-o"); (u "examples/flatten/simple/actual")],
   PDone (false, Some ((u "flatten"), 21%nat, [((u "input_name"), (Some (AStr (u "examples/receipt/normalised/expected.json")))); ((u "schema"), (Some (AStr (u "examples/receipt/cafe.schema")))); ((u "main_sheet_name"), (Some (AStr (u "cafe")))); ((u "output_name"), (Some (AStr (u "examples/flatten/simple/actual")))); ((u "root_list_path"), (Some (AStr (u "cafe")))); ((u "truncation_length"), (Some (AInt (3))))])));
  ([(u "flatten"); (u "--truncation-length"); (u "5"); (u "--root-list-path=cafe"); (u "--schema=examples/receipt/cafe.schema"); (u "examples/receipt/normalised/expected.json"); (u "-f"); (u "csv"); (u "-o"); (u "examples/flatten/truncation-length/actual")],
   PDone (false, Some ((u "flatten"), 21%nat, [((u "input_name"), (Some (AStr (u "examples/receipt/normalised/expected.json")))); ((u "schema"), (Some (AStr (u "examples/receipt/cafe.schema")))); ((u "output_format"), (Some (AStr (u "csv")))); ((u "output_name"), (Some (AStr (u "examples/flatten/truncation-length/actual")))); ((u "root_list_path"), (Some (AStr (u "cafe")))); ((u "truncation_length"), (Some (AInt (5))))])));
  ([(u "create-template"); (u "-h")],
   PHelp);
  ([(u "flatten"); (u "-h")],
   PHelp);
  ([(u "unflatten"); (u "-h")],
   PHelp);
  ([(u "unflatten"); (u "--xml"); (u "--id-name"); (u "iati-identifier"); (u "--root-list-path"); (u "iati-activity"); (u "--xml-schema"); (u "examples/iati/iati-activities-schema.xsd"); (u "examples/iati/iati-common.xsd"); (u "-f"); (u "csv"); (u "examples/iati")],
   PDone (false, Some ((u "unflatten"), 25%nat, [((u "input_name"), (Some (AStr (u "examples/iati")))); ((u "input_format"), (Some (AStr (u "csv")))); ((u "xml"), (Some (ABool true))); ((u "id_name"), (Some (AStr (u "iati-identifier")))); ((u "root_list_path"), (Some (AStr (u "iati-activity")))); ((u "xml_schemas"), (Some (AList [(AStr (u "examples/iati/iati-activities-schema.xsd")); (AStr (u "examples/iati/iati-common.xsd"))]))); ((u "xml_comment"), (Some (AStr (u "XML generated by flatten-tool"))))])));
  ([(u "unflatten"); (u "--xml"); (u "--id-name"); (u "iati-identifier"); (u "--root-list-path"); (u "iati-activity"); (u "--xml-schema"); (u "examples/iati/iati-activities-schema.xsd"); (u "examples/iati/iati-common.xsd"); (u "-f"); (u "csv"); (u "examples/iati_multilang")],
   PDone (false, Some ((u "unflatten"), 25%nat, [((u "input_name"), (Some (AStr (u "examples/iati_multilang")))); ((u "input_format"), (Some (AStr (u "csv")))); ((u "xml"), (Some (ABool true))); ((u "id_name"), (Some (AStr (u "iati-identifier")))); ((u "root_list_path"), (Some (AStr (u "iati-activity")))); ((u "xml_schemas"), (Some (AList [(AStr (u "examples/iati/iati-activities-schema.xsd")); (AStr (u "examples/iati/iati-common.xsd"))]))); ((u "xml_comment"), (Some (AStr (u "XML generated by flatten-tool"))))])));
  ([(u "unflatten"); (u "--xml"); (u "--id-name"); (u "iati-identifier"); (u "--root-list-path"); (u "iati-activity"); (u "--xml-schema"); (u "examples/iati/iati-activities-schema.xsd"); (u "examples/iati/iati-common.xsd"); (u "-f"); (u "csv"); (u "examples/iati_namespaces")],
   PDone (false, Some ((u "unflatten"), 25%nat, [((u "input_name"), (Some (AStr (u "examples/iati_namespaces")))); ((u "input_format"), (Some (AStr (u "csv")))); ((u "xml"), (Some (ABool true))); ((u "id_name"), (Some (AStr (u "iati-identifier")))); ((u "root_list_path"), (Some (AStr (u "iati-activity")))); ((u "xml_schemas"), (Some (AList [(AStr (u "examples/iati/iati-activities-schema.xsd")); (AStr (u "examples/iati/iati-common.xsd"))]))); ((u "xml_comment"), (Some (AStr (u "XML generated by flatten-tool"))))])));
  ([(u "unflatten"); (u "--xml"); (u "--id-name"); (u "iati-identifier"); (u "--root-list-path"); (u "iati-activity"); (u "--xml-comment"); (u "XML generated by ODS"); (u "--xml-schema"); (u "examples/iati/iati-activities-schema.xsd"); (u "examples/iati/iati-common.xsd"); (u "-f"); (u "csv"); (u "examples/iati_xml_comment")],
   PDone (false, Some ((u "unflatten"), 25%nat, [((u "input_name"), (Some (AStr (u "examples/iati_xml_comment")))); ((u "input_format"), (Some (AStr (u "csv")))); ((u "xml"), (Some (ABool true))); ((u "id_name"), (Some (AStr (u "iati-identifier")))); ((u "root_list_path"), (Some (AStr (u "iati-activity")))); ((u "xml_schemas"), (Some (AList [(AStr (u "examples/iati/iati-activities-schema.xsd")); (AStr (u "examples/iati/iati-common.xsd"))]))); ((u "xml_comment"), (Some (AStr (u "XML generated by ODS"))))])));
  ([(u "unflatten"); (u "-f=csv"); (u "--root-list-path=cafe"); (u "examples/receipt/combine-table-into-cafe-2/")],
   PDone (false, Some ((u "unflatten"), 25%nat, [((u "input_name"), (Some (AStr (u "examples/receipt/combine-table-into-cafe-2/")))); ((u "input_format"), (Some (AStr (u "csv")))); ((u "root_list_path"), (Some (AStr (u "cafe")))); ((u "xml_comment"), (Some (AStr (u "XML generated by flatten-tool"))))])));
  ([(u "unflatten"); (u "-f=csv"); (u "--root-list-path=cafe"); (u "examples/receipt/combine-table-into-cafe/")],
   PDone (false, Some ((u "unflatten"), 25%nat, [((u "input_name"), (Some (AStr (u "examples/receipt/combine-table-into-cafe/")))); ((u "input_format"), (Some (AStr (u "csv")))); ((u "root_list_path"), (Some (AStr (u "cafe")))); ((u "xml_comment"), (Some (AStr (u "XML generated by flatten-tool"))))])));
  ([(u "unflatten"); (u "-f=csv"); (u "--root-list-path=cafe"); (u "examples/receipt/normalised/")],
   PDone (false, Some ((u "unflatten"), 25%nat, [((u "input_name"), (Some (AStr (u "examples/receipt/normalised/")))); ((u "input_format"), (Some (AStr (u "csv")))); ((u "root_list_path"), (Some (AStr (u "cafe")))); ((u "xml_comment"), (Some (AStr (u "XML generated by flatten-tool"))))])));
  ([(u "unflatten"); (u "-f=csv"); (u "--root-list-path=cafe"); (u "--cell-source-map"); (u "examples/receipt/source-map/actual/cell_source_map.json"); (u "--heading-source-map"); (u "examples/receipt/source-map/actual/heading_source_map.json"); (u "examples/receipt/source-map/input/")],
   PDone (false, Some ((u "unflatten"), 25%nat, [((u "input_name"), (Some (AStr (u "examples/receipt/source-map/input/")))); ((u "input_format"), (Some (AStr (u "csv")))); ((u "root_list_path"), (Some (AStr (u "cafe")))); ((u "cell_source_map"), (Some (AStr (u "examples/receipt/source-map/actual/cell_source_map.json")))); ((u "heading_source_map"), (Some (AStr (u "examples/receipt/source-map/actual/heading_source_map.json")))); ((u "xml_comment"), (Some (AStr (u "XML generated by flatten-tool"))))])));
  ([(u "flatten"); (u "--root-list-path=weather"); (u "--main-sheet-name=weather"); (u "--use-titles"); (u "--schema=examples/titles-ref/schema.json"); (u "examples/titles-ref/flatten/data.json"); (u "-f"); (u "csv"); (u "-o"); (u "examples/titles-ref/flatten/actual")],
   PDone (false, Some ((u "flatten"), 21%nat, [((u "input_name"), (Some (AStr (u "examples/titles-ref/flatten/data.json")))); ((u "schema"), (Some (AStr (u "examples/titles-ref/schema.json")))); ((u "output_format"), (Some (AStr (u "csv")))); ((u "main_sheet_name"), (Some (AStr (u "weather")))); ((u "output_name"), (Some (AStr (u "examples/titles-ref/flatten/actual")))); ((u "root_list_path"), (Some (AStr (u "weather")))); ((u "use_titles"), (Some (ABool true))); ((u "truncation_length"), (Some (AInt (3))))])));
  ([(u "unflatten"); (u "-f"); (u "csv"); (u "--root-list-path=weather"); (u "--convert-titles"); (u "--schema=examples/titles-ref/schema.json"); (u "examples/titles-ref/unflatten/data")],
   PDone (false, Some ((u "unflatten"), 25%nat, [((u "input_name"), (Some (AStr (u "examples/titles-ref/unflatten/data")))); ((u "input_format"), (Some (AStr (u "csv")))); ((u "root_list_path"), (Some (AStr (u "weather")))); ((u "schema"), (Some (AStr (u "examples/titles-ref/schema.json")))); ((u "convert_titles"), (Some (ABool true))); ((u "xml_comment"), (Some (AStr (u "XML generated by flatten-tool"))))])));
  ([(u "create-template"); (u "--convert-wkt"); (u "--schema"); (u "examples/wkt/create_template/schema.json"); (u "-o"); (u "examples/wkt/create_template/actual")],
   PDone (false, Some ((u "create-template"), 12%nat, [((u "schema"), (Some (AStr (u "examples/wkt/create_template/schema.json")))); ((u "output_name"), (Some (AStr (u "examples/wkt/create_template/actual")))); ((u "truncation_length"), (Some (AInt (3)))); ((u "convert_wkt"), (Some (ABool true)))])));
  ([(u "flatten"); (u "-f=csv"); (u "examples/wkt/flatten/data.json"); (u "-o"); (u "examples/wkt/flatten/actual"); (u "--convert-wkt")],
   PDone (false, Some ((u "flatten"), 21%nat, [((u "input_name"), (Some (AStr (u "examples/wkt/flatten/data.json")))); ((u "output_format"), (Some (AStr (u "csv")))); ((u "output_name"), (Some (AStr (u "examples/wkt/flatten/actual")))); ((u "truncation_length"), (Some (AInt (3)))); ((u "convert_wkt"), (Some (ABool true)))])));
  ([(u "flatten"); (u "-f=csv"); (u "examples/wkt/flatten_wkt_disabled/data.json"); (u "-o"); (u "examples/wkt/flatten_wkt_disabled/actual")],
   PDone (false, Some ((u "flatten"), 21%nat, [((u "input_name"), (Some (AStr (u "examples/wkt/flatten_wkt_disabled/data.json")))); ((u "output_format"), (Some (AStr (u "csv")))); ((u "output_name"), (Some (AStr (u "examples/wkt/flatten_wkt_disabled/actual")))); ((u "truncation_length"), (Some (AInt (3))))])));
  ([(u "unflatten"); (u "-f=csv"); (u "examples/wkt/unflatten/"); (u "--schema"); (u "examples/wkt/unflatten/schema.json"); (u "--convert-wkt")],
   PDone (false, Some ((u "unflatten"), 25%nat, [((u "input_name"), (Some (AStr (u "examples/wkt/unflatten/")))); ((u "input_format"), (Some (AStr (u "csv")))); ((u "schema"), (Some (AStr (u "examples/wkt/unflatten/schema.json")))); ((u "xml_comment"), (Some (AStr (u "XML generated by flatten-tool")))); ((u "convert_wkt"), (Some (ABool true)))])));
  ([(u "unflatten"); (u "-f=csv"); (u "examples/wkt/unflatten_wkt_disabled/"); (u "--schema"); (u "examples/wkt/unflatten_wkt_disabled/schema.json")],
   PDone (false, Some ((u "unflatten"), 25%nat, [((u "input_name"), (Some (AStr (u "examples/wkt/unflatten_wkt_disabled/")))); ((u "input_format"), (Some (AStr (u "csv")))); ((u "schema"), (Some (AStr (u "examples/wkt/unflatten_wkt_disabled/schema.json")))); ((u "xml_comment"), (Some (AStr (u "XML generated by flatten-tool"))))])));
  ([(u "flatten"); (u "in.json")],
   PDone (false, Some ((u "flatten"), 21%nat, [((u "input_name"), (Some (AStr (u "in.json")))); ((u "truncation_length"), (Some (AInt (3))))])));
  ([(u "unflatten"); (u "-fcsv"); (u "in.json")],
   PDone (false, Some ((u "unflatten"), 25%nat, [((u "input_name"), (Some (AStr (u "in.json")))); ((u "input_format"), (Some (AStr (u "csv")))); ((u "xml_comment"), (Some (AStr (u "XML generated by flatten-tool"))))])));
  ([(u "unflatten"); (u "in.json"); (u "-f"); (u "csv"); (u "--id-name"); (u "csv"); (u "-s"); (u "a")],
   PDone (false, Some ((u "unflatten"), 25%nat, [((u "input_name"), (Some (AStr (u "in.json")))); ((u "input_format"), (Some (AStr (u "csv")))); ((u "id_name"), (Some (AStr (u "csv")))); ((u "schema"), (Some (AStr (u "a")))); ((u "xml_comment"), (Some (AStr (u "XML generated by flatten-tool"))))])));
  ([(u "flatten"); (u "in.json"); (u "--remove-empty-schema-columns"); (u "-f=csv")],
   PDone (false, Some ((u "flatten"), 21%nat, [((u "input_name"), (Some (AStr (u "in.json")))); ((u "output_format"), (Some (AStr (u "csv")))); ((u "truncation_length"), (Some (AInt (3)))); ((u "remove_empty_schema_columns"), (Some (ABool true)))])));
  ([(u "flatten"); (u "in.json")],
   PDone (false, Some ((u "flatten"), 21%nat, [((u "input_name"), (Some (AStr (u "in.json")))); ((u "truncation_length"), (Some (AInt (3))))])));
  ([(u "flatten"); (u "in.json")],
   PDone (false, Some ((u "flatten"), 21%nat, [((u "input_name"), (Some (AStr (u "in.json")))); ((u "truncation_length"), (Some (AInt (3))))])));
  ([(u "flatten"); (u "in.json")],
   PDone (false, Some ((u "flatten"), 21%nat, [((u "input_name"), (Some (AStr (u "in.json")))); ((u "truncation_length"), (Some (AInt (3))))])));
  ([(u "flatten"); (u "-f"); (u "csv"); (u "in.json"); (u "--line-terminat"); (u "all")],
   PDone (false, Some ((u "flatten"), 21%nat, [((u "input_name"), (Some (AStr (u "in.json")))); ((u "output_format"), (Some (AStr (u "csv")))); ((u "truncation_length"), (Some (AInt (3)))); ((u "line_terminator"), (Some (AStr (u "all"))))])));
  ([(u "flatten"); (u "--filter-value=xlsx"); (u "--line-terminator"); (u "csv"); (u "--use-titles"); (u "in.json")],
   PDone (false, Some ((u "flatten"), 21%nat, [((u "input_name"), (Some (AStr (u "in.json")))); ((u "use_titles"), (Some (ABool true))); ((u "truncation_length"), (Some (AInt (3)))); ((u "filter_value"), (Some (AStr (u "xlsx")))); ((u "line_terminator"), (Some (AStr (u "csv"))))])));
  ([(u "flatten"); (u "in.json"); (u "--disable-local-refs")],
   PDone (false, Some ((u "flatten"), 21%nat, [((u "input_name"), (Some (AStr (u "in.json")))); ((u "truncation_length"), (Some (AInt (3)))); ((u "disable_local_refs"), (Some (ABool true)))])));
  ([(u "create-template"); (u "--sch"); (u "x"); (u "-m"); (u "xlsx"); (u "-r"); (u "csv")],
   PDone (false, Some ((u "create-template"), 12%nat, [((u "schema"), (Some (AStr (u "x")))); ((u "main_sheet_name"), (Some (AStr (u "xlsx")))); ((u "root_id"), (Some (AStr (u "csv")))); ((u "truncation_length"), (Some (AInt (3))))])));
  ([(u "create-template"); (u "--sch"); (u "x")],
   PDone (false, Some ((u "create-template"), 12%nat, [((u "schema"), (Some (AStr (u "x")))); ((u "truncation_length"), (Some (AInt (3))))])));
  ([(u "unflatten"); (u "-f=csv"); (u "in.json")],
   PDone (false, Some ((u "unflatten"), 25%nat, [((u "input_name"), (Some (AStr (u "in.json")))); ((u "input_format"), (Some (AStr (u "csv")))); ((u "xml_comment"), (Some (AStr (u "XML generated by flatten-tool"))))])));
  ([(u "flatten"); (u "in.json")],
   PDone (false, Some ((u "flatten"), 21%nat, [((u "input_name"), (Some (AStr (u "in.json")))); ((u "truncation_length"), (Some (AInt (3))))])));
  ([(u "unflatten"); (u "--vertical-orientation"); (u "in.json"); (u "--input"); (u "ods"); (u "--root-is-list")],
   PDone (false, Some ((u "unflatten"), 25%nat, [((u "input_name"), (Some (AStr (u "in.json")))); ((u "input_format"), (Some (AStr (u "ods")))); ((u "vertical_orientation"), (Some (ABool true))); ((u "root_is_list"), (Some (ABool true))); ((u "xml_comment"), (Some (AStr (u "XML generated by flatten-tool"))))])));
  ([(u "flatten"); (u "in.json"); (u "-s=a")],
   PDone (false, Some ((u "flatten"), 21%nat, [((u "input_name"), (Some (AStr (u "in.json")))); ((u "schema"), (Some (AStr (u "a")))); ((u "truncation_length"), (Some (AInt (3))))])));
  ([(u "create-template"); (u "-s"); (u "x"); (u "--rollup")],
   PDone (false, Some ((u "create-template"), 12%nat, [((u "schema"), (Some (AStr (u "x")))); ((u "rollup"), (Some (ABool true))); ((u "truncation_length"), (Some (AInt (3))))])));
  ([(u "flatten"); (u "in.json")],
   PDone (false, Some ((u "flatten"), 21%nat, [((u "input_name"), (Some (AStr (u "in.json")))); ((u "truncation_length"), (Some (AInt (3))))])));
  ([(u "flatten"); (u "--preserve-fields"); (u "a"); (u "--output-name"); (u "a"); (u "in.json"); (u "--output-name"); (u "a")],
   PDone (false, Some ((u "flatten"), 21%nat, [((u "input_name"), (Some (AStr (u "in.json")))); ((u "output_name"), (Some (AStr (u "a")))); ((u "truncation_length"), (Some (AInt (3)))); ((u "preserve_fields"), (Some (AStr (u "a"))))])));
  ([(u "flatten"); (u "--convert-wkt"); (u "--disable-local-refs"); (u "in.json"); (u "-o=csv")],
   PDone (false, Some ((u "flatten"), 21%nat, [((u "input_name"), (Some (AStr (u "in.json")))); ((u "output_name"), (Some (AStr (u "csv")))); ((u "truncation_length"), (Some (AInt (3)))); ((u "disable_local_refs"), (Some (ABool true))); ((u "convert_wkt"), (Some (ABool true)))])));
  ([(u "-v"); (u "flatten"); (u "in.json")],
   PDone (true, Some ((u "flatten"), 21%nat, [((u "input_name"), (Some (AStr (u "in.json")))); ((u "truncation_length"), (Some (AInt (3))))])));
  ([(u "flatten"); (u "-r"); (u "xlsx"); (u "in.json")],
   PDone (false, Some ((u "flatten"), 21%nat, [((u "input_name"), (Some (AStr (u "in.json")))); ((u "root_id"), (Some (AStr (u "xlsx")))); ((u "truncation_length"), (Some (AInt (3))))])));
  ([(u "flatten"); (u "--xm"); (u "in.json")],
   PDone (false, Some ((u "flatten"), 21%nat, [((u "input_name"), (Some (AStr (u "in.json")))); ((u "xml"), (Some (ABool true))); ((u "truncation_length"), (Some (AInt (3))))])));
  ([(u "create-template"); (u "--schema=x"); (u "--root-"); (u "a=b"); (u "--disable-local-refs")],
   PDone (false, Some ((u "create-template"), 12%nat, [((u "schema"), (Some (AStr (u "x")))); ((u "root_id"), (Some (AStr (u "a=b")))); ((u "disable_local_refs"), (Some (ABool true))); ((u "truncation_length"), (Some (AInt (3))))])));
  ([(u "unflatten"); (u "--input-format=xlsx"); (u "in.json"); (u "--vertical-orientation")],
   PDone (false, Some ((u "unflatten"), 25%nat, [((u "input_name"), (Some (AStr (u "in.json")))); ((u "input_format"), (Some (AStr (u "xlsx")))); ((u "vertical_orientation"), (Some (ABool true))); ((u "xml_comment"), (Some (AStr (u "XML generated by flatten-tool"))))])));
  ([(u "create-template"); (u "-s"); (u "x")],
   PDone (false, Some ((u "create-template"), 12%nat, [((u "schema"), (Some (AStr (u "x")))); ((u "truncation_length"), (Some (AInt (3))))])));
  ([(u "flatten"); (u "in.json"); (u "-s"); (u "-.5")],
   PDone (false, Some ((u "flatten"), 21%nat, [((u "input_name"), (Some (AStr (u "in.json")))); ((u "schema"), (Some (AStr (u "-.5")))); ((u "truncation_length"), (Some (AInt (3))))])));
  ([(u "unflatten"); (u "-f"); (u "csv"); (u "in.json"); (u "--convert-wkt"); (u "--metatab-vertical-orientation")],
   PDone (false, Some ((u "unflatten"), 25%nat, [((u "input_name"), (Some (AStr (u "in.json")))); ((u "input_format"), (Some (AStr (u "csv")))); ((u "metatab_vertical_orientation"), (Some (ABool true))); ((u "xml_comment"), (Some (AStr (u "XML generated by flatten-tool")))); ((u "convert_wkt"), (Some (ABool true)))])));
  ([(u "flatten"); (u "in.json")],
   PDone (false, Some ((u "flatten"), 21%nat, [((u "input_name"), (Some (AStr (u "in.json")))); ((u "truncation_length"), (Some (AInt (3))))])));
  ([(u "unflatten"); (u "--metatab-schema"); (u "xlsx"); (u "in.json"); (u "-fcsv")],
   PDone (false, Some ((u "unflatten"), 25%nat, [((u "input_name"), (Some (AStr (u "in.json")))); ((u "input_format"), (Some (AStr (u "csv")))); ((u "metatab_schema"), (Some (AStr (u "xlsx")))); ((u "xml_comment"), (Some (AStr (u "XML generated by flatten-tool"))))])));
  ([(u "-vv"); (u "create-template"); (u "-o=all"); (u "-sx"); (u "--convert-wkt")],
   PDone (true, Some ((u "create-template"), 12%nat, [((u "schema"), (Some (AStr (u "x")))); ((u "output_name"), (Some (AStr (u "all")))); ((u "truncation_length"), (Some (AInt (3)))); ((u "convert_wkt"), (Some (ABool true)))])));
  ([(u "create-template"); (u "--sch"); (u "x")],
   PDone (false, Some ((u "create-template"), 12%nat, [((u "schema"), (Some (AStr (u "x")))); ((u "truncation_length"), (Some (AInt (3))))])));
  ([(u "unflatten"); (u "in.json"); (u "--input"); (u "ods")],
   PDone (false, Some ((u "unflatten"), 25%nat, [((u "input_name"), (Some (AStr (u "in.json")))); ((u "input_format"), (Some (AStr (u "ods")))); ((u "xml_comment"), (Some (AStr (u "XML generated by flatten-tool"))))])));
  ([(u "unflatten"); (u "in.json"); (u "-f"); (u "csv")],
   PDone (false, Some ((u "unflatten"), 25%nat, [((u "input_name"), (Some (AStr (u "in.json")))); ((u "input_format"), (Some (AStr (u "csv")))); ((u "xml_comment"), (Some (AStr (u "XML generated by flatten-tool"))))])));
  ([(u "flatten"); (u "in.json"); (u "-o=1_0"); (u "--disable-local-refs"); (u "--filter-f"); (u "csv")],
   PDone (false, Some ((u "flatten"), 21%nat, [((u "input_name"), (Some (AStr (u "in.json")))); ((u "output_name"), (Some (AStr (u "1_0")))); ((u "truncation_length"), (Some (AInt (3)))); ((u "filter_field"), (Some (AStr (u "csv")))); ((u "disable_local_refs"), (Some (ABool true)))])));
  ([(u "unflatten"); (u "--input-format=xlsx"); (u "--root-list-path=-h"); (u "in.json")],
   PDone (false, Some ((u "unflatten"), 25%nat, [((u "input_name"), (Some (AStr (u "in.json")))); ((u "input_format"), (Some (AStr (u "xlsx")))); ((u "root_list_path"), (Some (AStr (u "-h")))); ((u "xml_comment"), (Some (AStr (u "XML generated by flatten-tool"))))])));
  ([(u "--verbose"); (u "unflatten"); (u "-a=csv"); (u "in.json"); (u "--input"); (u "ods")],
   PDone (true, Some ((u "unflatten"), 25%nat, [((u "input_name"), (Some (AStr (u "in.json")))); ((u "input_format"), (Some (AStr (u "ods")))); ((u "heading_source_map"), (Some (AStr (u "csv")))); ((u "xml_comment"), (Some (AStr (u "XML generated by flatten-tool"))))])));
  ([(u "unflatten"); (u "--metatab-schema"); (u "xlsx"); (u "in.json"); (u "-fcsv"); (u "--base-json"); (u "xlsx")],
   PDone (false, Some ((u "unflatten"), 25%nat, [((u "input_name"), (Some (AStr (u "in.json")))); ((u "input_format"), (Some (AStr (u "csv")))); ((u "base_json"), (Some (AStr (u "xlsx")))); ((u "metatab_schema"), (Some (AStr (u "xlsx")))); ((u "xml_comment"), (Some (AStr (u "XML generated by flatten-tool"))))])));
  ([(u "flatten"); (u "--filter-field=a"); (u "--rollup"); (u "all"); (u "in.json")],
   PDone (false, Some ((u "flatten"), 21%nat, [((u "input_name"), (Some (AStr (u "in.json")))); ((u "rollup"), (Some (AList [(AStr (u "all"))]))); ((u "truncation_length"), (Some (AInt (3)))); ((u "filter_field"), (Some (AStr (u "a"))))])));
  ([(u "flatten"); (u "-r=-h"); (u "--filter-value=a"); (u "in.json"); (u "-s=xlsx")],
   PDone (false, Some ((u "flatten"), 21%nat, [((u "input_name"), (Some (AStr (u "in.json")))); ((u "schema"), (Some (AStr (u "xlsx")))); ((u "root_id"), (Some (AStr (u "-h")))); ((u "truncation_length"), (Some (AInt (3)))); ((u "filter_value"), (Some (AStr (u "a"))))])));
  ([(u "unflatten"); (u "--input"); (u "ods"); (u "-a"); (u "xlsx"); (u "in.json")],
   PDone (false, Some ((u "unflatten"), 25%nat, [((u "input_name"), (Some (AStr (u "in.json")))); ((u "input_format"), (Some (AStr (u "ods")))); ((u "heading_source_map"), (Some (AStr (u "xlsx")))); ((u "xml_comment"), (Some (AStr (u "XML generated by flatten-tool"))))])));
  ([(u "unflatten"); (u "in.json"); (u "-f=csv")],
   PDone (false, Some ((u "unflatten"), 25%nat, [((u "input_name"), (Some (AStr (u "in.json")))); ((u "input_format"), (Some (AStr (u "csv")))); ((u "xml_comment"), (Some (AStr (u "XML generated by flatten-tool"))))])));
  ([(u "create-template"); (u "--sch"); (u "x")],
   PDone (false, Some ((u "create-template"), 12%nat, [((u "schema"), (Some (AStr (u "x")))); ((u "truncation_length"), (Some (AInt (3))))])));
  ([(u "-v"); (u "create-template"); (u "--rollup"); (u "-s"); (u "x"); (u "-m"); (u "xlsx"); (u "--output-format=csv")],
   PDone (true, Some ((u "create-template"), 12%nat, [((u "schema"), (Some (AStr (u "x")))); ((u "output_format"), (Some (AStr (u "csv")))); ((u "main_sheet_name"), (Some (AStr (u "xlsx")))); ((u "rollup"), (Some (ABool true))); ((u "truncation_length"), (Some (AInt (3))))])));
  ([(u "flatten"); (u "in.json")],
   PDone (false, Some ((u "flatten"), 21%nat, [((u "input_name"), (Some (AStr (u "in.json")))); ((u "truncation_length"), (Some (AInt (3))))])));
  ([(u "unflatten"); (u "--input"); (u "ods"); (u "in.json")],
   PDone (false, Some ((u "unflatten"), 25%nat, [((u "input_name"), (Some (AStr (u "in.json")))); ((u "input_format"), (Some (AStr (u "ods")))); ((u "xml_comment"), (Some (AStr (u "XML generated by flatten-tool"))))])));
  ([(u "create-template"); (u "-s=x")],
   PDone (false, Some ((u "create-template"), 12%nat, [((u "schema"), (Some (AStr (u "x")))); ((u "truncation_length"), (Some (AInt (3))))])));
  ([(u "--verbose"); (u "unflatten"); (u "-f=csv"); (u "in.json")],
   PDone (true, Some ((u "unflatten"), 25%nat, [((u "input_name"), (Some (AStr (u "in.json")))); ((u "input_format"), (Some (AStr (u "csv")))); ((u "xml_comment"), (Some (AStr (u "XML generated by flatten-tool"))))])));
  ([(u "unflatten"); (u "in.json"); (u "-fcsv"); (u "-o"); (u "a=b")],
   PDone (false, Some ((u "unflatten"), 25%nat, [((u "input_name"), (Some (AStr (u "in.json")))); ((u "input_format"), (Some (AStr (u "csv")))); ((u "output_name"), (Some (AStr (u "a=b")))); ((u "xml_comment"), (Some (AStr (u "XML generated by flatten-tool"))))])));
  ([(u "flatten"); (u "in.json")],
   PDone (false, Some ((u "flatten"), 21%nat, [((u "input_name"), (Some (AStr (u "in.json")))); ((u "truncation_length"), (Some (AInt (3))))])));
  ([(u "create-template"); (u "--schema=x"); (u "--use-titles")],
   PDone (false, Some ((u "create-template"), 12%nat, [((u "schema"), (Some (AStr (u "x")))); ((u "use_titles"), (Some (ABool true))); ((u "truncation_length"), (Some (AInt (3))))])));
  ([(u "unflatten"); (u "in.json"); (u "-f=csv")],
   PDone (false, Some ((u "unflatten"), 25%nat, [((u "input_name"), (Some (AStr (u "in.json")))); ((u "input_format"), (Some (AStr (u "csv")))); ((u "xml_comment"), (Some (AStr (u "XML generated by flatten-tool"))))])));
  ([(u "unflatten"); (u "--metatab-vertical-orientation"); (u "--output-name"); (u "xlsx"); (u "in.json"); (u "--input"); (u "ods"); (u "--metatab-vertical-orientation")],
   PDone (false, Some ((u "unflatten"), 25%nat, [((u "input_name"), (Some (AStr (u "in.json")))); ((u "input_format"), (Some (AStr (u "ods")))); ((u "output_name"), (Some (AStr (u "xlsx")))); ((u "metatab_vertical_orientation"), (Some (ABool true))); ((u "xml_comment"), (Some (AStr (u "XML generated by flatten-tool"))))])));
  ([(u "unflatten"); (u "-r-"); (u "--input-format=xlsx"); (u "in.json")],
   PDone (false, Some ((u "unflatten"), 25%nat, [((u "input_name"), (Some (AStr (u "in.json")))); ((u "input_format"), (Some (AStr (u "xlsx")))); ((u "root_id"), (Some (AStr (u "-")))); ((u "xml_comment"), (Some (AStr (u "XML generated by flatten-tool"))))])));
  ([(u "create-template"); (u "-sx")],
   PDone (false, Some ((u "create-template"), 12%nat, [((u "schema"), (Some (AStr (u "x")))); ((u "truncation_length"), (Some (AInt (3))))])));
  ([(u "unflatten"); (u "-fcsv"); (u "-m"); (u "a"); (u "in.json")],
   PDone (false, Some ((u "unflatten"), 25%nat, [((u "input_name"), (Some (AStr (u "in.json")))); ((u "input_format"), (Some (AStr (u "csv")))); ((u "root_list_path"), (Some (AStr (u "a")))); ((u "xml_comment"), (Some (AStr (u "XML generated by flatten-tool"))))])));
  ([(u "unflatten"); (u "-f=csv"); (u "-sa"); (u "in.json")],
   PDone (false, Some ((u "unflatten"), 25%nat, [((u "input_name"), (Some (AStr (u "in.json")))); ((u "input_format"), (Some (AStr (u "csv")))); ((u "schema"), (Some (AStr (u "a")))); ((u "xml_comment"), (Some (AStr (u "XML generated by flatten-tool"))))])));
  ([(u "unflatten"); (u "--encoding"); (u "csv"); (u "in.json"); (u "-f"); (u "csv")],
   PDone (false, Some ((u "unflatten"), 25%nat, [((u "input_name"), (Some (AStr (u "in.json")))); ((u "input_format"), (Some (AStr (u "csv")))); ((u "encoding"), (Some (AStr (u "csv")))); ((u "xml_comment"), (Some (AStr (u "XML generated by flatten-tool"))))])));
  ([(u "create-template"); (u "-s=x")],
   PDone (false, Some ((u "create-template"), 12%nat, [((u "schema"), (Some (AStr (u "x")))); ((u "truncation_length"), (Some (AInt (3))))])));
  ([(u "unflatten"); (u "--input"); (u "ods"); (u "in.json"); (u "--disable-local-refs")],
   PDone (false, Some ((u "unflatten"), 25%nat, [((u "input_name"), (Some (AStr (u "in.json")))); ((u "input_format"), (Some (AStr (u "ods")))); ((u "disable_local_refs"), (Some (ABool true))); ((u "xml_comment"), (Some (AStr (u "XML generated by flatten-tool"))))])));
  ([(u "unflatten"); (u "--sche"); (u "a"); (u "-f=csv"); (u "in.json")],
   PDone (false, Some ((u "unflatten"), 25%nat, [((u "input_name"), (Some (AStr (u "in.json")))); ((u "input_format"), (Some (AStr (u "csv")))); ((u "schema"), (Some (AStr (u "a")))); ((u "xml_comment"), (Some (AStr (u "XML generated by flatten-tool"))))])));
  ([(u "unflatten"); (u "in.json"); (u "-r"); (u "csv"); (u "-fcsv")],
   PDone (false, Some ((u "unflatten"), 25%nat, [((u "input_name"), (Some (AStr (u "in.json")))); ((u "input_format"), (Some (AStr (u "csv")))); ((u "root_id"), (Some (AStr (u "csv")))); ((u "xml_comment"), (Some (AStr (u "XML generated by flatten-tool"))))])));
  ([(u "create-template"); (u "-fall"); (u "-sx")],
   PDone (false, Some ((u "create-template"), 12%nat, [((u "schema"), (Some (AStr (u "x")))); ((u "output_format"), (Some (AStr (u "all")))); ((u "truncation_length"), (Some (AInt (3))))])));
  ([(u "create-template"); (u "--output-name"); (u "5"); (u "--sch"); (u "x")],
   PDone (false, Some ((u "create-template"), 12%nat, [((u "schema"), (Some (AStr (u "x")))); ((u "output_name"), (Some (AStr (u "5")))); ((u "truncation_length"), (Some (AInt (3))))])));
  ([(u "unflatten"); (u "-fcsv"); (u "-c=csv"); (u "in.json")],
   PDone (false, Some ((u "unflatten"), 25%nat, [((u "input_name"), (Some (AStr (u "in.json")))); ((u "input_format"), (Some (AStr (u "csv")))); ((u "cell_source_map"), (Some (AStr (u "csv")))); ((u "xml_comment"), (Some (AStr (u "XML generated by flatten-tool"))))])));
  ([(u "create-template"); (u "-sx")],
   PDone (false, Some ((u "create-template"), 12%nat, [((u "schema"), (Some (AStr (u "x")))); ((u "truncation_length"), (Some (AInt (3))))])));
  ([(u "create-template"); (u "-o"); (u "all"); (u "--sch"); (u "x"); (u "--output-name=xlsx")],
   PDone (false, Some ((u "create-template"), 12%nat, [((u "schema"), (Some (AStr (u "x")))); ((u "output_name"), (Some (AStr (u "xlsx")))); ((u "truncation_length"), (Some (AInt (3))))])));
  ([(u "flatten"); (u "in.json"); (u "--filter-field=csv")],
   PDone (false, Some ((u "flatten"), 21%nat, [((u "input_name"), (Some (AStr (u "in.json")))); ((u "truncation_length"), (Some (AInt (3)))); ((u "filter_field"), (Some (AStr (u "csv"))))])));
  ([(u "flatten"); (u "--use-title"); (u "-.5")],
   PDone (false, Some ((u "flatten"), 21%nat, [((u "input_name"), (Some (AStr (u "-.5")))); ((u "use_titles"), (Some (ABool true))); ((u "truncation_length"), (Some (AInt (3))))])));
  ([(u "unflatten"); (u "in.json"); (u "--input"); (u "ods")],
   PDone (false, Some ((u "unflatten"), 25%nat, [((u "input_name"), (Some (AStr (u "in.json")))); ((u "input_format"), (Some (AStr (u "ods")))); ((u "xml_comment"), (Some (AStr (u "XML generated by flatten-tool"))))])));
  ([(u "flatten"); (u "--remove-empty-schema-columns"); (u "in.json")],
   PDone (false, Some ((u "flatten"), 21%nat, [((u "input_name"), (Some (AStr (u "in.json")))); ((u "truncation_length"), (Some (AInt (3)))); ((u "remove_empty_schema_columns"), (Some (ABool true)))])));
  ([(u "create-template"); (u "-s"); (u "x")],
   PDone (false, Some ((u "create-template"), 12%nat, [((u "schema"), (Some (AStr (u "x")))); ((u "truncation_length"), (Some (AInt (3))))])));
  ([(u "flatten"); (u "--remove-empty-schema-columns"); (u "in.json"); (u "-s"); (u "a")],
   PDone (false, Some ((u "flatten"), 21%nat, [((u "input_name"), (Some (AStr (u "in.json")))); ((u "schema"), (Some (AStr (u "a")))); ((u "truncation_length"), (Some (AInt (3)))); ((u "remove_empty_schema_columns"), (Some (ABool true)))])));
  ([(u "create-template"); (u "-sx"); (u "--disable-local-refs")],
   PDone (false, Some ((u "create-template"), 12%nat, [((u "schema"), (Some (AStr (u "x")))); ((u "disable_local_refs"), (Some (ABool true))); ((u "truncation_length"), (Some (AInt (3))))])));
  ([(u "create-template"); (u "-mxlsx"); (u "-s=x")],
   PDone (false, Some ((u "create-template"), 12%nat, [((u "schema"), (Some (AStr (u "x")))); ((u "main_sheet_name"), (Some (AStr (u "xlsx")))); ((u "truncation_length"), (Some (AInt (3))))])));
  ([(u "flatten"); (u "in.json")],
   PDone (false, Some ((u "flatten"), 21%nat, [((u "input_name"), (Some (AStr (u "in.json")))); ((u "truncation_length"), (Some (AInt (3))))])));
  ([(u "create-template"); (u "-s"); (u "x")],
   PDone (false, Some ((u "create-template"), 12%nat, [((u "schema"), (Some (AStr (u "x")))); ((u "truncation_length"), (Some (AInt (3))))])));
  ([(u "create-template"); (u "-r"); (u "all"); (u "-s"); (u "x"); (u "-m"); (u "xlsx")],
   PDone (false, Some ((u "create-template"), 12%nat, [((u "schema"), (Some (AStr (u "x")))); ((u "main_sheet_name"), (Some (AStr (u "xlsx")))); ((u "root_id"), (Some (AStr (u "all")))); ((u "truncation_length"), (Some (AInt (3))))])));
  ([(u "unflatten"); (u "--input"); (u "ods"); (u "in.json")],
   PDone (false, Some ((u "unflatten"), 25%nat, [((u "input_name"), (Some (AStr (u "in.json")))); ((u "input_format"), (Some (AStr (u "ods")))); ((u "xml_comment"), (Some (AStr (u "XML generated by flatten-tool"))))])));
  ([(u "create-template"); (u "-s"); (u " 7 "); (u "--schema=x"); (u "-s"); (u "-")],
   PDone (false, Some ((u "create-template"), 12%nat, [((u "schema"), (Some (AStr (u "-")))); ((u "truncation_length"), (Some (AInt (3))))])));
  ([(u "-v"); (u "create-template"); (u "-s=x")],
   PDone (true, Some ((u "create-template"), 12%nat, [((u "schema"), (Some (AStr (u "x")))); ((u "truncation_length"), (Some (AInt (3))))])));
  ([(u "create-template"); (u "--schema=x")],
   PDone (false, Some ((u "create-template"), 12%nat, [((u "schema"), (Some (AStr (u "x")))); ((u "truncation_length"), (Some (AInt (3))))])));
  ([(u "flatten"); (u "--convert-wkt"); (u "--convert-wkt"); (u "in.json")],
   PDone (false, Some ((u "flatten"), 21%nat, [((u "input_name"), (Some (AStr (u "in.json")))); ((u "truncation_length"), (Some (AInt (3)))); ((u "convert_wkt"), (Some (ABool true)))])));
  ([(u "unflatten"); (u "in.json"); (u "--input"); (u "ods")],
   PDone (false, Some ((u "unflatten"), 25%nat, [((u "input_name"), (Some (AStr (u "in.json")))); ((u "input_format"), (Some (AStr (u "ods")))); ((u "xml_comment"), (Some (AStr (u "XML generated by flatten-tool"))))])));
  ([(u "unflatten"); (u "in.json"); (u "-f=csv")],
   PDone (false, Some ((u "unflatten"), 25%nat, [((u "input_name"), (Some (AStr (u "in.json")))); ((u "input_format"), (Some (AStr (u "csv")))); ((u "xml_comment"), (Some (AStr (u "XML generated by flatten-tool"))))])));
  ([(u "flatten"); (u "in.json"); (u "-o=all"); (u "--use-titles"); (u "--line-terminator=")],
   PDone (false, Some ((u "flatten"), 21%nat, [((u "input_name"), (Some (AStr (u "in.json")))); ((u "output_name"), (Some (AStr (u "all")))); ((u "use_titles"), (Some (ABool true))); ((u "truncation_length"), (Some (AInt (3)))); ((u "line_terminator"), (Some (AStr (u ""))))])));
  ([(u "unflatten"); (u "in.json"); (u "--input-format=xlsx")],
   PDone (false, Some ((u "unflatten"), 25%nat, [((u "input_name"), (Some (AStr (u "in.json")))); ((u "input_format"), (Some (AStr (u "xlsx")))); ((u "xml_comment"), (Some (AStr (u "XML generated by flatten-tool"))))])));
  ([(u "unflatten"); (u "in.json"); (u "--disable-local-refs"); (u "--xml-schema"); (u "xlsx"); (u "--input-format=xlsx")],
   PDone (false, Some ((u "unflatten"), 25%nat, [((u "input_name"), (Some (AStr (u "in.json")))); ((u "input_format"), (Some (AStr (u "xlsx")))); ((u "xml_schemas"), (Some (AList [(AStr (u "xlsx"))]))); ((u "disable_local_refs"), (Some (ABool true))); ((u "xml_comment"), (Some (AStr (u "XML generated by flatten-tool"))))])));
  ([(u "create-template"); (u "-s"); (u "x"); (u "--sch"); (u "all")],
   PDone (false, Some ((u "create-template"), 12%nat, [((u "schema"), (Some (AStr (u "all")))); ((u "truncation_length"), (Some (AInt (3))))])));
  ([(u "--verbose"); (u "unflatten"); (u "-fcsv"); (u "in.json")],
   PDone (true, Some ((u "unflatten"), 25%nat, [((u "input_name"), (Some (AStr (u "in.json")))); ((u "input_format"), (Some (AStr (u "csv")))); ((u "xml_comment"), (Some (AStr (u "XML generated by flatten-tool"))))])));
  ([(u "create-template"); (u "-s=all"); (u "-s"); (u "x")],
   PDone (false, Some ((u "create-template"), 12%nat, [((u "schema"), (Some (AStr (u "x")))); ((u "truncation_length"), (Some (AInt (3))))])));
  ([(u "--verbose"); (u "create-template"); (u "--schema=x")],
   PDone (true, Some ((u "create-template"), 12%nat, [((u "schema"), (Some (AStr (u "x")))); ((u "truncation_length"), (Some (AInt (3))))])));
  ([(u "unflatten"); (u "-f"); (u "csv"); (u "--metatab-vertical-orientation"); (u "in.json"); (u "-o"); (u "xlsx")],
   PDone (false, Some ((u "unflatten"), 25%nat, [((u "input_name"), (Some (AStr (u "in.json")))); ((u "input_format"), (Some (AStr (u "csv")))); ((u "output_name"), (Some (AStr (u "xlsx")))); ((u "metatab_vertical_orientation"), (Some (ABool true))); ((u "xml_comment"), (Some (AStr (u "XML generated by flatten-tool"))))])));
  ([(u "flatten"); (u "in.json"); (u "--sheet-prefix"); (u "a")],
   PDone (false, Some ((u "flatten"), 21%nat, [((u "input_name"), (Some (AStr (u "in.json")))); ((u "truncation_length"), (Some (AInt (3)))); ((u "sheet_prefix"), (Some (AStr (u "a"))))])));
  ([(u "create-template"); (u "--convert-wkt"); (u "-s=x")],
   PDone (false, Some ((u "create-template"), 12%nat, [((u "schema"), (Some (AStr (u "x")))); ((u "truncation_length"), (Some (AInt (3)))); ((u "convert_wkt"), (Some (ABool true)))])));
  ([(u "flatten"); (u "--root-list-path=a=b"); (u "in.json"); (u "--remove-empty-schema-columns")],
   PDone (false, Some ((u "flatten"), 21%nat, [((u "input_name"), (Some (AStr (u "in.json")))); ((u "root_list_path"), (Some (AStr (u "a=b")))); ((u "truncation_length"), (Some (AInt (3)))); ((u "remove_empty_schema_columns"), (Some (ABool true)))])));
  ([(u "flatten"); (u "--rol"); (u "xlsx"); (u "-.5")],
   PDone (false, Some ((u "flatten"), 21%nat, [((u "input_name"), (Some (AStr (u "-.5")))); ((u "rollup"), (Some (AList [(AStr (u "xlsx"))]))); ((u "truncation_length"), (Some (AInt (3))))])));
  ([(u "unflatten"); (u "--output-name"); (u "csv"); (u "in.json"); (u "--root-id"); (u "a"); (u "-s=-"); (u "-f"); (u "csv")],
   PDone (false, Some ((u "unflatten"), 25%nat, [((u "input_name"), (Some (AStr (u "in.json")))); ((u "input_format"), (Some (AStr (u "csv")))); ((u "output_name"), (Some (AStr (u "csv")))); ((u "root_id"), (Some (AStr (u "a")))); ((u "schema"), (Some (AStr (u "-")))); ((u "xml_comment"), (Some (AStr (u "XML generated by flatten-tool"))))])));
  ([(u "create-template"); (u "-s"); (u "x")],
   PDone (false, Some ((u "create-template"), 12%nat, [((u "schema"), (Some (AStr (u "x")))); ((u "truncation_length"), (Some (AInt (3))))])));
  ([(u "flatten"); (u "in.json")],
   PDone (false, Some ((u "flatten"), 21%nat, [((u "input_name"), (Some (AStr (u "in.json")))); ((u "truncation_length"), (Some (AInt (3))))])));
  ([(u "create-template"); (u "-sx")],
   PDone (false, Some ((u "create-template"), 12%nat, [((u "schema"), (Some (AStr (u "x")))); ((u "truncation_length"), (Some (AInt (3))))])));
  ([(u "create-template"); (u "-sx")],
   PDone (false, Some ((u "create-template"), 12%nat, [((u "schema"), (Some (AStr (u "x")))); ((u "truncation_length"), (Some (AInt (3))))])));
  ([(u "create-template"); (u "--main-sheet-name"); (u "csv"); (u "-sx")],
   PDone (false, Some ((u "create-template"), 12%nat, [((u "schema"), (Some (AStr (u "x")))); ((u "main_sheet_name"), (Some (AStr (u "csv")))); ((u "truncation_length"), (Some (AInt (3))))])));
  ([(u "flatten"); (u "in.json")],
   PDone (false, Some ((u "flatten"), 21%nat, [((u "input_name"), (Some (AStr (u "in.json")))); ((u "truncation_length"), (Some (AInt (3))))])));
  ([(u "flatten"); (u "--output-name=all"); (u "in.json"); (u "--root-list-path=-v"); (u "--schema"); (u "a=b")],
   PDone (false, Some ((u "flatten"), 21%nat, [((u "input_name"), (Some (AStr (u "in.json")))); ((u "schema"), (Some (AStr (u "a=b")))); ((u "output_name"), (Some (AStr (u "all")))); ((u "root_list_path"), (Some (AStr (u "-v")))); ((u "truncation_length"), (Some (AInt (3))))])));
  ([(u "flatten"); (u "in.json")],
   PDone (false, Some ((u "flatten"), 21%nat, [((u "input_name"), (Some (AStr (u "in.json")))); ((u "truncation_length"), (Some (AInt (3))))])));
  ([(u "create-template"); (u "-s=x")],
   PDone (false, Some ((u "create-template"), 12%nat, [((u "schema"), (Some (AStr (u "x")))); ((u "truncation_length"), (Some (AInt (3))))])));
  ([(u "create-template"); (u "-f"); (u "xlsx"); (u "-ma=b"); (u "--output-format=csv"); (u "-s"); (u "x")],
   PDone (false, Some ((u "create-template"), 12%nat, [((u "schema"), (Some (AStr (u "x")))); ((u "output_format"), (Some (AStr (u "csv")))); ((u "main_sheet_name"), (Some (AStr (u "a=b")))); ((u "truncation_length"), (Some (AInt (3))))])));
  ([(u "unflatten"); (u "--base-json"); (u "5"); (u "in.json"); (u "-f=csv")],
   PDone (false, Some ((u "unflatten"), 25%nat, [((u "input_name"), (Some (AStr (u "in.json")))); ((u "input_format"), (Some (AStr (u "csv")))); ((u "base_json"), (Some (AStr (u "5")))); ((u "xml_comment"), (Some (AStr (u "XML generated by flatten-tool"))))])));
  ([(u "flatten"); (u "in.json")],
   PDone (false, Some ((u "flatten"), 21%nat, [((u "input_name"), (Some (AStr (u "in.json")))); ((u "truncation_length"), (Some (AInt (3))))])));
  ([(u "flatten"); (u "--rollup"); (u "--x"); (u "xlsx")],
   PDone (false, Some ((u "flatten"), 21%nat, [((u "input_name"), (Some (AStr (u "xlsx")))); ((u "xml"), (Some (ABool true))); ((u "rollup"), (Some (AList [(ABool true)]))); ((u "truncation_length"), (Some (AInt (3))))])));
  ([(u "unflatten"); (u "--convert-titles"); (u "in.json"); (u "-fcsv")],
   PDone (false, Some ((u "unflatten"), 25%nat, [((u "input_name"), (Some (AStr (u "in.json")))); ((u "input_format"), (Some (AStr (u "csv")))); ((u "convert_titles"), (Some (ABool true))); ((u "xml_comment"), (Some (AStr (u "XML generated by flatten-tool"))))])));
  ([(u "flatten"); (u "in.json")],
   PDone (false, Some ((u "flatten"), 21%nat, [((u "input_name"), (Some (AStr (u "in.json")))); ((u "truncation_length"), (Some (AInt (3))))])));
  ([(u "create-template"); (u "--schema=x"); (u "--use-titles"); (u "-f=csv")],
   PDone (false, Some ((u "create-template"), 12%nat, [((u "schema"), (Some (AStr (u "x")))); ((u "output_format"), (Some (AStr (u "csv")))); ((u "use_titles"), (Some (ABool true))); ((u "truncation_length"), (Some (AInt (3))))])));
  ([(u "create-template"); (u "--use-titles"); (u "-s"); (u "a")],
   PDone (false, Some ((u "create-template"), 12%nat, [((u "schema"), (Some (AStr (u "a")))); ((u "use_titles"), (Some (ABool true))); ((u "truncation_length"), (Some (AInt (3))))])));
  ([(u "-v"); (u "unflatten"); (u "in.json"); (u "-f=csv")],
   PDone (true, Some ((u "unflatten"), 25%nat, [((u "input_name"), (Some (AStr (u "in.json")))); ((u "input_format"), (Some (AStr (u "csv")))); ((u "xml_comment"), (Some (AStr (u "XML generated by flatten-tool"))))])));
  ([(u "create-template"); (u "-m"); (u "-5"); (u "-r"); (u "xlsx"); (u "-s=csv"); (u "-s"); (u "x")],
   PDone (false, Some ((u "create-template"), 12%nat, [((u "schema"), (Some (AStr (u "x")))); ((u "main_sheet_name"), (Some (AStr (u "-5")))); ((u "root_id"), (Some (AStr (u "xlsx")))); ((u "truncation_length"), (Some (AInt (3))))])));
  ([(u "unflatten"); (u "in.json"); (u "--input"); (u "ods")],
   PDone (false, Some ((u "unflatten"), 25%nat, [((u "input_name"), (Some (AStr (u "in.json")))); ((u "input_format"), (Some (AStr (u "ods")))); ((u "xml_comment"), (Some (AStr (u "XML generated by flatten-tool"))))])));
  ([(u "flatten"); (u "--id-name"); (u "all"); (u "in.json")],
   PDone (false, Some ((u "flatten"), 21%nat, [((u "input_name"), (Some (AStr (u "in.json")))); ((u "id_name"), (Some (AStr (u "all")))); ((u "truncation_length"), (Some (AInt (3))))])));
  ([(u "flatten"); (u "in.json")],
   PDone (false, Some ((u "flatten"), 21%nat, [((u "input_name"), (Some (AStr (u "in.json")))); ((u "truncation_length"), (Some (AInt (3))))])));
  ([(u "flatten"); (u "in.json"); (u "--schema"); (u "a")],
   PDone (false, Some ((u "flatten"), 21%nat, [((u "input_name"), (Some (AStr (u "in.json")))); ((u "schema"), (Some (AStr (u "a")))); ((u "truncation_length"), (Some (AInt (3))))])));
  ([(u "create-template"); (u "-sx")],
   PDone (false, Some ((u "create-template"), 12%nat, [((u "schema"), (Some (AStr (u "x")))); ((u "truncation_length"), (Some (AInt (3))))])));
  ([(u "unflatten"); (u "--xml-comment=a=b"); (u "in.json"); (u "--input"); (u "ods"); (u "--convert-wkt")],
   PDone (false, Some ((u "unflatten"), 25%nat, [((u "input_name"), (Some (AStr (u "in.json")))); ((u "input_format"), (Some (AStr (u "ods")))); ((u "xml_comment"), (Some (AStr (u "a=b")))); ((u "convert_wkt"), (Some (ABool true)))])));
  ([(u "unflatten"); (u "--metatab-only"); (u "in.json"); (u "-f=csv")],
   PDone (false, Some ((u "unflatten"), 25%nat, [((u "input_name"), (Some (AStr (u "in.json")))); ((u "input_format"), (Some (AStr (u "csv")))); ((u "metatab_only"), (Some (ABool true))); ((u "xml_comment"), (Some (AStr (u "XML generated by flatten-tool"))))])));
  ([(u "flatten"); (u "in.json"); (u "--line-terminator"); (u "csv"); (u "--line-terminator"); (u "a")],
   PDone (false, Some ((u "flatten"), 21%nat, [((u "input_name"), (Some (AStr (u "in.json")))); ((u "truncation_length"), (Some (AInt (3)))); ((u "line_terminator"), (Some (AStr (u "a"))))])));
  ([(u "create-template"); (u "-sx")],
   PDone (false, Some ((u "create-template"), 12%nat, [((u "schema"), (Some (AStr (u "x")))); ((u "truncation_length"), (Some (AInt (3))))])));
  ([(u "flatten"); (u "-o"); (u "xlsx"); (u "in.json"); (u "--root-is-list")],
   PDone (false, Some ((u "flatten"), 21%nat, [((u "input_name"), (Some (AStr (u "in.json")))); ((u "output_name"), (Some (AStr (u "xlsx")))); ((u "truncation_length"), (Some (AInt (3)))); ((u "root_is_list"), (Some (ABool true)))])));
  ([(u "unflatten"); (u "-s"); (u "all"); (u "-f"); (u "csv"); (u "--timezone-name"); (u "a"); (u "in.json")],
   PDone (false, Some ((u "unflatten"), 25%nat, [((u "input_name"), (Some (AStr (u "in.json")))); ((u "input_format"), (Some (AStr (u "csv")))); ((u "timezone_name"), (Some (AStr (u "a")))); ((u "schema"), (Some (AStr (u "all")))); ((u "xml_comment"), (Some (AStr (u "XML generated by flatten-tool"))))])));
  ([(u "unflatten"); (u "in.json"); (u "-f"); (u "csv"); (u "--xml-commen"); (u "1_0")],
   PDone (false, Some ((u "unflatten"), 25%nat, [((u "input_name"), (Some (AStr (u "in.json")))); ((u "input_format"), (Some (AStr (u "csv")))); ((u "xml_comment"), (Some (AStr (u "1_0"))))])));
  ([(u "flatten"); (u "in.json")],
   PDone (false, Some ((u "flatten"), 21%nat, [((u "input_name"), (Some (AStr (u "in.json")))); ((u "truncation_length"), (Some (AInt (3))))])));
  ([(u "flatten"); (u "in.json")],
   PDone (false, Some ((u "flatten"), 21%nat, [((u "input_name"), (Some (AStr (u "in.json")))); ((u "truncation_length"), (Some (AInt (3))))])));
  ([(u "flatten"); (u "in.json")],
   PDone (false, Some ((u "flatten"), 21%nat, [((u "input_name"), (Some (AStr (u "in.json")))); ((u "truncation_length"), (Some (AInt (3))))])));
  ([(u "flatten"); (u "in.json")],
   PDone (false, Some ((u "flatten"), 21%nat, [((u "input_name"), (Some (AStr (u "in.json")))); ((u "truncation_length"), (Some (AInt (3))))])));
  ([(u "flatten"); (u "in.json"); (u "--main-sheet-name"); (u "5")],
   PDone (false, Some ((u "flatten"), 21%nat, [((u "input_name"), (Some (AStr (u "in.json")))); ((u "main_sheet_name"), (Some (AStr (u "5")))); ((u "truncation_length"), (Some (AInt (3))))])));
  ([(u "unflatten"); (u "in.json"); (u "-f"); (u "csv")],
   PDone (false, Some ((u "unflatten"), 25%nat, [((u "input_name"), (Some (AStr (u "in.json")))); ((u "input_format"), (Some (AStr (u "csv")))); ((u "xml_comment"), (Some (AStr (u "XML generated by flatten-tool"))))])));
  ([(u "flatten"); (u "--rollup"); (u "xlsx"); (u "in.json")],
   PDone (false, Some ((u "flatten"), 21%nat, [((u "input_name"), (Some (AStr (u "in.json")))); ((u "rollup"), (Some (AList [(AStr (u "xlsx"))]))); ((u "truncation_length"), (Some (AInt (3))))])));
  ([(u "flatten"); (u "in.json")],
   PDone (false, Some ((u "flatten"), 21%nat, [((u "input_name"), (Some (AStr (u "in.json")))); ((u "truncation_length"), (Some (AInt (3))))])));
  ([(u "flatten"); (u "in.json"); (u "--filter-value"); (u "5"); (u "--schema"); (u "csv")],
   PDone (false, Some ((u "flatten"), 21%nat, [((u "input_name"), (Some (AStr (u "in.json")))); ((u "schema"), (Some (AStr (u "csv")))); ((u "truncation_length"), (Some (AInt (3)))); ((u "filter_value"), (Some (AStr (u "5"))))])));
  ([(u "unflatten"); (u "in.json"); (u "--input-format=xlsx")],
   PDone (false, Some ((u "unflatten"), 25%nat, [((u "input_name"), (Some (AStr (u "in.json")))); ((u "input_format"), (Some (AStr (u "xlsx")))); ((u "xml_comment"), (Some (AStr (u "XML generated by flatten-tool"))))])));
  ([(u "-v"); (u "create-template"); (u "-sx")],
   PDone (true, Some ((u "create-template"), 12%nat, [((u "schema"), (Some (AStr (u "x")))); ((u "truncation_length"), (Some (AInt (3))))])));
  ([(u "flatten"); (u "--filter-field"); (u "="); (u "in.json"); (u "--id-name"); (u "csv")],
   PDone (false, Some ((u "flatten"), 21%nat, [((u "input_name"), (Some (AStr (u "in.json")))); ((u "id_name"), (Some (AStr (u "csv")))); ((u "truncation_length"), (Some (AInt (3)))); ((u "filter_field"), (Some (AStr (u "="))))])));
  ([(u "unflatten"); (u "-f"); (u "csv"); (u "in.json"); (u "--root-id"); (u "-5")],
   PDone (false, Some ((u "unflatten"), 25%nat, [((u "input_name"), (Some (AStr (u "in.json")))); ((u "input_format"), (Some (AStr (u "csv")))); ((u "root_id"), (Some (AStr (u "-5")))); ((u "xml_comment"), (Some (AStr (u "XML generated by flatten-tool"))))])));
  ([(u "flatten"); (u "--use-titles"); (u "--sheet-prefix"); (u "a"); (u "in.json")],
   PDone (false, Some ((u "flatten"), 21%nat, [((u "input_name"), (Some (AStr (u "in.json")))); ((u "use_titles"), (Some (ABool true))); ((u "truncation_length"), (Some (AInt (3)))); ((u "sheet_prefix"), (Some (AStr (u "a"))))])));
  ([(u "flatten"); (u "in.json")],
   PDone (false, Some ((u "flatten"), 21%nat, [((u "input_name"), (Some (AStr (u "in.json")))); ((u "truncation_length"), (Some (AInt (3))))])));
  ([(u "create-template"); (u "-s"); (u "x")],
   PDone (false, Some ((u "create-template"), 12%nat, [((u "schema"), (Some (AStr (u "x")))); ((u "truncation_length"), (Some (AInt (3))))])));
  ([(u "unflatten"); (u "--root-is-list"); (u "-a"); (u "1_0"); (u "--input"); (u "ods"); (u "in.json")],
   PDone (false, Some ((u "unflatten"), 25%nat, [((u "input_name"), (Some (AStr (u "in.json")))); ((u "input_format"), (Some (AStr (u "ods")))); ((u "heading_source_map"), (Some (AStr (u "1_0")))); ((u "root_is_list"), (Some (ABool true))); ((u "xml_comment"), (Some (AStr (u "XML generated by flatten-tool"))))])));
  ([(u "flatten"); (u "in.json")],
   PDone (false, Some ((u "flatten"), 21%nat, [((u "input_name"), (Some (AStr (u "in.json")))); ((u "truncation_length"), (Some (AInt (3))))])));
  ([(u "unflatten"); (u "--root-is-list"); (u "--input-format=xlsx"); (u "in.json")],
   PDone (false, Some ((u "unflatten"), 25%nat, [((u "input_name"), (Some (AStr (u "in.json")))); ((u "input_format"), (Some (AStr (u "xlsx")))); ((u "root_is_list"), (Some (ABool true))); ((u "xml_comment"), (Some (AStr (u "XML generated by flatten-tool"))))])));
  ([(u "create-template"); (u "-m"); (u "="); (u "-sx")],
   PDone (false, Some ((u "create-template"), 12%nat, [((u "schema"), (Some (AStr (u "x")))); ((u "main_sheet_name"), (Some (AStr (u "=")))); ((u "truncation_length"), (Some (AInt (3))))])));
  ([(u "flatten"); (u "in.json")],
   PDone (false, Some ((u "flatten"), 21%nat, [((u "input_name"), (Some (AStr (u "in.json")))); ((u "truncation_length"), (Some (AInt (3))))])));
  ([(u "unflatten"); (u "in.json"); (u "--input"); (u "ods")],
   PDone (false, Some ((u "unflatten"), 25%nat, [((u "input_name"), (Some (AStr (u "in.json")))); ((u "input_format"), (Some (AStr (u "ods")))); ((u "xml_comment"), (Some (AStr (u "XML generated by flatten-tool"))))])));
  ([(u "create-template"); (u "-s"); (u "x")],
   PDone (false, Some ((u "create-template"), 12%nat, [((u "schema"), (Some (AStr (u "x")))); ((u "truncation_length"), (Some (AInt (3))))])));
  ([(u "flatten"); (u "in.json")],
   PDone (false, Some ((u "flatten"), 21%nat, [((u "input_name"), (Some (AStr (u "in.json")))); ((u "truncation_length"), (Some (AInt (3))))])));
  ([(u "create-template"); (u "--rollup"); (u "-sx")],
   PDone (false, Some ((u "create-template"), 12%nat, [((u "schema"), (Some (AStr (u "x")))); ((u "rollup"), (Some (ABool true))); ((u "truncation_length"), (Some (AInt (3))))])));
  ([(u "-v"); (u "unflatten"); (u "-f=csv"); (u "--metatab-vertical-orientation"); (u "in.json")],
   PDone (true, Some ((u "unflatten"), 25%nat, [((u "input_name"), (Some (AStr (u "in.json")))); ((u "input_format"), (Some (AStr (u "csv")))); ((u "metatab_vertical_orientation"), (Some (ABool true))); ((u "xml_comment"), (Some (AStr (u "XML generated by flatten-tool"))))])));
  ([(u "unflatten"); (u "--input-format=xlsx"); (u "in.json"); (u "--encoding"); (u "csv"); (u "--xml")],
   PDone (false, Some ((u "unflatten"), 25%nat, [((u "input_name"), (Some (AStr (u "in.json")))); ((u "input_format"), (Some (AStr (u "xlsx")))); ((u "xml"), (Some (ABool true))); ((u "encoding"), (Some (AStr (u "csv")))); ((u "xml_comment"), (Some (AStr (u "XML generated by flatten-tool"))))])));
  ([(u "unflatten"); (u "in.json"); (u "--input"); (u "ods"); (u "--xml")],
   PDone (false, Some ((u "unflatten"), 25%nat, [((u "input_name"), (Some (AStr (u "in.json")))); ((u "input_format"), (Some (AStr (u "ods")))); ((u "xml"), (Some (ABool true))); ((u "xml_comment"), (Some (AStr (u "XML generated by flatten-tool"))))])));
  ([(u "flatten"); (u "--filter-field"); (u "all"); (u "in.json")],
   PDone (false, Some ((u "flatten"), 21%nat, [((u "input_name"), (Some (AStr (u "in.json")))); ((u "truncation_length"), (Some (AInt (3)))); ((u "filter_field"), (Some (AStr (u "all"))))])));
  ([(u "create-template"); (u "--line-t=all"); (u "-s=x"); (u "--disable-local-refs")],
   PDone (false, Some ((u "create-template"), 12%nat, [((u "schema"), (Some (AStr (u "x")))); ((u "disable_local_refs"), (Some (ABool true))); ((u "truncation_length"), (Some (AInt (3)))); ((u "line_terminator"), (Some (AStr (u "all"))))])));
  ([(u "unflatten"); (u "--input-format=xlsx"); (u "in.json")],
   PDone (false, Some ((u "unflatten"), 25%nat, [((u "input_name"), (Some (AStr (u "in.json")))); ((u "input_format"), (Some (AStr (u "xlsx")))); ((u "xml_comment"), (Some (AStr (u "XML generated by flatten-tool"))))])));
  ([(u "flatten"); (u "in.json")],
   PDone (false, Some ((u "flatten"), 21%nat, [((u "input_name"), (Some (AStr (u "in.json")))); ((u "truncation_length"), (Some (AInt (3))))])));
  ([(u "unflatten"); (u "in.json"); (u "-fcsv")],
   PDone (false, Some ((u "unflatten"), 25%nat, [((u "input_name"), (Some (AStr (u "in.json")))); ((u "input_format"), (Some (AStr (u "csv")))); ((u "xml_comment"), (Some (AStr (u "XML generated by flatten-tool"))))])));
  ([(u "unflatten"); (u "in.json"); (u "--input-format=xlsx")],
   PDone (false, Some ((u "unflatten"), 25%nat, [((u "input_name"), (Some (AStr (u "in.json")))); ((u "input_format"), (Some (AStr (u "xlsx")))); ((u "xml_comment"), (Some (AStr (u "XML generated by flatten-tool"))))])));
  ([(u "unflatten"); (u "-f"); (u "csv"); (u "in.json")],
   PDone (false, Some ((u "unflatten"), 25%nat, [((u "input_name"), (Some (AStr (u "in.json")))); ((u "input_format"), (Some (AStr (u "csv")))); ((u "xml_comment"), (Some (AStr (u "XML generated by flatten-tool"))))])));
  ([(u "create-template"); (u "--sch"); (u "x")],
   PDone (false, Some ((u "create-template"), 12%nat, [((u "schema"), (Some (AStr (u "x")))); ((u "truncation_length"), (Some (AInt (3))))])));
  ([(u "flatten"); (u "in.json")],
   PDone (false, Some ((u "flatten"), 21%nat, [((u "input_name"), (Some (AStr (u "in.json")))); ((u "truncation_length"), (Some (AInt (3))))])));
  ([(u "create-template"); (u "--line-terminator"); (u "xlsx"); (u "-s"); (u "x")],
   PDone (false, Some ((u "create-template"), 12%nat, [((u "schema"), (Some (AStr (u "x")))); ((u "truncation_length"), (Some (AInt (3)))); ((u "line_terminator"), (Some (AStr (u "xlsx"))))])));
  ([(u "create-template"); (u "--schema=x"); (u "--truncation-length"); (u "0")],
   PDone (false, Some ((u "create-template"), 12%nat, [((u "schema"), (Some (AStr (u "x")))); ((u "truncation_length"), (Some (AInt (0))))])));
  ([(u "unflatten"); (u "-m"); (u "all"); (u "--disable-local-refs"); (u "in.json"); (u "-f=csv")],
   PDone (false, Some ((u "unflatten"), 25%nat, [((u "input_name"), (Some (AStr (u "in.json")))); ((u "input_format"), (Some (AStr (u "csv")))); ((u "root_list_path"), (Some (AStr (u "all")))); ((u "disable_local_refs"), (Some (ABool true))); ((u "xml_comment"), (Some (AStr (u "XML generated by flatten-tool"))))])));
  ([(u "create-template"); (u "-s=x")],
   PDone (false, Some ((u "create-template"), 12%nat, [((u "schema"), (Some (AStr (u "x")))); ((u "truncation_length"), (Some (AInt (3))))])));
  ([(u "flatten"); (u "in.json"); (u "--output-name=-"); (u "--line-terminator= 7 ")],
   PDone (false, Some ((u "flatten"), 21%nat, [((u "input_name"), (Some (AStr (u "in.json")))); ((u "output_name"), (Some (AStr (u "-")))); ((u "truncation_length"), (Some (AInt (3)))); ((u "line_terminator"), (Some (AStr (u " 7 "))))])));
  ([(u "create-template"); (u "--schema=x")],
   PDone (false, Some ((u "create-template"), 12%nat, [((u "schema"), (Some (AStr (u "x")))); ((u "truncation_length"), (Some (AInt (3))))])));
  ([(u "unflatten"); (u "in.json"); (u "-f=csv")],
   PDone (false, Some ((u "unflatten"), 25%nat, [((u "input_name"), (Some (AStr (u "in.json")))); ((u "input_format"), (Some (AStr (u "csv")))); ((u "xml_comment"), (Some (AStr (u "XML generated by flatten-tool"))))])));
  ([(u "flatten"); (u "in.json"); (u "-m"); (u "a")],
   PDone (false, Some ((u "flatten"), 21%nat, [((u "input_name"), (Some (AStr (u "in.json")))); ((u "main_sheet_name"), (Some (AStr (u "a")))); ((u "truncation_length"), (Some (AInt (3))))])));
  ([(u "flatten"); (u "in.json"); (u "--xml"); (u "--remove-empty-schema-columns")],
   PDone (false, Some ((u "flatten"), 21%nat, [((u "input_name"), (Some (AStr (u "in.json")))); ((u "xml"), (Some (ABool true))); ((u "truncation_length"), (Some (AInt (3)))); ((u "remove_empty_schema_columns"), (Some (ABool true)))])));
  ([(u "flatten"); (u "in.json")],
   PDone (false, Some ((u "flatten"), 21%nat, [((u "input_name"), (Some (AStr (u "in.json")))); ((u "truncation_length"), (Some (AInt (3))))])));
  ([(u "unflatten"); (u "in.json"); (u "--input"); (u "ods")],
   PDone (false, Some ((u "unflatten"), 25%nat, [((u "input_name"), (Some (AStr (u "in.json")))); ((u "input_format"), (Some (AStr (u "ods")))); ((u "xml_comment"), (Some (AStr (u "XML generated by flatten-tool"))))])));
  ([(u "unflatten"); (u "in.json"); (u "-f=csv")],
   PDone (false, Some ((u "unflatten"), 25%nat, [((u "input_name"), (Some (AStr (u "in.json")))); ((u "input_format"), (Some (AStr (u "csv")))); ((u "xml_comment"), (Some (AStr (u "XML generated by flatten-tool"))))])));
  ([(u "create-template"); (u "-s=x"); (u "--convert-wkt")],
   PDone (false, Some ((u "create-template"), 12%nat, [((u "schema"), (Some (AStr (u "x")))); ((u "truncation_length"), (Some (AInt (3)))); ((u "convert_wkt"), (Some (ABool true)))])));
  ([(u "-v"); (u "flatten"); (u "-s"); (u "a"); (u "in.json")],
   PDone (true, Some ((u "flatten"), 21%nat, [((u "input_name"), (Some (AStr (u "in.json")))); ((u "schema"), (Some (AStr (u "a")))); ((u "truncation_length"), (Some (AInt (3))))])));
  ([(u "-v"); (u "create-template"); (u "-s"); (u "x")],
   PDone (true, Some ((u "create-template"), 12%nat, [((u "schema"), (Some (AStr (u "x")))); ((u "truncation_length"), (Some (AInt (3))))])));
  ([(u "flatten"); (u "in.json")],
   PDone (false, Some ((u "flatten"), 21%nat, [((u "input_name"), (Some (AStr (u "in.json")))); ((u "truncation_length"), (Some (AInt (3))))])));
  ([(u "flatten"); (u "in.json"); (u "--truncation-length"); (u "1_0")],
   PDone (false, Some ((u "flatten"), 21%nat, [((u "input_name"), (Some (AStr (u "in.json")))); ((u "truncation_length"), (Some (AInt (10))))])));
  ([(u "create-template"); (u "--schem=all"); (u "-s=x")],
   PDone (false, Some ((u "create-template"), 12%nat, [((u "schema"), (Some (AStr (u "x")))); ((u "truncation_length"), (Some (AInt (3))))])));
  ([(u "create-template"); (u "--main-sheet-name=-"); (u "--sch"); (u "x"); (u "-f=csv"); (u "--root-"); (u "x y")],
   PDone (false, Some ((u "create-template"), 12%nat, [((u "schema"), (Some (AStr (u "x")))); ((u "output_format"), (Some (AStr (u "csv")))); ((u "main_sheet_name"), (Some (AStr (u "-")))); ((u "root_id"), (Some (AStr (u "x y")))); ((u "truncation_length"), (Some (AInt (3))))])));
  ([(u "--verb"); (u "unflatten"); (u "in.json"); (u "-fcsv"); (u "-r"); (u "csv")],
   PDone (true, Some ((u "unflatten"), 25%nat, [((u "input_name"), (Some (AStr (u "in.json")))); ((u "input_format"), (Some (AStr (u "csv")))); ((u "root_id"), (Some (AStr (u "csv")))); ((u "xml_comment"), (Some (AStr (u "XML generated by flatten-tool"))))])));
  ([(u "create-template"); (u "-sx")],
   PDone (false, Some ((u "create-template"), 12%nat, [((u "schema"), (Some (AStr (u "x")))); ((u "truncation_length"), (Some (AInt (3))))])));
  ([(u "create-template"); (u "--sch"); (u "x")],
   PDone (false, Some ((u "create-template"), 12%nat, [((u "schema"), (Some (AStr (u "x")))); ((u "truncation_length"), (Some (AInt (3))))])));
  ([(u "unflatten"); (u "in.json"); (u "-f=csv")],
   PDone (false, Some ((u "unflatten"), 25%nat, [((u "input_name"), (Some (AStr (u "in.json")))); ((u "input_format"), (Some (AStr (u "csv")))); ((u "xml_comment"), (Some (AStr (u "XML generated by flatten-tool"))))])));
  ([(u "unflatten"); (u "--input"); (u "ods"); (u "in.json"); (u "--metatab-only")],
   PDone (false, Some ((u "unflatten"), 25%nat, [((u "input_name"), (Some (AStr (u "in.json")))); ((u "input_format"), (Some (AStr (u "ods")))); ((u "metatab_only"), (Some (ABool true))); ((u "xml_comment"), (Some (AStr (u "XML generated by flatten-tool"))))])));
  ([(u "unflatten"); (u "in.json"); (u "--input"); (u "ods")],
   PDone (false, Some ((u "unflatten"), 25%nat, [((u "input_name"), (Some (AStr (u "in.json")))); ((u "input_format"), (Some (AStr (u "ods")))); ((u "xml_comment"), (Some (AStr (u "XML generated by flatten-tool"))))])));
  ([(u "--verb"); (u "unflatten"); (u "-f"); (u "csv"); (u "in.json")],
   PDone (true, Some ((u "unflatten"), 25%nat, [((u "input_name"), (Some (AStr (u "in.json")))); ((u "input_format"), (Some (AStr (u "csv")))); ((u "xml_comment"), (Some (AStr (u "XML generated by flatten-tool"))))])));
  ([(u "flatten"); (u "in.json")],
   PDone (false, Some ((u "flatten"), 21%nat, [((u "input_name"), (Some (AStr (u "in.json")))); ((u "truncation_length"), (Some (AInt (3))))])));
  ([(u "flatten"); (u "in.json")],
   PDone (false, Some ((u "flatten"), 21%nat, [((u "input_name"), (Some (AStr (u "in.json")))); ((u "truncation_length"), (Some (AInt (3))))])));
  ([(u "create-template"); (u "-s=x"); (u "--rollup")],
   PDone (false, Some ((u "create-template"), 12%nat, [((u "schema"), (Some (AStr (u "x")))); ((u "rollup"), (Some (ABool true))); ((u "truncation_length"), (Some (AInt (3))))])));
  ([(u "flatten"); (u "in.json"); (u "--line-terminator"); (u "a"); (u "-mall")],
   PDone (false, Some ((u "flatten"), 21%nat, [((u "input_name"), (Some (AStr (u "in.json")))); ((u "main_sheet_name"), (Some (AStr (u "all")))); ((u "truncation_length"), (Some (AInt (3)))); ((u "line_terminator"), (Some (AStr (u "a"))))])));
  ([(u "flatten"); (u "in.json")],
   PDone (false, Some ((u "flatten"), 21%nat, [((u "input_name"), (Some (AStr (u "in.json")))); ((u "truncation_length"), (Some (AInt (3))))])));
  ([(u "flatten"); (u "in.json")],
   PDone (false, Some ((u "flatten"), 21%nat, [((u "input_name"), (Some (AStr (u "in.json")))); ((u "truncation_length"), (Some (AInt (3))))])));
  ([(u "create-template"); (u "--sch"); (u "x"); (u "--line-terminator"); (u "1_0")],
   PDone (false, Some ((u "create-template"), 12%nat, [((u "schema"), (Some (AStr (u "x")))); ((u "truncation_length"), (Some (AInt (3)))); ((u "line_terminator"), (Some (AStr (u "1_0"))))])));
  ([(u "create-template"); (u "-sx")],
   PDone (false, Some ((u "create-template"), 12%nat, [((u "schema"), (Some (AStr (u "x")))); ((u "truncation_length"), (Some (AInt (3))))])));
  ([(u "unflatten"); (u "in.json"); (u "--input-format=xlsx")],
   PDone (false, Some ((u "unflatten"), 25%nat, [((u "input_name"), (Some (AStr (u "in.json")))); ((u "input_format"), (Some (AStr (u "xlsx")))); ((u "xml_comment"), (Some (AStr (u "XML generated by flatten-tool"))))])));
  ([(u "create-template"); (u "-s"); (u "x")],
   PDone (false, Some ((u "create-template"), 12%nat, [((u "schema"), (Some (AStr (u "x")))); ((u "truncation_length"), (Some (AInt (3))))])));
  ([(u "flatten"); (u "in.json")],
   PDone (false, Some ((u "flatten"), 21%nat, [((u "input_name"), (Some (AStr (u "in.json")))); ((u "truncation_length"), (Some (AInt (3))))])));
  ([(u "flatten"); (u "--root-list-path"); (u "xlsx"); (u "in.json")],
   PDone (false, Some ((u "flatten"), 21%nat, [((u "input_name"), (Some (AStr (u "in.json")))); ((u "root_list_path"), (Some (AStr (u "xlsx")))); ((u "truncation_length"), (Some (AInt (3))))])));
  ([(u "flatten"); (u "in.json")],
   PDone (false, Some ((u "flatten"), 21%nat, [((u "input_name"), (Some (AStr (u "in.json")))); ((u "truncation_length"), (Some (AInt (3))))])));
  ([(u "unflatten"); (u "-f=csv"); (u "in.json"); (u "--vertical-orientation")],
   PDone (false, Some ((u "unflatten"), 25%nat, [((u "input_name"), (Some (AStr (u "in.json")))); ((u "input_format"), (Some (AStr (u "csv")))); ((u "vertical_orientation"), (Some (ABool true))); ((u "xml_comment"), (Some (AStr (u "XML generated by flatten-tool"))))])));
  ([(u "create-template"); (u "-s=x"); (u "-m"); (u "xlsx"); (u "-m=-x y")],
   PDone (false, Some ((u "create-template"), 12%nat, [((u "schema"), (Some (AStr (u "x")))); ((u "main_sheet_name"), (Some (AStr (u "-x y")))); ((u "truncation_length"), (Some (AInt (3))))])));
  ([(u "flatten"); (u "in.json")],
   PDone (false, Some ((u "flatten"), 21%nat, [((u "input_name"), (Some (AStr (u "in.json")))); ((u "truncation_length"), (Some (AInt (3))))])));
  ([(u "unflatten"); (u "-f"); (u "csv"); (u "--cell-source-map"); (u "a"); (u "in.json")],
   PDone (false, Some ((u "unflatten"), 25%nat, [((u "input_name"), (Some (AStr (u "in.json")))); ((u "input_format"), (Some (AStr (u "csv")))); ((u "cell_source_map"), (Some (AStr (u "a")))); ((u "xml_comment"), (Some (AStr (u "XML generated by flatten-tool"))))])));
  ([(u "create-template"); (u "-s"); (u "x")],
   PDone (false, Some ((u "create-template"), 12%nat, [((u "schema"), (Some (AStr (u "x")))); ((u "truncation_length"), (Some (AInt (3))))])));
  ([(u "flatten"); (u "-fcsv"); (u "in.json"); (u "--xml"); (u "--rollup"); (u "csv")],
   PDone (false, Some ((u "flatten"), 21%nat, [((u "input_name"), (Some (AStr (u "in.json")))); ((u "output_format"), (Some (AStr (u "csv")))); ((u "xml"), (Some (ABool true))); ((u "rollup"), (Some (AList [(AStr (u "csv"))]))); ((u "truncation_length"), (Some (AInt (3))))])));
  ([(u "create-template"); (u "-sx"); (u "-o=a")],
   PDone (false, Some ((u "create-template"), 12%nat, [((u "schema"), (Some (AStr (u "x")))); ((u "output_name"), (Some (AStr (u "a")))); ((u "truncation_length"), (Some (AInt (3))))])));
  ([(u "flatten"); (u "in.json")],
   PDone (false, Some ((u "flatten"), 21%nat, [((u "input_name"), (Some (AStr (u "in.json")))); ((u "truncation_length"), (Some (AInt (3))))])));
  ([(u "flatten"); (u "--schema"); (u "all"); (u "in.json"); (u "-m"); (u " 7 ")],
   PDone (false, Some ((u "flatten"), 21%nat, [((u "input_name"), (Some (AStr (u "in.json")))); ((u "schema"), (Some (AStr (u "all")))); ((u "main_sheet_name"), (Some (AStr (u " 7 ")))); ((u "truncation_length"), (Some (AInt (3))))])));
  ([(u "flatten"); (u "in.json"); (u "-fall")],
   PDone (false, Some ((u "flatten"), 21%nat, [((u "input_name"), (Some (AStr (u "in.json")))); ((u "output_format"), (Some (AStr (u "all")))); ((u "truncation_length"), (Some (AInt (3))))])));
  ([(u "flatten"); (u "in.json")],
   PDone (false, Some ((u "flatten"), 21%nat, [((u "input_name"), (Some (AStr (u "in.json")))); ((u "truncation_length"), (Some (AInt (3))))])));
  ([(u "unflatten"); (u "in.json"); (u "--input"); (u "ods"); (u "--metatab-only")],
   PDone (false, Some ((u "unflatten"), 25%nat, [((u "input_name"), (Some (AStr (u "in.json")))); ((u "input_format"), (Some (AStr (u "ods")))); ((u "metatab_only"), (Some (ABool true))); ((u "xml_comment"), (Some (AStr (u "XML generated by flatten-tool"))))])));
  ([(u "create-template"); (u "-h")],
   PHelp);
  ([(u "flatten"); (u "-h")],
   PHelp);
  ([(u "unflatten"); (u "-h")],
   PHelp);
  ([(u "flatten"); (u "--root"); (u "xlsx"); (u "in.json"); (u "--id-name=csv"); (u "-s"); (u "csv"); (u "a")],
   PUsage);
  ([(u "-vv"); (u "unflatten"); (u "-r"); (u "xlsx"); (u "-r"); (u "1_0"); (u "in.json")],
   PUsage);
  ([(u "flatten"); (u "--output-formatxlsx"); (u "-f"); (u "a")],
   PUsage);
  ([(u "flatten"); (u "-f"); (u "xlsx"); (u "--preserve-fields")],
   PUsage);
  ([(u "create-template"); (u "--line-t"); (u "all"); (u "-h"); (u "--roo"); (u "-h"); (u "--output-for=csv")],
   PHelp);
  ([(u "unflatten"); (u "--id-name"); (u "--input-format=xlsx"); (u "in.json"); (u "--root-list-path"); (u "a=b")],
   PUsage);
  ([(u "flat"); (u "in.json"); (u "--xml-commentcsv"); (u "-f=csv")],
   PUsage);
  ([(u "create-template"); (u "-r"); (u "a"); (u "-m"); (u "-h"); (u " 7 ")],
   PUsage);
  ([(u "-q"); (u "-vh"); (u "unflatten"); (u "in.json"); (u "-fcsv")],
   PHelp);
  ([(u "flatten"); (u "--disable-local-refs"); (u "-fcsv")],
   PUsage);
  ([(u "-vv"); (u "create-template"); (u "--help"); (u "--sch"); (u "x")],
   PHelp);
  ([(u "-v="); (u "-vx"); (u "unflatten"); (u "--input-format=xlsx"); (u "in.json")],
   PUsage);
  ([(u "-v"); (u "create-template"); (u "--disable-local-refs=a=b"); (u "--rollup"); (u "-s"); (u "x"); (u "-o"); (u "5"); (u "")],
   PUsage);
  ([(u "unflatten"); (u "in.json"); (u "-f=csv"); (u "--roo"); (u "a")],
   PUsage);
  ([(u "unflatten"); (u "in.json")],
   PUsage);
  ([(u "-vv"); (u "--verbose"); (u "flatten"); (u "-m=all"); (u "--sheet-pre")],
   PUsage);
  ([(u "--verbose"); (u "flatten"); (u "--preserve-fields"); (u "xlsx")],
   PUsage);
  ([(u "x"); (u "-r=csv"); (u "-sx")],
   PUsage);
  ([(u "-h"); (u "flatten"); (u "--filter-value"); (u "-h")],
   PHelp);
  ([(u "flatten"); (u "--help"); (u "in.json")],
   PHelp);
  ([(u "--help"); (u "create-template"); (u "--no-deprecated-fields"); (u "-s"); (u "x")],
   PHelp);
  ([(u "unflatten"); (u "in.json"); (u "-c"); (u " 7 "); (u "all"); (u "-f=csv")],
   PUsage);
  ([(u "create-template"); (u "-sx"); (u "--schema-5x"); (u "--convert-")],
   PUsage);
  ([(u "-vx"); (u "-v="); (u "flatten"); (u "-s"); (u "in.json")],
   PUsage);
  ([(u "create-template"); (u "--rol"); (u "CRLF"); (u "-x y"); (u "--sch"); (u "x"); (u "--help"); (u "-5"); (u "--convert"); (u "xlsx")],
   PHelp);
  ([(u "create-template"); (u "--main-sheet-name"); (u "a"); (u "--output-name"); (u "-.5"); (u "-sx"); (u "--help")],
   PHelp);
  ([(u "unflatten"); (u "--vertical-orientation"); (u "--id-name"); (u "xlsx"); (u "CRLF"); (u "--meta"); (u "xlsx")],
   PUsage);
  ([(u "flatten"); (u "--root-is-list"); (u "a"); (u "--sc"); (u "--disable-local-refs"); (u "in.json")],
   PUsage);
  ([(u "create-template"); (u "--truncation-length= 7 "); (u "--conve"); (u "csv")],
   PUsage);
  ([(u "flatten"); (u "--truncation-len"); (u "-5x"); (u "in.json")],
   PUsage);
  ([(u "flatten"); (u "--xml"); (u "in.json"); (u "--o"); (u "CRLF"); (u "--root-list-pat"); (u "csv")],
   PUsage);
  ([(u "unflatten"); (u "--input-format=xlsx"); (u "in.json"); (u "--m"); (u "")],
   PUsage);
  ([(u "create-template"); (u "-r"); (u "-h"); (u "--rollup"); (u "-s"); (u "x")],
   PUsage);
  ([(u "create-template"); (u "--main-she-5"); (u "--sch"); (u "x")],
   PUsage);
  ([(u "-h"); (u "flatten"); (u "--h"); (u "in.json"); (u "--root-id")],
   PHelp);
  ([(u "create-template"); (u "--help"); (u "-s"); (u "x")],
   PHelp);
  ([(u "unflatten"); (u "--help"); (u "in.json"); (u "--metatab-schema"); (u "all")],
   PHelp);
  ([(u "create-template"); (u "--root-i=-"); (u "-f"); (u "a"); (u "-s=x")],
   PUsage);
  ([(u "unflatten"); (u "-fcsv"); (u "-r"); (u "all"); (u "in.json"); (u "--metatab-vertical-orientation"); (u "--m= 7 ")],
   PUsage);
  ([(u "--q"); (u "unflatten"); (u "in.json"); (u "--help")],
   PHelp);
  ([(u "-v="); (u "flatten"); (u "in.json"); (u "-o"); (u "a")],
   PUsage);
  ([(u "flatten"); (u "--rollup"); (u "csv"); (u "--di=all")],
   PUsage);
  ([(u "--verb"); (u "--verbose"); (u "-v="); (u "flatten"); (u "--help"); (u "--rollup"); (u "a"); (u "--convert-wkt"); (u "in.json")],
   PUsage);
  ([(u "--help"); (u "unflatten"); (u "--xml-comment"); (u "xlsx"); (u "in.json"); (u "--input-format=xlsx"); (u "--disable-l"); (u "--root"); (u "xlsx")],
   PHelp);
  ([(u "create-template"); (u "-fall"); (u "--con"); (u "csv"); (u "--output-format"); (u "csv"); (u "-s=x")],
   PUsage);
  ([(u "create-template"); (u "-s"); (u "x"); (u "--rollup"); (u "all"); (u "--no-d"); (u "5")],
   PUsage);
  ([(u "flatten")],
   PUsage);
  ([(u "--q"); (u "flatten"); (u "--root-is-list"); (u "xlsx"); (u "in.json"); (u "--output-form 7 ")],
   PUsage);
  ([(u "unflatten"); (u "--input"); (u "ods")],
   PUsage);
  ([(u "flatten"); (u "--filter-xlsx")],
   PUsage);
  ([(u "unflatten"); (u "-f=CRLF"); (u "--disable-local-refs"); (u "--input"); (u "ods"); (u "--metaCRLF")],
   PUsage);
  ([(u "unflatten"); (u "-e=5"); (u "-fcsv")],
   PUsage);
  ([(u "-vh"); (u "create-template"); (u "--truncation-length"); (u "0"); (u "-sx"); (u "--main-sheet-name=a"); (u "-s= 7 ")],
   PHelp);
  ([(u "create-template"); (u "-sx"); (u "--truncation-length")],
   PUsage);
  ([(u "flatten"); (u "--output-namea"); (u "in.json"); (u "--output-format=all"); (u "--truncation-length=0")],
   PUsage);
  ([(u "-vh"); (u "unflatten"); (u "-f=csv"); (u "--metatab-only"); (u "--root-id"); (u "all"); (u "x y"); (u "in.json"); (u "--cell-source-map"); (u "csv")],
   PHelp);
  ([(u "in.json"); (u "--convert-titles"); (u "--input"); (u "ods"); (u "--output-name=all"); (u "--root-list-pa"); (u "xlsx")],
   PUsage);
  ([(u "--preserve-fieldscsv"); (u "--xml")],
   PUsage);
  ([(u "flatten"); (u "--sc= 7 "); (u "--filter-va"); (u "-h"); (u "in.json")],
   PUsage);
  ([(u "-q"); (u "create-template"); (u "--output-name"); (u "all"); (u "-s"); (u "x"); (u "--schema"); (u "x y"); (u "")],
   PUsage);
  ([(u "-f"); (u "csv"); (u "--default-configurati")],
   PUsage);
  ([(u "unflatten"); (u "-e"); (u "-h"); (u "in.json"); (u "--input"); (u "ods"); (u "-h"); (u "-a"); (u "csv")],
   PUsage);
  ([(u "create-template"); (u "--sch"); (u "x"); (u "--root-idall"); (u "--convert-wktall"); (u "-h"); (u "a")],
   PHelp);
  ([(u "unflatten"); (u "-e"); (u "xlsx"); (u "in.json"); (u "--root-list-path"); (u "-v"); (u "--root-is-list"); (u "-fcsv")],
   PUsage);
  ([(u "unflatten"); (u "in.json"); (u "--input"); (u "ods"); (u "--xml-comment"); (u "a=b"); (u "--disable-local-refs"); (u "--conver"); (u "-5")],
   PUsage);
  ([(u "flatten"); (u "-f=all"); (u "--output-namea")],
   PUsage);
  ([(u "create-template")],
   PUsage);
  ([(u "create-template"); (u "--outpu")],
   PUsage);
  ([(u "flatten"); (u "--truncation-length"); (u "1_0"); (u "-f-"); (u "in.json")],
   PUsage);
  ([(u "-q"); (u "unflatten"); (u "-fcsv"); (u "in.json"); (u "--metatab-schema"); (u "all"); (u "-a"); (u "a")],
   PUsage);
  ([(u "-v="); (u "flatten"); (u "--xml"); (u "in.json"); (u "--rooxlsx")],
   PUsage);
  ([(u "-q"); (u "create-template"); (u "-s"); (u "x"); (u "-r"); (u " 7 "); (u "--use-titles")],
   PUsage);
  ([(u "--help"); (u "create-template")],
   PHelp);
  ([(u "create-template"); (u "--trunc"); (u "csv"); (u "--convert-wkt=csv"); (u "--outpu"); (u "csv")],
   PUsage);
  ([(u "--v=1"); (u "flatten"); (u "--schema=csv"); (u "--root-is-list"); (u "in.json")],
   PUsage);
  ([(u "--v=1"); (u "create-template"); (u "--sch"); (u "x"); (u "--rollup"); (u "--rollup"); (u "--tr"); (u "=")],
   PUsage);
  ([(u "flatten"); (u "--remove-empty-schema-columns"); (u "in.json"); (u "--filter-field"); (u "-h")],
   PUsage);
  ([(u "unflatten"); (u "in.json"); (u "-f=csv"); (u "--hea"); (u "-5x"); (u "-h"); (u "--base-json=CRLF"); (u "-c=all")],
   PUsage);
  ([(u "flatten"); (u "--truncation-length"); (u "5"); (u "in.json"); (u "--root-is-list"); (u "-"); (u "-s=csv")],
   PUsage);
  ([(u "unflatten"); (u "--convert-wkt"); (u "-h"); (u "--input"); (u "ods"); (u "in.json")],
   PHelp);
  ([(u "unflatten"); (u "in.json")],
   PUsage);
  ([(u "--v=1"); (u "create-template"); (u "--schema=x"); (u "-r=csv"); (u "--truncation-length"); (u " 7 "); (u "--schema"); (u "xlsx"); (u "CRLF")],
   PUsage);
  ([(u "unflatten"); (u "in.json"); (u "--timezone-name"); (u "a=b"); (u "CRLF"); (u "--convert-titles"); (u "-fcsv")],
   PUsage);
  ([(u "unflatten"); (u "-f"); (u "csv"); (u "-h"); (u "in.json"); (u "-f"); (u "csv")],
   PHelp);
  ([(u "unflatten"); (u "--xml"); (u "in.json"); (u "--input-format"); (u "-v"); (u "--base-json"); (u "a"); (u "-f=csv")],
   PUsage);
  ([(u "create-template"); (u "--disable-local-refs=xlsx"); (u "-sx")],
   PUsage);
  ([(u "-vv"); (u "flatten"); (u "-h=all"); (u "-s"); (u "xlsx")],
   PUsage);
  ([(u "flatten"); (u "--fi=all"); (u "in.json"); (u "--fil"); (u "xlsx"); (u "--root-"); (u "a")],
   PUsage);
  ([(u "create-template"); (u "-m"); (u "xlsx"); (u "--schema=x"); (u "--root-ida")],
   PUsage);
  ([(u "--help"); (u "flatten"); (u "--id-name"); (u "csv"); (u "in.json"); (u "--schema-5")],
   PHelp);
  ([(u "-h"); (u "--q"); (u "-h"); (u "flatten"); (u "--preserve-fields"); (u "-v"); (u "in.json"); (u "--remove-empty-schema-columns=csv")],
   PHelp);
  ([(u "flatten"); (u "--use-tit=all"); (u "in.json"); (u "--disable-local-refs")],
   PUsage);
  ([(u "flatten"); (u "--help"); (u "in.json")],
   PHelp);
  ([(u "unflatten"); (u "-r"); (u "all"); (u "in.json"); (u "-f"); (u "csv"); (u "--r"); (u "-5x")],
   PUsage);
  ([(u "-v"); (u "-fcsv"); (u "in.json"); (u "--convert-wkt"); (u "-b"); (u " 7 ")],
   PUsage);
  ([(u "-v"); (u "-vh"); (u "create-template"); (u "-s=x")],
   PHelp);
  ([(u "unflatten"); (u "-fcsv"); (u "--conver"); (u "-.5"); (u "in.json")],
   PUsage);
  ([(u "x"); (u "--metatab-only"); (u "--id=a"); (u "--m"); (u " 7 ")],
   PUsage);
  ([(u "--v=1"); (u "create-template"); (u "--output-format=all"); (u "-s"); (u "x"); (u "--no-deprecat"); (u "--r")],
   PUsage);
  ([(u "create-template"); (u "--sch"); (u "x"); (u "--no-deprecated-fields"); (u "-h")],
   PHelp);
  ([(u "flatten"); (u "--remove-empty"); (u "xlsx"); (u "-h")],
   PHelp);
  ([(u "create-template"); (u "--main-sheet-namex y"); (u "--output-format"); (u "csv"); (u "a")],
   PUsage);
  ([(u "-h"); (u "create-template"); (u "--he"); (u "-h"); (u "-sx"); (u "--disable-loc= 7 ")],
   PHelp);
  ([(u "flatten"); (u "-o=csv"); (u "-m"); (u "--disable-local-refs"); (u "in.json")],
   PUsage);
  ([(u "flatten"); (u "in.json"); (u "-f"); (u "a"); (u "--line-terminator"); (u "xlsx"); (u "x y")],
   PUsage);
  ([(u "create-template"); (u "--schema=x"); (u "-s=csv"); (u "--output-name")],
   PUsage);
  ([(u "unflatten"); (u "-fcsv")],
   PUsage);
  ([(u "create-template"); (u "-f=csv")],
   PUsage);
  ([(u "flatten"); (u "-o"); (u "-x y"); (u "in.json"); (u "--output-=all")],
   PUsage);
  ([(u "flat"); (u "-sx"); (u "-s"); (u "csv")],
   PUsage);
  ([(u "flatten"); (u "in.json"); (u "--remove-empty-schema-columns=--x"); (u "--id-namea")],
   PUsage);
  ([(u "unflatten"); (u "-f=csv"); (u "-e"); (u "xlsx")],
   PUsage);
  ([(u "create-template"); (u "--root-id"); (u "-5")],
   PUsage);
  ([(u "flatten"); (u "--xml5"); (u "-h"); (u ""); (u "in.json"); (u "--help"); (u "xlsx")],
   PHelp);
  ([(u "flatten"); (u "--filter-field=xlsx"); (u "--p"); (u "all"); (u "-o"); (u "xlsx")],
   PUsage);
  ([(u "create-template")],
   PUsage);
  ([(u "-vx"); (u "unflatten"); (u "--vertical-orientation="); (u "--metatab-name")],
   PUsage);
  ([(u "in.json"); (u "-f=csv"); (u "--b"); (u "xlsx")],
   PUsage);
  ([(u "unflatten"); (u "--convert-wkt"); (u "--input"); (u "ods"); (u "--xml")],
   PUsage);
  ([(u "unflatten"); (u "--xml-co"); (u "xlsx"); (u "--x"); (u "all"); (u "CRLF"); (u "-c=all"); (u "--input-format=xlsx")],
   PUsage);
  ([(u "unflatten"); (u "--input-format=xlsx"); (u "--input-format"); (u "in.json"); (u "-a=all")],
   PUsage);
  ([(u "create-template"); (u "--use-titles"); (u "-s"); (u "x"); (u "--convert-wk"); (u "all"); (u "--root-id")],
   PUsage);
  ([(u "unflatten"); (u "--xml"); (u "in.json")],
   PUsage);
  ([(u "unflatten"); (u "in.json"); (u "-f=csv"); (u "--convert-wkt"); (u "--input-format"); (u "all")],
   PUsage);
  ([(u "unflatten"); (u "--root-is-list"); (u "--input"); (u "ods"); (u "-r"); (u "in.json")],
   PUsage);
  ([(u "unflatten"); (u "--xml=csv"); (u "-f"); (u "csv"); (u "in.json")],
   PUsage);
  ([(u "flatten"); (u "--preserve-fields"); (u "all"); (u "--convert-wkt"); (u "in.json"); (u "-f"); (u "")],
   PUsage);
  ([(u "-vv"); (u "flatten"); (u "in.json"); (u "-m"); (u "csv"); (u "-h")],
   PHelp);
  ([(u "create-template"); (u "--disable-local-refs"); (u "-s"); (u "x"); (u "-m")],
   PUsage);
  ([(u "-h"); (u "create-template"); (u "--schema=x")],
   PHelp);
  ([(u "--help"); (u "create-template"); (u "-s"); (u "xlsx"); (u "-sx"); (u "--use-titles")],
   PHelp);
  ([(u "create-template"); (u "-s"); (u " 7 "); (u "--truncation-length"); (u "0"); (u "xlsx")],
   PUsage);
  ([(u "--q"); (u "flatten"); (u "--disable-local-refs"); (u "-f"); (u "--root-list-path"); (u "a=b"); (u "in.json")],
   PUsage);
  ([(u "create-template")],
   PUsage);
  ([(u "flatten"); (u "-m=CRLF"); (u "--root-list-path"); (u "-5x"); (u "in.json"); (u "--sheet-prefix"); (u "xlsx")],
   PUsage);
  ([(u "unflatten"); (u "-e"); (u "-h"); (u "-x y"); (u "-ra=b"); (u "in.json"); (u "-f=csv")],
   PUsage);
  ([(u "--verb"); (u "-vv"); (u "unflatten"); (u "--input-format=xlsx"); (u "--vertical-orientation=xlsx"); (u "-s"); (u "x y"); (u "in.json"); (u "-m"); (u "CRLF")],
   PUsage);
  ([(u "-h"); (u "--v=1"); (u "flat"); (u "in.json"); (u "--filter-field"); (u "csv"); (u "--rollup=-x y")],
   PHelp);
  ([(u "unflatten"); (u "-m"); (u "xlsx"); (u "in.json"); (u "--input-format=xlsx"); (u "--xml-c"); (u "-v")],
   PUsage);
  ([(u "flatten"); (u "in.json"); (u "--root-"); (u "all"); (u "--rollup"); (u "="); (u "--root-id=a")],
   PUsage);
  ([(u "unflatten"); (u "--input"); (u "ods"); (u "-r"); (u "--base-json=xlsx"); (u "in.json")],
   PUsage);
  ([(u "flatten"); (u "in.json"); (u "-f=-5")],
   PUsage);
  ([(u "create-template"); (u "--root-idcsv")],
   PUsage);
  ([(u "create-template"); (u "-f=a"); (u "-s"); (u "x"); (u "--disable-")],
   PUsage);
  ([(u "create-template")],
   PUsage);
  ([(u "create-template"); (u "--help"); (u "-s"); (u "x"); (u "-s"); (u "a")],
   PHelp);
  ([(u "flatten"); (u "--use-5"); (u "--sheet-p"); (u "xlsx"); (u "in.json")],
   PUsage);
  ([(u "unflatten"); (u "--metatab-schema"); (u "--x"); (u "in.json"); (u "-fcsv")],
   PUsage);
  ([(u "-s=a"); (u "--metatab-schema1_0"); (u "-f=csv"); (u "in.json")],
   PUsage);
  ([(u "in.json"); (u "--use-titles"); (u "csv"); (u "-mCRLF")],
   PUsage);
  ([(u "create-template"); (u "--line-terminator"); (u "xlsx"); (u "-s"); (u "csv"); (u "="); (u "-s=x")],
   PUsage);
  ([(u "flatten"); (u "-r1_0"); (u "--filter-field-5"); (u "--root-is-list")],
   PUsage);
  ([(u "-vx"); (u "unflatten"); (u "--input"); (u "ods"); (u "-f"); (u "5"); (u "xlsx")],
   PUsage);
  ([(u "create-template"); (u "-oa"); (u "--truncation-length"); (u "a"); (u "--schema"); (u "a"); (u "-s"); (u "x")],
   PUsage);
  ([(u "--verbose"); (u "-q"); (u "create-template"); (u "-s=csv"); (u "--sch"); (u "x")],
   PUsage);
  ([(u "flatten"); (u "in.json"); (u "--root-lisa"); (u "--preserve-fiel"); (u "all")],
   PUsage);
  ([(u "-v="); (u "-vv"); (u "create-template"); (u "-s"); (u "all"); (u "-s=x"); (u "--rollup")],
   PUsage);
  ([(u "unflatten"); (u "-f"); (u "csv"); (u "--output-namecsv")],
   PUsage);
  ([(u "--verb"); (u "unflatten"); (u "-s=xlsx"); (u "--input"); (u "ods")],
   PUsage);
  ([(u "-vx"); (u "unflatten"); (u "-b"); (u "all"); (u "csv"); (u "-f"); (u "csv"); (u "-r"); (u "-")],
   PUsage);
  ([(u "create-template"); (u "-f"); (u "x y"); (u "--schema=x")],
   PUsage);
  ([(u "create-template")],
   PUsage);
  ([(u "create-template"); (u "--no-deprecated-fields")],
   PUsage);
  ([(u "flatten"); (u "--rollup"); (u "csv"); (u "in.json"); (u "-r"); (u "--x"); (u "--truncation-length")],
   PUsage);
  ([(u "-f"); (u "csv"); (u "--xml-comme"); (u "all"); (u "-m"); (u "all"); (u "--id-namea")],
   PUsage);
  ([(u "-vx"); (u "create-template"); (u "--schema=x")],
   PUsage);
  ([(u "unflatten"); (u "--convert-title="); (u "in.json"); (u "--input-format=xlsx")],
   PUsage);
  ([(u "flatten"); (u "in.json"); (u "--id-name=all"); (u "--rollupall")],
   PUsage);
  ([(u "create-template"); (u "-f"); (u "a")],
   PUsage);
  ([(u "unflatten"); (u "--output-name"); (u "xlsx"); (u "-h"); (u "in.json"); (u "-f=csv")],
   PHelp);
  ([(u "flatten"); (u "in.json"); (u "-o=csv"); (u "--filter-fie"); (u "5"); (u "--remove-empty"); (u "all"); (u "5")],
   PUsage);
  ([(u "create-template")],
   PUsage);
  ([(u "create-template"); (u "-s=x"); (u "-f"); (u "all"); (u "--ma")],
   PUsage);
  ([(u "-h"); (u "--q"); (u "unflatten"); (u "in.json")],
   PHelp);
  ([(u "--v=1"); (u "--q"); (u "flatten"); (u "--truncation-length"); (u "xlsx"); (u "--root-is-list"); (u "in.json"); (u "--filter-field"); (u "a=b")],
   PUsage);
  ([(u "--verb"); (u "unflatten"); (u "--input-format"); (u "-s"); (u "-5x"); (u "in.json"); (u "--xml-comment"); (u "all"); (u "-f=csv")],
   PUsage);
  ([(u "-v="); (u "flatten"); (u "in.json"); (u "-s"); (u "-5"); (u "--remove-empty-schema-co"); (u "a")],
   PUsage);
  ([(u "unflatten"); (u "-m"); (u "xlsx"); (u "--id-name"); (u "csv"); (u "--x"); (u "--xml"); (u "-f"); (u "csv")],
   PUsage);
  ([(u "--q"); (u "-h"); (u "unflatten"); (u "--input-format=xlsx"); (u "in.json"); (u "-ea"); (u "--vertical-orientation"); (u "--conv"); (u "csv")],
   PHelp);
  ([(u "unflatten"); (u "in.json"); (u "--cell-sour"); (u "--root-id==")],
   PUsage);
  ([(u "create-template"); (u "--output-name"); (u "a"); (u "-sx"); (u "--main-sheet-"); (u "xlsx"); (u "xlsx")],
   PUsage);
  ([(u "unflatten"); (u "-f=csv"); (u "--co"); (u "in.json")],
   PUsage);
  ([(u "unflatten"); (u "-f"); (u "csv")],
   PUsage);
  ([(u "create-template"); (u "-f"); (u "a"); (u "CRLF"); (u "-s=x"); (u "-mcsv"); (u "-f"); (u "all")],
   PUsage);
  ([(u "flatten"); (u "-o"); (u "5"); (u "in.json"); (u "--rollup"); (u "all"); (u "-f")],
   PUsage);
  ([(u "--help"); (u "-h"); (u "-vx"); (u "create-template"); (u "-sx"); (u "-s"); (u "a"); (u "--truncation-length 7 "); (u "--root-id"); (u "csv")],
   PHelp);
  ([(u "--help"); (u "unflatten"); (u "in.json"); (u "-f=csv"); (u "--convert-wkt"); (u "--default-configuration"); (u "csv"); (u "--encoding=csv")],
   PHelp);
  ([(u "create-template")],
   PUsage);
  ([(u "create-template"); (u "--use"); (u "all")],
   PUsage);
  ([(u "--out"); (u "xlsx"); (u "in.json")],
   PUsage);
  ([(u "unflatten"); (u "--input-format=xlsx"); (u "in.json"); (u "--root-is=csv")],
   PUsage);
  ([(u "flatten"); (u "--preserve-fields"); (u "--x"); (u "-o"); (u "-h"); (u "in.json"); (u "--root"); (u "-h"); (u "-v")],
   PUsage);
  ([(u "in.json")],
   PUsage);
  ([(u "--q"); (u "create-template"); (u "--rollup"); (u " 7 "); (u "--convert-wkt"); (u "-s=x"); (u "-f"); (u "xlsx")],
   PUsage);
  ([(u "-vx"); (u "--verbose"); (u "unflatten"); (u "-s="); (u "--base-json"); (u "-.5"); (u "in.json"); (u "-f"); (u "csv")],
   PUsage);
  ([(u "unflatten"); (u "-f"); (u "csv"); (u "--metatab-name= 7 "); (u "--heading-source-mapa")],
   PUsage);
  ([(u "create-template"); (u "-s=x"); (u "--convert-wkt"); (u "--disable-lo=all")],
   PUsage);
  ([(u "flatten"); (u "--outpxlsx")],
   PUsage);
  ([(u "--help"); (u "unflatten"); (u "--convert-titles"); (u "--input-format=xlsx"); (u "-e"); (u "xlsx"); (u "in.json"); (u "--base-json"); (u "-")],
   PHelp);
  ([(u "flatten"); (u "-s"); (u "all")],
   PUsage);
  ([(u "create-template"); (u "-fcsv")],
   PUsage);
  ([(u "flatten"); (u "--convert-wkt")],
   PUsage);
  ([(u "create-template"); (u "--use-titles"); (u "xlsx"); (u "-s=x")],
   PUsage);
  ([(u "unflatten"); (u "--cell-source-map"); (u "-5"); (u "--metatab-schema"); (u "xlsx"); (u "in.json")],
   PUsage);
  ([(u "-vx"); (u "create-template"); (u "-s"); (u "x")],
   PUsage);
  ([(u "create-template"); (u "-o"); (u "xlsx"); (u "-rCRLF")],
   PUsage);
  ([(u "unflatten"); (u "in.json")],
   PUsage);
  ([(u "flatten"); (u "--root-is-list"); (u "--use-ti=all"); (u "--filter-field"); (u "--x"); (u "in.json")],
   PUsage);
  ([(u "create-template"); (u "--output-format"); (u "xlsx"); (u "--output-namexlsx"); (u "-r"); (u "-5")],
   PUsage);
  ([(u "create-template"); (u "--output-name"); (u "--truncation-length"); (u "0"); (u "--schema=x")],
   PUsage);
  ([(u "flatten"); (u "--filter-fi=-.5"); (u "--preserve-fields=xlsx"); (u "in.json"); (u "-r"); (u "-h"); (u "--x")],
   PUsage);
  ([(u "flatten"); (u "-r"); (u "all"); (u "-s=a")],
   PUsage);
  ([(u "--schema"); (u "all"); (u "-s=x")],
   PUsage);
  ([(u "unflatten"); (u "-f=csv"); (u "-f=xlsx"); (u "--inpu=="); (u "in.json")],
   PUsage);
  ([(u "-q"); (u "unflatten"); (u "in.json"); (u "--convert-"); (u "a"); (u "-r=xlsx")],
   PUsage);
  ([(u "--help"); (u "unflatten"); (u "in.json")],
   PHelp);
  ([(u "unflatten"); (u "-f=csv"); (u "in.json"); (u "--timezone-name"); (u "csv"); (u "1_0"); (u "--co"); (u "csv")],
   PUsage)].
Example lines_ok : forallb line_ok lines = true.
Proof. vm_compute. reflexivity. Qed.
