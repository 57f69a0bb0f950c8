(** Generated by tools/gen_map_tests.py from the literal tables of
    /repo/flattentool/tests/test_end_to_end.py: the model gives the source maps
    the repo's own tests expect, in the same order (tests of the model's
    faithfulness, not proofs). *)
From Verif.Base Require Import PyStr PyNum PyVal PyDict Outcome.
From Verif.Model Require Import Warn Lib Convert Input SourceMap.
From Verif.Tests Require Import TestLib.
Open Scope Z_scope.
Definition test_fancy : fancy := {| f_root_is_list := false; f_root_list_path := u "main"; f_cells := true; f_headings := true |}.
Definition maps_of (sheets : list sheet_in) : option (option cmap * option hmap) :=
  match fancy_unflatten (test_opts []) test_fancy sheets with Ok (_, c, h) _ => Some (c, h) | Raise _ _ => None end.

Example test_dict_data : maps_of [{| si_name := (u "main"); si_headings := Some [(SStr (u "name")); (SStr (u "address/house"))]; si_lines := [[((SStr (u "name")), (SStr (u "James"))); ((SStr (u "address/house")), (SStr (u "15")))]] |}]
  = Some (Some [((u "main/0/address/house"), ECells [{| l_sheet := (u "main"); l_col := (u "B"); l_row := 2%N; l_heading := (SStr (u "address/house")) |}]); ((u "main/0/name"), ECells [{| l_sheet := (u "main"); l_col := (u "A"); l_row := 2%N; l_heading := (SStr (u "name")) |}]); ((u "main/0/address"), ERows [((u "main"), 2%N)]); ((u "main/0"), ERows [((u "main"), 2%N)])],
    Some [((u "main/address/house"), [((u "main"), (SStr (u "address/house")))]); ((u "main/name"), [((u "main"), (SStr (u "name")))])]).
Proof. vm_compute. reflexivity. Qed.

Example test_list_of_dicts_data : maps_of [{| si_name := (u "main"); si_headings := Some [(SStr (u "name")); (SStr (u "address/0/house"))]; si_lines := [[((SStr (u "name")), (SStr (u "James"))); ((SStr (u "address/0/house")), (SStr (u "15")))]] |}]
  = Some (Some [((u "main/0/address/0/house"), ECells [{| l_sheet := (u "main"); l_col := (u "B"); l_row := 2%N; l_heading := (SStr (u "address/0/house")) |}]); ((u "main/0/name"), ECells [{| l_sheet := (u "main"); l_col := (u "A"); l_row := 2%N; l_heading := (SStr (u "name")) |}]); ((u "main/0/address/0"), ERows [((u "main"), 2%N)]); ((u "main/0"), ERows [((u "main"), 2%N)])],
    Some [((u "main/address/house"), [((u "main"), (SStr (u "address/0/house")))]); ((u "main/name"), [((u "main"), (SStr (u "name")))])]).
Proof. vm_compute. reflexivity. Qed.

Example test_list_of_dicts_with_ids_data : maps_of [{| si_name := (u "main"); si_headings := Some [(SStr (u "id")); (SStr (u "name")); (SStr (u "address/0/id")); (SStr (u "address/0/house"))]; si_lines := [[((SStr (u "id")), (SStr (u "person1"))); ((SStr (u "name")), (SStr (u "James"))); ((SStr (u "address/0/id")), (SStr (u "address1"))); ((SStr (u "address/0/house")), (SStr (u "15")))]] |}]
  = Some (Some [((u "main/0/address/0/house"), ECells [{| l_sheet := (u "main"); l_col := (u "D"); l_row := 2%N; l_heading := (SStr (u "address/0/house")) |}]); ((u "main/0/address/0/id"), ECells [{| l_sheet := (u "main"); l_col := (u "C"); l_row := 2%N; l_heading := (SStr (u "address/0/id")) |}]); ((u "main/0/id"), ECells [{| l_sheet := (u "main"); l_col := (u "A"); l_row := 2%N; l_heading := (SStr (u "id")) |}]); ((u "main/0/name"), ECells [{| l_sheet := (u "main"); l_col := (u "B"); l_row := 2%N; l_heading := (SStr (u "name")) |}]); ((u "main/0/address/0"), ERows [((u "main"), 2%N)]); ((u "main/0"), ERows [((u "main"), 2%N)])],
    Some [((u "main/address/house"), [((u "main"), (SStr (u "address/0/house")))]); ((u "main/address/id"), [((u "main"), (SStr (u "address/0/id")))]); ((u "main/id"), [((u "main"), (SStr (u "id")))]); ((u "main/name"), [((u "main"), (SStr (u "name")))])]).
Proof. vm_compute. reflexivity. Qed.

Example test_arrangement_0 : maps_of [{| si_name := (u "main"); si_headings := Some [(SStr (u "id")); (SStr (u "name"))]; si_lines := [[((SStr (u "id")), (SStr (u "PERSON-james"))); ((SStr (u "name")), (SStr (u "James")))]; [((SStr (u "id")), (SStr (u "PERSON-bob"))); ((SStr (u "name")), (SStr (u "Bob")))]] |}; {| si_name := (u "addresses"); si_headings := Some [(SStr (u "id")); (SStr (u "address/0/house")); (SStr (u "address/0/town"))]; si_lines := [[((SStr (u "id")), (SStr (u "PERSON-james"))); ((SStr (u "address/0/house")), (SStr (u "1"))); ((SStr (u "address/0/town")), (SStr (u "London")))]; [((SStr (u "id")), (SStr (u "PERSON-james"))); ((SStr (u "address/0/house")), (SStr (u "2"))); ((SStr (u "address/0/town")), (SStr (u "Birmingham")))]; [((SStr (u "id")), (SStr (u "PERSON-bob"))); ((SStr (u "address/0/house")), (SStr (u "3"))); ((SStr (u "address/0/town")), (SStr (u "Leeds")))]; [((SStr (u "id")), (SStr (u "PERSON-bob"))); ((SStr (u "address/0/house")), (SStr (u "4"))); ((SStr (u "address/0/town")), (SStr (u "Manchester")))]] |}]
  = Some (Some [((u "main/0/address/0/house"), ECells [{| l_sheet := (u "addresses"); l_col := (u "B"); l_row := 2%N; l_heading := (SStr (u "address/0/house")) |}]); ((u "main/0/address/0/town"), ECells [{| l_sheet := (u "addresses"); l_col := (u "C"); l_row := 2%N; l_heading := (SStr (u "address/0/town")) |}]); ((u "main/0/address/1/house"), ECells [{| l_sheet := (u "addresses"); l_col := (u "B"); l_row := 3%N; l_heading := (SStr (u "address/0/house")) |}]); ((u "main/0/address/1/town"), ECells [{| l_sheet := (u "addresses"); l_col := (u "C"); l_row := 3%N; l_heading := (SStr (u "address/0/town")) |}]); ((u "main/0/id"), ECells [{| l_sheet := (u "main"); l_col := (u "A"); l_row := 2%N; l_heading := (SStr (u "id")) |}; {| l_sheet := (u "addresses"); l_col := (u "A"); l_row := 2%N; l_heading := (SStr (u "id")) |}; {| l_sheet := (u "addresses"); l_col := (u "A"); l_row := 3%N; l_heading := (SStr (u "id")) |}]); ((u "main/0/name"), ECells [{| l_sheet := (u "main"); l_col := (u "B"); l_row := 2%N; l_heading := (SStr (u "name")) |}]); ((u "main/1/address/0/house"), ECells [{| l_sheet := (u "addresses"); l_col := (u "B"); l_row := 4%N; l_heading := (SStr (u "address/0/house")) |}]); ((u "main/1/address/0/town"), ECells [{| l_sheet := (u "addresses"); l_col := (u "C"); l_row := 4%N; l_heading := (SStr (u "address/0/town")) |}]); ((u "main/1/address/1/house"), ECells [{| l_sheet := (u "addresses"); l_col := (u "B"); l_row := 5%N; l_heading := (SStr (u "address/0/house")) |}]); ((u "main/1/address/1/town"), ECells [{| l_sheet := (u "addresses"); l_col := (u "C"); l_row := 5%N; l_heading := (SStr (u "address/0/town")) |}]); ((u "main/1/id"), ECells [{| l_sheet := (u "main"); l_col := (u "A"); l_row := 3%N; l_heading := (SStr (u "id")) |}; {| l_sheet := (u "addresses"); l_col := (u "A"); l_row := 4%N; l_heading := (SStr (u "id")) |}; {| l_sheet := (u "addresses"); l_col := (u "A"); l_row := 5%N; l_heading := (SStr (u "id")) |}]); ((u "main/1/name"), ECells [{| l_sheet := (u "main"); l_col := (u "B"); l_row := 3%N; l_heading := (SStr (u "name")) |}]); ((u "main/0/address/0"), ERows [((u "addresses"), 2%N)]); ((u "main/0/address/1"), ERows [((u "addresses"), 3%N)]); ((u "main/0"), ERows [((u "main"), 2%N); ((u "addresses"), 2%N); ((u "addresses"), 3%N)]); ((u "main/1/address/0"), ERows [((u "addresses"), 4%N)]); ((u "main/1/address/1"), ERows [((u "addresses"), 5%N)]); ((u "main/1"), ERows [((u "main"), 3%N); ((u "addresses"), 4%N); ((u "addresses"), 5%N)])],
    Some [((u "main/address/house"), [((u "addresses"), (SStr (u "address/0/house")))]); ((u "main/address/town"), [((u "addresses"), (SStr (u "address/0/town")))]); ((u "main/id"), [((u "main"), (SStr (u "id"))); ((u "addresses"), (SStr (u "id")))]); ((u "main/name"), [((u "main"), (SStr (u "name")))])]).
Proof. vm_compute. reflexivity. Qed.

Example test_arrangement_1 : maps_of [{| si_name := (u "main"); si_headings := Some [(SStr (u "id")); (SStr (u "name")); (SStr (u "address/0/house")); (SStr (u "address/0/town")); (SStr (u "address/1/house")); (SStr (u "address/1/town"))]; si_lines := [[((SStr (u "id")), (SStr (u "PERSON-james"))); ((SStr (u "name")), (SStr (u "James"))); ((SStr (u "address/0/house")), (SStr (u "1"))); ((SStr (u "address/0/town")), (SStr (u "London"))); ((SStr (u "address/1/house")), (SStr (u "2"))); ((SStr (u "address/1/town")), (SStr (u "Birmingham")))]; [((SStr (u "id")), (SStr (u "PERSON-bob"))); ((SStr (u "name")), (SStr (u "Bob"))); ((SStr (u "address/0/house")), (SStr (u "3"))); ((SStr (u "address/0/town")), (SStr (u "Leeds"))); ((SStr (u "address/1/house")), (SStr (u "4"))); ((SStr (u "address/1/town")), (SStr (u "Manchester")))]] |}]
  = Some (Some [((u "main/0/address/0/house"), ECells [{| l_sheet := (u "main"); l_col := (u "C"); l_row := 2%N; l_heading := (SStr (u "address/0/house")) |}]); ((u "main/0/address/0/town"), ECells [{| l_sheet := (u "main"); l_col := (u "D"); l_row := 2%N; l_heading := (SStr (u "address/0/town")) |}]); ((u "main/0/address/1/house"), ECells [{| l_sheet := (u "main"); l_col := (u "E"); l_row := 2%N; l_heading := (SStr (u "address/1/house")) |}]); ((u "main/0/address/1/town"), ECells [{| l_sheet := (u "main"); l_col := (u "F"); l_row := 2%N; l_heading := (SStr (u "address/1/town")) |}]); ((u "main/0/id"), ECells [{| l_sheet := (u "main"); l_col := (u "A"); l_row := 2%N; l_heading := (SStr (u "id")) |}]); ((u "main/0/name"), ECells [{| l_sheet := (u "main"); l_col := (u "B"); l_row := 2%N; l_heading := (SStr (u "name")) |}]); ((u "main/1/address/0/house"), ECells [{| l_sheet := (u "main"); l_col := (u "C"); l_row := 3%N; l_heading := (SStr (u "address/0/house")) |}]); ((u "main/1/address/0/town"), ECells [{| l_sheet := (u "main"); l_col := (u "D"); l_row := 3%N; l_heading := (SStr (u "address/0/town")) |}]); ((u "main/1/address/1/house"), ECells [{| l_sheet := (u "main"); l_col := (u "E"); l_row := 3%N; l_heading := (SStr (u "address/1/house")) |}]); ((u "main/1/address/1/town"), ECells [{| l_sheet := (u "main"); l_col := (u "F"); l_row := 3%N; l_heading := (SStr (u "address/1/town")) |}]); ((u "main/1/id"), ECells [{| l_sheet := (u "main"); l_col := (u "A"); l_row := 3%N; l_heading := (SStr (u "id")) |}]); ((u "main/1/name"), ECells [{| l_sheet := (u "main"); l_col := (u "B"); l_row := 3%N; l_heading := (SStr (u "name")) |}]); ((u "main/0/address/0"), ERows [((u "main"), 2%N)]); ((u "main/0/address/1"), ERows [((u "main"), 2%N)]); ((u "main/0"), ERows [((u "main"), 2%N)]); ((u "main/1/address/0"), ERows [((u "main"), 3%N)]); ((u "main/1/address/1"), ERows [((u "main"), 3%N)]); ((u "main/1"), ERows [((u "main"), 3%N)])],
    Some [((u "main/address/house"), [((u "main"), (SStr (u "address/0/house"))); ((u "main"), (SStr (u "address/1/house")))]); ((u "main/address/town"), [((u "main"), (SStr (u "address/0/town"))); ((u "main"), (SStr (u "address/1/town")))]); ((u "main/id"), [((u "main"), (SStr (u "id")))]); ((u "main/name"), [((u "main"), (SStr (u "name")))])]).
Proof. vm_compute. reflexivity. Qed.

Example test_arrangement_2 : maps_of [{| si_name := (u "main"); si_headings := Some [(SStr (u "id")); (SStr (u "name")); (SStr (u "address/0/house")); (SStr (u "address/0/town"))]; si_lines := [[((SStr (u "id")), (SStr (u "PERSON-james"))); ((SStr (u "name")), (SStr (u "James"))); ((SStr (u "address/0/house")), (SStr (u "1"))); ((SStr (u "address/0/town")), (SStr (u "London")))]; [((SStr (u "id")), (SStr (u "PERSON-james"))); ((SStr (u "name")), (SStr (u "James"))); ((SStr (u "address/0/house")), (SStr (u "2"))); ((SStr (u "address/0/town")), (SStr (u "Birmingham")))]; [((SStr (u "id")), (SStr (u "PERSON-bob"))); ((SStr (u "name")), (SStr (u "Bob"))); ((SStr (u "address/0/house")), (SStr (u "3"))); ((SStr (u "address/0/town")), (SStr (u "Leeds")))]; [((SStr (u "id")), (SStr (u "PERSON-bob"))); ((SStr (u "name")), (SStr (u "Bob"))); ((SStr (u "address/0/house")), (SStr (u "4"))); ((SStr (u "address/0/town")), (SStr (u "Manchester")))]] |}]
  = Some (Some [((u "main/0/address/0/house"), ECells [{| l_sheet := (u "main"); l_col := (u "C"); l_row := 2%N; l_heading := (SStr (u "address/0/house")) |}]); ((u "main/0/address/0/town"), ECells [{| l_sheet := (u "main"); l_col := (u "D"); l_row := 2%N; l_heading := (SStr (u "address/0/town")) |}]); ((u "main/0/address/1/house"), ECells [{| l_sheet := (u "main"); l_col := (u "C"); l_row := 3%N; l_heading := (SStr (u "address/0/house")) |}]); ((u "main/0/address/1/town"), ECells [{| l_sheet := (u "main"); l_col := (u "D"); l_row := 3%N; l_heading := (SStr (u "address/0/town")) |}]); ((u "main/0/id"), ECells [{| l_sheet := (u "main"); l_col := (u "A"); l_row := 2%N; l_heading := (SStr (u "id")) |}; {| l_sheet := (u "main"); l_col := (u "A"); l_row := 3%N; l_heading := (SStr (u "id")) |}]); ((u "main/0/name"), ECells [{| l_sheet := (u "main"); l_col := (u "B"); l_row := 2%N; l_heading := (SStr (u "name")) |}; {| l_sheet := (u "main"); l_col := (u "B"); l_row := 3%N; l_heading := (SStr (u "name")) |}]); ((u "main/1/address/0/house"), ECells [{| l_sheet := (u "main"); l_col := (u "C"); l_row := 4%N; l_heading := (SStr (u "address/0/house")) |}]); ((u "main/1/address/0/town"), ECells [{| l_sheet := (u "main"); l_col := (u "D"); l_row := 4%N; l_heading := (SStr (u "address/0/town")) |}]); ((u "main/1/address/1/house"), ECells [{| l_sheet := (u "main"); l_col := (u "C"); l_row := 5%N; l_heading := (SStr (u "address/0/house")) |}]); ((u "main/1/address/1/town"), ECells [{| l_sheet := (u "main"); l_col := (u "D"); l_row := 5%N; l_heading := (SStr (u "address/0/town")) |}]); ((u "main/1/id"), ECells [{| l_sheet := (u "main"); l_col := (u "A"); l_row := 4%N; l_heading := (SStr (u "id")) |}; {| l_sheet := (u "main"); l_col := (u "A"); l_row := 5%N; l_heading := (SStr (u "id")) |}]); ((u "main/1/name"), ECells [{| l_sheet := (u "main"); l_col := (u "B"); l_row := 4%N; l_heading := (SStr (u "name")) |}; {| l_sheet := (u "main"); l_col := (u "B"); l_row := 5%N; l_heading := (SStr (u "name")) |}]); ((u "main/0/address/0"), ERows [((u "main"), 2%N)]); ((u "main/0/address/1"), ERows [((u "main"), 3%N)]); ((u "main/0"), ERows [((u "main"), 2%N); ((u "main"), 3%N)]); ((u "main/1/address/0"), ERows [((u "main"), 4%N)]); ((u "main/1/address/1"), ERows [((u "main"), 5%N)]); ((u "main/1"), ERows [((u "main"), 4%N); ((u "main"), 5%N)])],
    Some [((u "main/address/house"), [((u "main"), (SStr (u "address/0/house")))]); ((u "main/address/town"), [((u "main"), (SStr (u "address/0/town")))]); ((u "main/id"), [((u "main"), (SStr (u "id")))]); ((u "main/name"), [((u "main"), (SStr (u "name")))])]).
Proof. vm_compute. reflexivity. Qed.
