(** The assertions of flattentool/tests/test_schema_parser.py, by tools/gen_schema_tests.py. *)
From Coq Require Import String.
From Verif.Base Require Import PyStr PyNum PyVal PyDict Outcome.
From Verif.Model Require Import Flatten Titles Schema.
From Verif.Tests Require Import TestLib SchemaLib.

Example test_main_sheet_basic_0 : check_schema (sopts_of false false []) (VO None [(u "properties", (VO None [(u "Atest", (VO None [(u "type", (VS (SStr (u "string"))))])); (u "Btest", (VO None []))]))])
  (Some [u "Atest"; u "Btest"]) None [] None = true.
Proof. vm_compute. reflexivity. Qed.
Example test_main_sheet_nested_0 : check_schema (sopts_of false false []) (VO None [(u "properties", (VO None [(u "Atest", (VO None [(u "type", (VS (SStr (u "object")))); (u "properties", (VO None [(u "Ctest", (VO None [(u "type", (VS (SStr (u "string"))))]))]))]))]))])
  (Some [u "Atest/Ctest"]) None [] None = true.
Proof. vm_compute. reflexivity. Qed.
Example test_sub_sheet_0 : check_schema (sopts_of false false []) (VO None [(u "properties", (VO None [(u "Atest", (VO None [(u "type", (VS (SStr (u "array")))); (u "items", (VO None [(u "type", (VS (SStr (u "object")))); (u "properties", (VO None [(u "Btest", (VO None [(u "type", (VS (SStr (u "string"))))]))]))]))]))]))])
  (Some []) (Some [u "Atest"]) [(u "Atest", [u "Atest/0/Btest"])] None = true.
Proof. vm_compute. reflexivity. Qed.
Example TestSubSheetParentID_test_parent_is_object_0 : check_schema (sopts_of false false []) (VO None [(u "properties", (VO None [(u "Atest", (VO None [(u "type", (VS (SStr (u "object")))); (u "properties", (VO None [(u "id", (VO None [(u "type", (VS (SStr (u "string"))))])); (u "Btest", (VO None [(u "type", (VS (SStr (u "array")))); (u "items", (VO None [(u "type", (VS (SStr (u "object")))); (u "properties", (VO None [(u "Ctest", (VO None [(u "type", (VS (SStr (u "string"))))]))]))]))]))]))]))]))])
  (Some [u "Atest/id"]) (Some [u "Ate_Btest"]) [(u "Ate_Btest", [u "Atest/id"; u "Atest/Btest/0/Ctest"])] None = true.
Proof. vm_compute. reflexivity. Qed.
Example TestSubSheetParentID_test_parent_is_array_0 : check_schema (sopts_of false false []) (VO None [(u "properties", (VO None [(u "Atest", (VO None [(u "type", (VS (SStr (u "array")))); (u "items", (VO None [(u "type", (VS (SStr (u "object")))); (u "properties", (VO None [(u "id", (VO None [(u "type", (VS (SStr (u "string"))))])); (u "Btest", (VO None [(u "type", (VS (SStr (u "array")))); (u "items", (VO None [(u "type", (VS (SStr (u "object")))); (u "properties", (VO None [(u "Ctest", (VO None [(u "type", (VS (SStr (u "string"))))]))]))]))]))]))]))]))]))])
  (Some []) (Some [u "Atest"; u "Ate_Btest"]) [(u "Atest", [u "Atest/0/id"]); (u "Ate_Btest", [u "Atest/0/id"; u "Atest/0/Btest/0/Ctest"])] None = true.
Proof. vm_compute. reflexivity. Qed.
Example TestSubSheetParentID_test_two_parents_0 : check_schema (sopts_of false false []) (VO None [(u "properties", (VO None [(u "Atest", (VO None [(u "type", (VS (SStr (u "array")))); (u "items", (VO None [(u "type", (VS (SStr (u "object")))); (u "properties", (VO None [(u "id", (VO None [(u "type", (VS (SStr (u "string"))))])); (u "Btest", (VO None [(u "type", (VS (SStr (u "array")))); (u "items", (VO None [(u "type", (VS (SStr (u "object")))); (u "properties", (VO None [(u "Ctest", (VO None [(u "type", (VS (SStr (u "string"))))]))]))]))]))]))]))])); (u "Dtest", (VO None [(u "type", (VS (SStr (u "array")))); (u "items", (VO None [(u "type", (VS (SStr (u "object")))); (u "properties", (VO None [(u "id", (VO None [(u "type", (VS (SStr (u "string"))))])); (u "Btest", (VO None [(u "type", (VS (SStr (u "array")))); (u "items", (VO None [(u "type", (VS (SStr (u "object")))); (u "properties", (VO None [(u "Etest", (VO None [(u "type", (VS (SStr (u "string"))))]))]))]))]))]))]))]))]))])
  (Some []) (Some [u "Atest"; u "Dtest"; u "Ate_Btest"; u "Dte_Btest"]) [(u "Atest", [u "Atest/0/id"]); (u "Dtest", [u "Dtest/0/id"]); (u "Ate_Btest", [u "Atest/0/id"; u "Atest/0/Btest/0/Ctest"]); (u "Dte_Btest", [u "Dtest/0/id"; u "Dtest/0/Btest/0/Etest"])] None = true.
Proof. vm_compute. reflexivity. Qed.
Example TestSubSheetParentID_test_parent_is_object_nested_0 : check_schema (sopts_of false false []) (VO None [(u "properties", (VO None [(u "Atest", (VO None [(u "type", (VS (SStr (u "object")))); (u "properties", (VO None [(u "Btest", (VO None [(u "type", (VS (SStr (u "object")))); (u "properties", (VO None [(u "id", (VO None [(u "type", (VS (SStr (u "string"))))])); (u "Btest", (VO None [(u "type", (VS (SStr (u "array")))); (u "items", (VO None [(u "type", (VS (SStr (u "object")))); (u "properties", (VO None [(u "Ctest", (VO None [(u "type", (VS (SStr (u "string"))))]))]))]))]))]))]))]))]))]))])
  (Some [u "Atest/Btest/id"]) (Some [u "Ate_Bte_Btest"]) [(u "Ate_Bte_Btest", [u "Atest/Btest/id"; u "Atest/Btest/Btest/0/Ctest"])] None = true.
Proof. vm_compute. reflexivity. Qed.
Example TestSubSheetMainID_test_parent_is_object_0 : check_schema (sopts_of false false []) (VO None [(u "properties", (VO None [(u "id", (VO None [(u "type", (VS (SStr (u "string"))))])); (u "Atest", (VO None [(u "type", (VS (SStr (u "object")))); (u "properties", (VO None [(u "id", (VO None [(u "type", (VS (SStr (u "string"))))])); (u "Btest", (VO None [(u "type", (VS (SStr (u "array")))); (u "items", (VO None [(u "type", (VS (SStr (u "object")))); (u "properties", (VO None [(u "Ctest", (VO None [(u "type", (VS (SStr (u "string"))))]))]))]))]))]))]))]))])
  (Some [u "id"; u "Atest/id"]) (Some [u "Ate_Btest"]) [(u "Ate_Btest", [u "id"; u "Atest/id"; u "Atest/Btest/0/Ctest"])] None = true.
Proof. vm_compute. reflexivity. Qed.
Example TestSubSheetMainID_test_parent_is_array_0 : check_schema (sopts_of false false []) (VO None [(u "properties", (VO None [(u "id", (VO None [(u "type", (VS (SStr (u "string"))))])); (u "Atest", (VO None [(u "type", (VS (SStr (u "array")))); (u "items", (VO None [(u "type", (VS (SStr (u "object")))); (u "properties", (VO None [(u "id", (VO None [(u "type", (VS (SStr (u "string"))))])); (u "Btest", (VO None [(u "type", (VS (SStr (u "array")))); (u "items", (VO None [(u "type", (VS (SStr (u "object")))); (u "properties", (VO None [(u "Ctest", (VO None [(u "type", (VS (SStr (u "string"))))]))]))]))]))]))]))]))]))])
  (Some [u "id"]) (Some [u "Atest"; u "Ate_Btest"]) [(u "Atest", [u "id"; u "Atest/0/id"]); (u "Ate_Btest", [u "id"; u "Atest/0/id"; u "Atest/0/Btest/0/Ctest"])] None = true.
Proof. vm_compute. reflexivity. Qed.
Example TestSubSheetMainID_test_two_parents_0 : check_schema (sopts_of false false []) (VO None [(u "properties", (VO None [(u "id", (VO None [(u "type", (VS (SStr (u "string"))))])); (u "Atest", (VO None [(u "type", (VS (SStr (u "array")))); (u "items", (VO None [(u "type", (VS (SStr (u "object")))); (u "properties", (VO None [(u "id", (VO None [(u "type", (VS (SStr (u "string"))))])); (u "Btest", (VO None [(u "type", (VS (SStr (u "array")))); (u "items", (VO None [(u "type", (VS (SStr (u "object")))); (u "properties", (VO None [(u "Ctest", (VO None [(u "type", (VS (SStr (u "string"))))]))]))]))]))]))]))])); (u "Dtest", (VO None [(u "type", (VS (SStr (u "array")))); (u "items", (VO None [(u "type", (VS (SStr (u "object")))); (u "properties", (VO None [(u "id", (VO None [(u "type", (VS (SStr (u "string"))))])); (u "Btest", (VO None [(u "type", (VS (SStr (u "array")))); (u "items", (VO None [(u "type", (VS (SStr (u "object")))); (u "properties", (VO None [(u "Etest", (VO None [(u "type", (VS (SStr (u "string"))))]))]))]))]))]))]))]))]))])
  (Some [u "id"]) (Some [u "Atest"; u "Dtest"; u "Ate_Btest"; u "Dte_Btest"]) [(u "Atest", [u "id"; u "Atest/0/id"]); (u "Dtest", [u "id"; u "Dtest/0/id"]); (u "Ate_Btest", [u "id"; u "Atest/0/id"; u "Atest/0/Btest/0/Ctest"]); (u "Dte_Btest", [u "id"; u "Dtest/0/id"; u "Dtest/0/Btest/0/Etest"])] None = true.
Proof. vm_compute. reflexivity. Qed.
Example TestSubSheetMainID_test_custom_main_sheet_name_0 : check_schema (sopts_of false false []) (VO None [(u "properties", (VO None [(u "id", (VO None [(u "type", (VS (SStr (u "string"))))])); (u "Atest", (VO None [(u "type", (VS (SStr (u "object")))); (u "properties", (VO None [(u "id", (VO None [(u "type", (VS (SStr (u "string"))))])); (u "Btest", (VO None [(u "type", (VS (SStr (u "array")))); (u "items", (VO None [(u "type", (VS (SStr (u "object")))); (u "properties", (VO None [(u "Ctest", (VO None [(u "type", (VS (SStr (u "string"))))]))]))]))]))]))]))]))])
  (Some [u "id"; u "Atest/id"]) (Some [u "Ate_Btest"]) [(u "Ate_Btest", [u "id"; u "Atest/id"; u "Atest/Btest/0/Ctest"])] None = true.
Proof. vm_compute. reflexivity. Qed.
Example test_simple_array_s_0 : check_schema (sopts_of false false []) (VO None [(u "properties", (VO None [(u "Atest", (VO None [(u "type", (VS (SStr (u "array")))); (u "items", (VO None [(u "type", (VS (SStr (u "string"))))]))]))]))])
  (Some [u "Atest"]) None [] None = true.
Proof. vm_compute. reflexivity. Qed.
Example test_simple_array_n_0 : check_schema (sopts_of false false []) (VO None [(u "properties", (VO None [(u "Atest", (VO None [(u "type", (VS (SStr (u "array")))); (u "items", (VO None [(u "type", (VS (SStr (u "number"))))]))]))]))])
  (Some [u "Atest"]) None [] None = true.
Proof. vm_compute. reflexivity. Qed.
Example test_nested_simple_array_s_0 : check_schema (sopts_of false false []) (VO None [(u "properties", (VO None [(u "Atest", (VO None [(u "type", (VS (SStr (u "array")))); (u "items", (VO None [(u "type", (VS (SStr (u "array")))); (u "items", (VO None [(u "type", (VS (SStr (u "string"))))]))]))]))]))])
  (Some [u "Atest"]) None [] None = true.
Proof. vm_compute. reflexivity. Qed.
Example test_nested_simple_array_n_0 : check_schema (sopts_of false false []) (VO None [(u "properties", (VO None [(u "Atest", (VO None [(u "type", (VS (SStr (u "array")))); (u "items", (VO None [(u "type", (VS (SStr (u "array")))); (u "items", (VO None [(u "type", (VS (SStr (u "number"))))]))]))]))]))])
  (Some [u "Atest"]) None [] None = true.
Proof. vm_compute. reflexivity. Qed.
Example test_rollup_0 : check_schema (sopts_of true false []) (VO None [(u "properties", (VO None [(u "Atest", (VO None [(u "type", (VS (SStr (u "array")))); (u "rollUp", (VA [(VS (SStr (u "Btest")))])); (u "items", (VO None [(u "type", (VS (SStr (u "object")))); (u "properties", (VO None [(u "Btest", (VO None [(u "type", (VS (SStr (u "string"))))])); (u "Ctest", (VO None [(u "type", (VS (SStr (u "string"))))]))]))]))]))]))])
  (Some [u "Atest/0/Btest"]) (Some [u "Atest"]) [(u "Atest", [u "Atest/0/Btest"; u "Atest/0/Ctest"])] None = true.
Proof. vm_compute. reflexivity. Qed.
Example test_bad_rollup_0 : check_schema (sopts_of true false []) (VO None [(u "properties", (VO None [(u "Atest", (VO None [(u "type", (VS (SStr (u "array")))); (u "rollUp", (VA [(VS (SStr (u "Btest")))])); (u "items", (VO None [(u "type", (VS (SStr (u "object")))); (u "properties", (VO None [(u "Ctest", (VO None [(u "type", (VS (SStr (u "string"))))]))]))]))]))]))])
  (Some []) (Some [u "Atest"]) [(u "Atest", [u "Atest/0/Ctest"])] None = true.
Proof. vm_compute. reflexivity. Qed.
Example test_sub_sheet_custom_id_0 : check_schema (sopts_of false false (u "custom")) (VO None [(u "properties", (VO None [(u "Atest", (VO None [(u "type", (VS (SStr (u "array")))); (u "items", (VO None [(u "type", (VS (SStr (u "object")))); (u "properties", (VO None [(u "Btest", (VO None [(u "type", (VS (SStr (u "string"))))]))]))]))]))]))])
  (Some []) (Some [u "Atest"]) [(u "Atest", [u "custom"; u "Atest/0/Btest"])] None = true.
Proof. vm_compute. reflexivity. Qed.
Example test_sub_sheet_empty_string_root_id_0 : check_schema (sopts_of false false (u "")) (VO None [(u "properties", (VO None [(u "Atest", (VO None [(u "type", (VS (SStr (u "array")))); (u "items", (VO None [(u "type", (VS (SStr (u "object")))); (u "properties", (VO None [(u "Btest", (VO None [(u "type", (VS (SStr (u "string"))))]))]))]))]))]))])
  (Some []) (Some [u "Atest"]) [(u "Atest", [u "Atest/0/Btest"])] None = true.
Proof. vm_compute. reflexivity. Qed.
Example test_use_titles_t_0 : check_schema (sopts_of false true []) (VO None [(u "properties", (VO None [(u "Atest", (VO None [(u "title", (VS (SStr (u "ATitle")))); (u "type", (VS (SStr (u "array")))); (u "items", (VO None [(u "type", (VS (SStr (u "object")))); (u "properties", (VO None [(u "Btest", (VO None [(u "type", (VS (SStr (u "string")))); (u "title", (VS (SStr (u "BTitle"))))]))]))]))])); (u "Ctest", (VO None [(u "type", (VS (SStr (u "string")))); (u "title", (VS (SStr (u "CTitle"))))]))]))])
  (Some [u "CTitle"]) (Some [u "ATitle"]) [(u "ATitle", [u "ATitle:BTitle"])] (Some 0%nat) = true.
Proof. vm_compute. reflexivity. Qed.
Example test_use_titles_t_1 : check_schema (sopts_of false true []) (VO None [(u "properties", (VO None [(u "Atest", (VO None [(u "type", (VS (SStr (u "array")))); (u "items", (VO None [(u "type", (VS (SStr (u "object")))); (u "properties", (VO None [(u "Btest", (VO None [(u "type", (VS (SStr (u "string")))); (u "title", (VS (SStr (u "BTitle"))))]))]))]))])); (u "Ctest", (VO None [(u "type", (VS (SStr (u "string")))); (u "title", (VS (SStr (u "CTitle"))))]))]))])
  (Some [u "CTitle"]) (Some [u "Atest"]) [(u "Atest", [])] (Some 1%nat) = true.
Proof. vm_compute. reflexivity. Qed.
Example test_use_titles_t_2 : check_schema (sopts_of false true []) (VO None [(u "properties", (VO None [(u "Xtest", (VO None [(u "type", (VS (SStr (u "object")))); (u "properties", (VO None [(u "Atest", (VO None [(u "type", (VS (SStr (u "array")))); (u "title", (VS (SStr (u "ATitle")))); (u "items", (VO None [(u "type", (VS (SStr (u "object")))); (u "properties", (VO None [(u "Btest", (VO None [(u "type", (VS (SStr (u "string")))); (u "title", (VS (SStr (u "BTitle"))))]))]))]))]))]))])); (u "Ctest", (VO None [(u "type", (VS (SStr (u "string")))); (u "title", (VS (SStr (u "CTitle"))))]))]))])
  (Some [u "CTitle"]) (Some [u "Xte_Atest"]) [(u "Xte_Atest", [])] (Some 1%nat) = true.
Proof. vm_compute. reflexivity. Qed.
Example test_use_titles_f_0 : check_schema (sopts_of false false []) (VO None [(u "properties", (VO None [(u "Atest", (VO None [(u "title", (VS (SStr (u "ATitle")))); (u "type", (VS (SStr (u "array")))); (u "items", (VO None [(u "type", (VS (SStr (u "object")))); (u "properties", (VO None [(u "Btest", (VO None [(u "type", (VS (SStr (u "string")))); (u "title", (VS (SStr (u "BTitle"))))]))]))]))])); (u "Ctest", (VO None [(u "type", (VS (SStr (u "string")))); (u "title", (VS (SStr (u "CTitle"))))]))]))])
  None None [] (Some 0%nat) = true.
Proof. vm_compute. reflexivity. Qed.
Example test_use_titles_f_1 : check_schema (sopts_of false false []) (VO None [(u "properties", (VO None [(u "Atest", (VO None [(u "type", (VS (SStr (u "array")))); (u "items", (VO None [(u "type", (VS (SStr (u "object")))); (u "properties", (VO None [(u "Btest", (VO None [(u "type", (VS (SStr (u "string")))); (u "title", (VS (SStr (u "BTitle"))))]))]))]))])); (u "Ctest", (VO None [(u "type", (VS (SStr (u "string")))); (u "title", (VS (SStr (u "CTitle"))))]))]))])
  None None [] (Some 0%nat) = true.
Proof. vm_compute. reflexivity. Qed.
Example test_use_titles_f_2 : check_schema (sopts_of false false []) (VO None [(u "properties", (VO None [(u "Xtest", (VO None [(u "type", (VS (SStr (u "object")))); (u "properties", (VO None [(u "Atest", (VO None [(u "type", (VS (SStr (u "array")))); (u "title", (VS (SStr (u "ATitle")))); (u "items", (VO None [(u "type", (VS (SStr (u "object")))); (u "properties", (VO None [(u "Btest", (VO None [(u "type", (VS (SStr (u "string")))); (u "title", (VS (SStr (u "BTitle"))))]))]))]))]))]))])); (u "Ctest", (VO None [(u "type", (VS (SStr (u "string")))); (u "title", (VS (SStr (u "CTitle"))))]))]))])
  None None [] (Some 0%nat) = true.
Proof. vm_compute. reflexivity. Qed.
Example test_use_titles3_t_0 : check_schema (sopts_of false true []) (VO None [(u "properties", (VO None [(u "Atest", (VO None [(u "type", (VS (SStr (u "array")))); (u "title", (VS (SStr (u "ATitle")))); (u "items", (VO None [(u "type", (VS (SStr (u "object")))); (u "properties", (VO None [(u "Btest", (VO None [(u "type", (VS (SStr (u "object")))); (u "properties", (VO None [(u "Ctest", (VO None [(u "type", (VS (SStr (u "string")))); (u "title", (VS (SStr (u "CTitle"))))]))]))]))]))]))])); (u "Ctest", (VO None [(u "type", (VS (SStr (u "string")))); (u "title", (VS (SStr (u "CTitle"))))]))]))])
  (Some [u "CTitle"]) (Some [u "ATitle"]) [(u "ATitle", [])] (Some 1%nat) = true.
Proof. vm_compute. reflexivity. Qed.
Example test_use_titles3_f_0 : check_schema (sopts_of false false []) (VO None [(u "properties", (VO None [(u "Atest", (VO None [(u "type", (VS (SStr (u "array")))); (u "title", (VS (SStr (u "ATitle")))); (u "items", (VO None [(u "type", (VS (SStr (u "object")))); (u "properties", (VO None [(u "Btest", (VO None [(u "type", (VS (SStr (u "object")))); (u "properties", (VO None [(u "Ctest", (VO None [(u "type", (VS (SStr (u "string")))); (u "title", (VS (SStr (u "CTitle"))))]))]))]))]))]))])); (u "Ctest", (VO None [(u "type", (VS (SStr (u "string")))); (u "title", (VS (SStr (u "CTitle"))))]))]))])
  None None [] (Some 0%nat) = true.
Proof. vm_compute. reflexivity. Qed.
Example test_use_titles2_t_0 : check_schema (sopts_of false true []) (VO None [(u "properties", (VO None [(u "Xtest", (VO None [(u "type", (VS (SStr (u "object")))); (u "properties", (VO None [(u "Atest", (VO None [(u "type", (VS (SStr (u "object")))); (u "title", (VS (SStr (u "ATitle")))); (u "properties", (VO None [(u "Btest", (VO None [(u "type", (VS (SStr (u "string")))); (u "title", (VS (SStr (u "BTitle"))))]))]))]))]))])); (u "Ctest", (VO None [(u "type", (VS (SStr (u "string")))); (u "title", (VS (SStr (u "CTitle"))))]))]))])
  (Some [u "CTitle"]) (Some []) [] (Some 1%nat) = true.
Proof. vm_compute. reflexivity. Qed.
Example test_use_titles2_t_1 : check_schema (sopts_of false true []) (VO None [(u "properties", (VO None [(u "Atest", (VO None [(u "title", (VS (SStr (u "ATitle")))); (u "type", (VS (SStr (u "array")))); (u "items", (VO None [(u "type", (VS (SStr (u "object")))); (u "properties", (VO None [(u "Btest", (VO None [(u "type", (VS (SStr (u "string")))); (u "title", (VS (SStr (u "BTitle"))))]))]))]))])); (u "Ctest", (VO None [(u "type", (VS (SStr (u "string"))))]))]))])
  (Some []) (Some [u "ATitle"]) [(u "ATitle", [u "ATitle:BTitle"])] (Some 1%nat) = true.
Proof. vm_compute. reflexivity. Qed.
Example test_use_titles2_f_0 : check_schema (sopts_of false false []) (VO None [(u "properties", (VO None [(u "Xtest", (VO None [(u "type", (VS (SStr (u "object")))); (u "properties", (VO None [(u "Atest", (VO None [(u "type", (VS (SStr (u "object")))); (u "title", (VS (SStr (u "ATitle")))); (u "properties", (VO None [(u "Btest", (VO None [(u "type", (VS (SStr (u "string")))); (u "title", (VS (SStr (u "BTitle"))))]))]))]))]))])); (u "Ctest", (VO None [(u "type", (VS (SStr (u "string")))); (u "title", (VS (SStr (u "CTitle"))))]))]))])
  None None [] (Some 0%nat) = true.
Proof. vm_compute. reflexivity. Qed.
Example test_use_titles2_f_1 : check_schema (sopts_of false false []) (VO None [(u "properties", (VO None [(u "Atest", (VO None [(u "title", (VS (SStr (u "ATitle")))); (u "type", (VS (SStr (u "array")))); (u "items", (VO None [(u "type", (VS (SStr (u "object")))); (u "properties", (VO None [(u "Btest", (VO None [(u "type", (VS (SStr (u "string")))); (u "title", (VS (SStr (u "BTitle"))))]))]))]))])); (u "Ctest", (VO None [(u "type", (VS (SStr (u "string"))))]))]))])
  None None [] (Some 0%nat) = true.
Proof. vm_compute. reflexivity. Qed.
Example test_use_titles5_0 : check_schema (sopts_of false true []) (VO None [(u "properties", (VO None [(u "Atest", (VO None [(u "title", (VS (SStr (u "ATitle")))); (u "type", (VS (SStr (u "array")))); (u "items", (VO None [(u "type", (VS (SStr (u "object")))); (u "properties", (VO None [(u "Btest", (VO None [(u "type", (VS (SStr (u "string"))))]))]))]))])); (u "Ctest", (VO None [(u "type", (VS (SStr (u "string")))); (u "title", (VS (SStr (u "CTitle"))))]))]))])
  (Some [u "CTitle"]) (Some [u "ATitle"]) [(u "ATitle", [])] None = true.
Proof. vm_compute. reflexivity. Qed.
Example test_titles_rollup_0 : check_schema (sopts_of true true []) (VO None [(u "properties", (VO None [(u "Atest", (VO None [(u "type", (VS (SStr (u "array")))); (u "title", (VS (SStr (u "ATitle")))); (u "rollUp", (VA [(VS (SStr (u "Btest")))])); (u "items", (VO None [(u "type", (VS (SStr (u "object")))); (u "properties", (VO None [(u "Btest", (VO None [(u "type", (VS (SStr (u "string")))); (u "title", (VS (SStr (u "BTitle"))))])); (u "Ctest", (VO None [(u "type", (VS (SStr (u "string")))); (u "title", (VS (SStr (u "CTitle"))))]))]))]))]))]))])
  (Some [u "ATitle:BTitle"]) (Some [u "ATitle"]) [(u "ATitle", [u "ATitle:BTitle"; u "ATitle:CTitle"])] None = true.
Proof. vm_compute. reflexivity. Qed.
