(** Generated by tools/gen_tests.py from the literal tables of
    /repo/flattentool/tests/test_input_SpreadsheetInput_unflatten.py and
    ..._unflatten_mulitplesheets.py: the model gives the output the repo's own
    tests expect (tests of the model's faithfulness, not proofs). *)
From Verif.Base Require Import PyStr PyNum PyVal PyDict Outcome.
From Verif.Model Require Import Warn Lib Convert Input.
From Verif.Tests Require Import TestLib.
Open Scope Z_scope.

(* Basic flat *)
Example unflatten_1 : check_unflatten (u "ocid")
  [{| si_name := (u "custom_main"); si_headings := None; si_lines := [[((SStr (u "ocid")), (SStr (u "1"))); ((SStr (u "id")), (SInt (2))); ((SStr (u "testA")), (SInt (3)))]] |}]
  [[((u "ocid"), (VLeaf (CV (SStr (u "1"))))); ((u "id"), (VLeaf (CV (SInt (2))))); ((u "testA"), (VLeaf (CV (SInt (3)))))]] (Some 0%nat) = true.
Proof. vm_compute. reflexivity. Qed.
(* Basic flat *)
Example unflatten_2 : check_unflatten (u "")
  [{| si_name := (u "custom_main"); si_headings := None; si_lines := [[((SStr (u "id")), (SInt (2))); ((SStr (u "testA")), (SInt (3)))]] |}]
  [[((u "id"), (VLeaf (CV (SInt (2))))); ((u "testA"), (VLeaf (CV (SInt (3)))))]] (Some 0%nat) = true.
Proof. vm_compute. reflexivity. Qed.
(* Basic with float *)
Example unflatten_3 : check_unflatten (u "ocid")
  [{| si_name := (u "custom_main"); si_headings := None; si_lines := [[((SStr (u "ocid")), (SStr (u "1"))); ((SStr (u "id")), (SInt (2))); ((SStr (u "testA")), (SFlt (FFin false 3%N (0))))]] |}]
  [[((u "ocid"), (VLeaf (CV (SStr (u "1"))))); ((u "id"), (VLeaf (CV (SInt (2))))); ((u "testA"), (VLeaf (CV (SInt (3)))))]] (Some 0%nat) = true.
Proof. vm_compute. reflexivity. Qed.
(* Basic with float *)
Example unflatten_4 : check_unflatten (u "")
  [{| si_name := (u "custom_main"); si_headings := None; si_lines := [[((SStr (u "id")), (SInt (2))); ((SStr (u "testA")), (SFlt (FFin false 3%N (0))))]] |}]
  [[((u "id"), (VLeaf (CV (SInt (2))))); ((u "testA"), (VLeaf (CV (SInt (3)))))]] (Some 0%nat) = true.
Proof. vm_compute. reflexivity. Qed.
(* Basic with zero *)
Example unflatten_5 : check_unflatten (u "ocid")
  [{| si_name := (u "custom_main"); si_headings := None; si_lines := [[((SStr (u "ocid")), (SStr (u "1"))); ((SStr (u "id")), (SInt (2))); ((SStr (u "testA")), (SInt (0)))]] |}]
  [[((u "ocid"), (VLeaf (CV (SStr (u "1"))))); ((u "id"), (VLeaf (CV (SInt (2))))); ((u "testA"), (VLeaf (CV (SInt (0)))))]] (Some 0%nat) = true.
Proof. vm_compute. reflexivity. Qed.
(* Basic with zero *)
Example unflatten_6 : check_unflatten (u "")
  [{| si_name := (u "custom_main"); si_headings := None; si_lines := [[((SStr (u "id")), (SInt (2))); ((SStr (u "testA")), (SInt (0)))]] |}]
  [[((u "id"), (VLeaf (CV (SInt (2))))); ((u "testA"), (VLeaf (CV (SInt (0)))))]] (Some 0%nat) = true.
Proof. vm_compute. reflexivity. Qed.
(* Basic with date-time *)
Example unflatten_7 : check_unflatten (u "ocid")
  [{| si_name := (u "custom_main"); si_headings := None; si_lines := [[((SStr (u "ocid")), (SStr (u "1"))); ((SStr (u "id")), (SInt (2))); ((SStr (u "testDateTime")), (SDt 1%N))]] |}]
  [[((u "ocid"), (VLeaf (CV (SStr (u "1"))))); ((u "id"), (VLeaf (CV (SInt (2))))); ((u "testDateTime"), (VLeaf (CV (SStr (u "2020-01-01T00:00:00+00:00")))))]] (Some 0%nat) = true.
Proof. vm_compute. reflexivity. Qed.
(* Basic with date-time *)
Example unflatten_8 : check_unflatten (u "")
  [{| si_name := (u "custom_main"); si_headings := None; si_lines := [[((SStr (u "id")), (SInt (2))); ((SStr (u "testDateTime")), (SDt 1%N))]] |}]
  [[((u "id"), (VLeaf (CV (SInt (2))))); ((u "testDateTime"), (VLeaf (CV (SStr (u "2020-01-01T00:00:00+00:00")))))]] (Some 0%nat) = true.
Proof. vm_compute. reflexivity. Qed.
(* Nested *)
Example unflatten_9 : check_unflatten (u "ocid")
  [{| si_name := (u "custom_main"); si_headings := None; si_lines := [[((SStr (u "ocid")), (SStr (u "1"))); ((SStr (u "id")), (SInt (2))); ((SStr (u "testO/testB")), (SInt (3))); ((SStr (u "testO/testC")), (SInt (4)))]] |}]
  [[((u "ocid"), (VLeaf (CV (SStr (u "1"))))); ((u "id"), (VLeaf (CV (SInt (2))))); ((u "testO"), (VDict [((u "testB"), (VLeaf (CV (SInt (3))))); ((u "testC"), (VLeaf (CV (SInt (4)))))]))]] (Some 0%nat) = true.
Proof. vm_compute. reflexivity. Qed.
(* Nested *)
Example unflatten_10 : check_unflatten (u "")
  [{| si_name := (u "custom_main"); si_headings := None; si_lines := [[((SStr (u "id")), (SInt (2))); ((SStr (u "testO/testB")), (SInt (3))); ((SStr (u "testO/testC")), (SInt (4)))]] |}]
  [[((u "id"), (VLeaf (CV (SInt (2))))); ((u "testO"), (VDict [((u "testB"), (VLeaf (CV (SInt (3))))); ((u "testC"), (VLeaf (CV (SInt (4)))))]))]] (Some 0%nat) = true.
Proof. vm_compute. reflexivity. Qed.
(* Unicode *)
Example unflatten_11 : check_unflatten (u "ocid")
  [{| si_name := (u "custom_main"); si_headings := None; si_lines := [[((SStr (u "ocid")), (SStr [233; 945; 1043; 128572; 119966; 20154]%N)); ((SStr (u "testU")), (SStr [233; 945; 1043; 128572; 119966; 20154]%N))]] |}]
  [[((u "ocid"), (VLeaf (CV (SStr [233; 945; 1043; 128572; 119966; 20154]%N)))); ((u "testU"), (VLeaf (CV (SStr [233; 945; 1043; 128572; 119966; 20154]%N))))]] (Some 0%nat) = true.
Proof. vm_compute. reflexivity. Qed.
(* Unicode *)
Example unflatten_12 : check_unflatten (u "")
  [{| si_name := (u "custom_main"); si_headings := None; si_lines := [[((SStr (u "testU")), (SStr [233; 945; 1043; 128572; 119966; 20154]%N))]] |}]
  [[((u "testU"), (VLeaf (CV (SStr [233; 945; 1043; 128572; 119966; 20154]%N))))]] (Some 0%nat) = true.
Proof. vm_compute. reflexivity. Qed.
(* Single item array *)
Example unflatten_13 : check_unflatten (u "ocid")
  [{| si_name := (u "custom_main"); si_headings := None; si_lines := [[((SStr (u "ocid")), (SStr (u "1"))); ((SStr (u "id")), (SInt (2))); ((SStr (u "testL/0/id")), (SInt (3))); ((SStr (u "testL/0/testB")), (SInt (4)))]] |}]
  [[((u "ocid"), (VLeaf (CV (SStr (u "1"))))); ((u "id"), (VLeaf (CV (SInt (2))))); ((u "testL"), (VList [[((u "id"), (VLeaf (CV (SInt (3))))); ((u "testB"), (VLeaf (CV (SInt (4)))))]]))]] (Some 0%nat) = true.
Proof. vm_compute. reflexivity. Qed.
(* Single item array *)
Example unflatten_14 : check_unflatten (u "")
  [{| si_name := (u "custom_main"); si_headings := None; si_lines := [[((SStr (u "id")), (SInt (2))); ((SStr (u "testL/0/id")), (SInt (3))); ((SStr (u "testL/0/testB")), (SInt (4)))]] |}]
  [[((u "id"), (VLeaf (CV (SInt (2))))); ((u "testL"), (VList [[((u "id"), (VLeaf (CV (SInt (3))))); ((u "testB"), (VLeaf (CV (SInt (4)))))]]))]] (Some 0%nat) = true.
Proof. vm_compute. reflexivity. Qed.
(* Single item array without parent ID *)
Example unflatten_15 : check_unflatten (u "ocid")
  [{| si_name := (u "custom_main"); si_headings := None; si_lines := [[((SStr (u "ocid")), (SStr (u "1"))); ((SStr (u "testL/0/id")), (SStr (u "2"))); ((SStr (u "testL/0/testB")), (SStr (u "3")))]] |}]
  [[((u "ocid"), (VLeaf (CV (SStr (u "1"))))); ((u "testL"), (VList [[((u "id"), (VLeaf (CV (SStr (u "2"))))); ((u "testB"), (VLeaf (CV (SStr (u "3")))))]]))]] (Some 0%nat) = true.
Proof. vm_compute. reflexivity. Qed.
(* Single item array without parent ID *)
Example unflatten_16 : check_unflatten (u "")
  [{| si_name := (u "custom_main"); si_headings := None; si_lines := [[((SStr (u "testL/0/id")), (SStr (u "2"))); ((SStr (u "testL/0/testB")), (SStr (u "3")))]] |}]
  [[((u "testL"), (VList [[((u "id"), (VLeaf (CV (SStr (u "2"))))); ((u "testB"), (VLeaf (CV (SStr (u "3")))))]]))]] (Some 0%nat) = true.
Proof. vm_compute. reflexivity. Qed.
(* Empty *)
Example unflatten_17 : check_unflatten (u "ocid")
  [{| si_name := (u "custom_main"); si_headings := None; si_lines := [[((SStr (u "ocid")), (SStr (u ""))); ((SStr (u "id")), (SStr (u ""))); ((SStr (u "testA")), (SStr (u ""))); ((SStr (u "testB")), (SStr (u ""))); ((SStr (u "testC")), (SStr (u ""))); ((SStr (u "testD")), (SStr (u ""))); ((SStr (u "testE")), (SStr (u "")))]] |}]
  [] (Some 0%nat) = true.
Proof. vm_compute. reflexivity. Qed.
(* Empty *)
Example unflatten_18 : check_unflatten (u "")
  [{| si_name := (u "custom_main"); si_headings := None; si_lines := [[((SStr (u "id")), (SStr (u ""))); ((SStr (u "testA")), (SStr (u ""))); ((SStr (u "testB")), (SStr (u ""))); ((SStr (u "testC")), (SStr (u ""))); ((SStr (u "testD")), (SStr (u ""))); ((SStr (u "testE")), (SStr (u "")))]] |}]
  [] (Some 0%nat) = true.
Proof. vm_compute. reflexivity. Qed.
(* Empty except for root id *)
Example unflatten_19 : check_unflatten (u "ocid")
  [{| si_name := (u "custom_main"); si_headings := None; si_lines := [[((SStr (u "ocid")), (SInt (1))); ((SStr (u "id")), (SStr (u ""))); ((SStr (u "testA")), (SStr (u ""))); ((SStr (u "testB")), (SStr (u ""))); ((SStr (u "testC")), (SStr (u ""))); ((SStr (u "testD")), (SStr (u ""))); ((SStr (u "testE")), (SStr (u "")))]] |}]
  [[((u "ocid"), (VLeaf (CV (SInt (1)))))]] (Some 0%nat) = true.
Proof. vm_compute. reflexivity. Qed.
(* Empty except for root id *)
Example unflatten_20 : check_unflatten (u "")
  [{| si_name := (u "custom_main"); si_headings := None; si_lines := [[((SStr (u "id")), (SStr (u ""))); ((SStr (u "testA")), (SStr (u ""))); ((SStr (u "testB")), (SStr (u ""))); ((SStr (u "testC")), (SStr (u ""))); ((SStr (u "testD")), (SStr (u ""))); ((SStr (u "testE")), (SStr (u "")))]] |}]
  [] (Some 0%nat) = true.
Proof. vm_compute. reflexivity. Qed.
(* Mismatch of object/array for field not in schema *)
Example unflatten_21 : check_unflatten (u "ocid")
  [{| si_name := (u "custom_main"); si_headings := None; si_lines := [[((SStr (u "ocid")), (SInt (1))); ((SStr (u "id")), (SInt (2))); ((SStr (u "newtest/a")), (SInt (3))); ((SStr (u "newtest/0/a")), (SInt (4)))]] |}]
  [[((u "ocid"), (VLeaf (CV (SInt (1))))); ((u "id"), (VLeaf (CV (SInt (2))))); ((u "newtest"), (VDict [((u "a"), (VLeaf (CV (SInt (3)))))]))]] (Some 1%nat) = true.
Proof. vm_compute. reflexivity. Qed.
(* Mismatch of object/array for field not in schema *)
Example unflatten_22 : check_unflatten (u "")
  [{| si_name := (u "custom_main"); si_headings := None; si_lines := [[((SStr (u "id")), (SInt (2))); ((SStr (u "newtest/a")), (SInt (3))); ((SStr (u "newtest/0/a")), (SInt (4)))]] |}]
  [[((u "id"), (VLeaf (CV (SInt (2))))); ((u "newtest"), (VDict [((u "a"), (VLeaf (CV (SInt (3)))))]))]] (Some 1%nat) = true.
Proof. vm_compute. reflexivity. Qed.
(* Mismatch of array/object for field not in schema *)
Example unflatten_23 : check_unflatten (u "ocid")
  [{| si_name := (u "custom_main"); si_headings := None; si_lines := [[((SStr (u "ocid")), (SInt (1))); ((SStr (u "id")), (SInt (2))); ((SStr (u "newtest/0/a")), (SInt (4))); ((SStr (u "newtest/a")), (SInt (3)))]] |}]
  [[((u "ocid"), (VLeaf (CV (SInt (1))))); ((u "id"), (VLeaf (CV (SInt (2))))); ((u "newtest"), (VList [[((u "a"), (VLeaf (CV (SInt (4)))))]]))]] (Some 1%nat) = true.
Proof. vm_compute. reflexivity. Qed.
(* Mismatch of array/object for field not in schema *)
Example unflatten_24 : check_unflatten (u "")
  [{| si_name := (u "custom_main"); si_headings := None; si_lines := [[((SStr (u "id")), (SInt (2))); ((SStr (u "newtest/0/a")), (SInt (4))); ((SStr (u "newtest/a")), (SInt (3)))]] |}]
  [[((u "id"), (VLeaf (CV (SInt (2))))); ((u "newtest"), (VList [[((u "a"), (VLeaf (CV (SInt (4)))))]]))]] (Some 1%nat) = true.
Proof. vm_compute. reflexivity. Qed.
(* str / array mixing *)
Example unflatten_25 : check_unflatten (u "ocid")
  [{| si_name := (u "custom_main"); si_headings := None; si_lines := [[((SStr (u "ocid")), (SInt (1))); ((SStr (u "id")), (SInt (2))); ((SStr (u "newtest")), (SInt (3))); ((SStr (u "newtest/0/a")), (SInt (4)))]] |}]
  [[((u "ocid"), (VLeaf (CV (SInt (1))))); ((u "id"), (VLeaf (CV (SInt (2))))); ((u "newtest"), (VLeaf (CV (SInt (3)))))]] (Some 1%nat) = true.
Proof. vm_compute. reflexivity. Qed.
(* str / array mixing *)
Example unflatten_26 : check_unflatten (u "")
  [{| si_name := (u "custom_main"); si_headings := None; si_lines := [[((SStr (u "id")), (SInt (2))); ((SStr (u "newtest")), (SInt (3))); ((SStr (u "newtest/0/a")), (SInt (4)))]] |}]
  [[((u "id"), (VLeaf (CV (SInt (2))))); ((u "newtest"), (VLeaf (CV (SInt (3)))))]] (Some 1%nat) = true.
Proof. vm_compute. reflexivity. Qed.
(* str / object mixing *)
Example unflatten_27 : check_unflatten (u "ocid")
  [{| si_name := (u "custom_main"); si_headings := None; si_lines := [[((SStr (u "ocid")), (SInt (1))); ((SStr (u "id")), (SInt (2))); ((SStr (u "newtest")), (SInt (3))); ((SStr (u "newtest/a")), (SInt (4)))]] |}]
  [[((u "ocid"), (VLeaf (CV (SInt (1))))); ((u "id"), (VLeaf (CV (SInt (2))))); ((u "newtest"), (VLeaf (CV (SInt (3)))))]] (Some 1%nat) = true.
Proof. vm_compute. reflexivity. Qed.
(* str / object mixing *)
Example unflatten_28 : check_unflatten (u "")
  [{| si_name := (u "custom_main"); si_headings := None; si_lines := [[((SStr (u "id")), (SInt (2))); ((SStr (u "newtest")), (SInt (3))); ((SStr (u "newtest/a")), (SInt (4)))]] |}]
  [[((u "id"), (VLeaf (CV (SInt (2))))); ((u "newtest"), (VLeaf (CV (SInt (3)))))]] (Some 1%nat) = true.
Proof. vm_compute. reflexivity. Qed.
(* array / str mixing *)
Example unflatten_29 : check_unflatten (u "ocid")
  [{| si_name := (u "custom_main"); si_headings := None; si_lines := [[((SStr (u "ocid")), (SInt (1))); ((SStr (u "id")), (SInt (2))); ((SStr (u "nest/newtest/0/a")), (SInt (3))); ((SStr (u "nest/newtest")), (SInt (4)))]] |}]
  [[((u "ocid"), (VLeaf (CV (SInt (1))))); ((u "id"), (VLeaf (CV (SInt (2))))); ((u "nest"), (VDict [((u "newtest"), (VList [[((u "a"), (VLeaf (CV (SInt (3)))))]]))]))]] (Some 1%nat) = true.
Proof. vm_compute. reflexivity. Qed.
(* array / str mixing *)
Example unflatten_30 : check_unflatten (u "")
  [{| si_name := (u "custom_main"); si_headings := None; si_lines := [[((SStr (u "id")), (SInt (2))); ((SStr (u "nest/newtest/0/a")), (SInt (3))); ((SStr (u "nest/newtest")), (SInt (4)))]] |}]
  [[((u "id"), (VLeaf (CV (SInt (2))))); ((u "nest"), (VDict [((u "newtest"), (VList [[((u "a"), (VLeaf (CV (SInt (3)))))]]))]))]] (Some 1%nat) = true.
Proof. vm_compute. reflexivity. Qed.
(* object / str mixing *)
Example unflatten_31 : check_unflatten (u "ocid")
  [{| si_name := (u "custom_main"); si_headings := None; si_lines := [[((SStr (u "ocid")), (SInt (1))); ((SStr (u "id")), (SInt (2))); ((SStr (u "newtest/a")), (SInt (3))); ((SStr (u "newtest")), (SInt (4)))]] |}]
  [[((u "ocid"), (VLeaf (CV (SInt (1))))); ((u "id"), (VLeaf (CV (SInt (2))))); ((u "newtest"), (VDict [((u "a"), (VLeaf (CV (SInt (3)))))]))]] (Some 1%nat) = true.
Proof. vm_compute. reflexivity. Qed.
(* object / str mixing *)
Example unflatten_32 : check_unflatten (u "")
  [{| si_name := (u "custom_main"); si_headings := None; si_lines := [[((SStr (u "id")), (SInt (2))); ((SStr (u "newtest/a")), (SInt (3))); ((SStr (u "newtest")), (SInt (4)))]] |}]
  [[((u "id"), (VLeaf (CV (SInt (2))))); ((u "newtest"), (VDict [((u "a"), (VLeaf (CV (SInt (3)))))]))]] (Some 1%nat) = true.
Proof. vm_compute. reflexivity. Qed.
(* Mismatch of object/array for field not in schema (multiline) *)
Example unflatten_33 : check_unflatten (u "ocid")
  [{| si_name := (u "custom_main"); si_headings := None; si_lines := [[((SStr (u "ocid")), (SInt (1))); ((SStr (u "id")), (SInt (2))); ((SStr (u "nest/newtest/a")), (SInt (3)))]; [((SStr (u "ocid")), (SInt (1))); ((SStr (u "id")), (SInt (2))); ((SStr (u "nest/newtest/0/a")), (SInt (4)))]] |}]
  [[((u "ocid"), (VLeaf (CV (SInt (1))))); ((u "id"), (VLeaf (CV (SInt (2))))); ((u "nest"), (VDict [((u "newtest"), (VDict [((u "a"), (VLeaf (CV (SInt (3)))))]))]))]] (Some 1%nat) = true.
Proof. vm_compute. reflexivity. Qed.
(* Mismatch of object/array for field not in schema (multiline) *)
Example unflatten_34 : check_unflatten (u "")
  [{| si_name := (u "custom_main"); si_headings := None; si_lines := [[((SStr (u "id")), (SInt (2))); ((SStr (u "nest/newtest/a")), (SInt (3)))]; [((SStr (u "id")), (SInt (2))); ((SStr (u "nest/newtest/0/a")), (SInt (4)))]] |}]
  [[((u "id"), (VLeaf (CV (SInt (2))))); ((u "nest"), (VDict [((u "newtest"), (VDict [((u "a"), (VLeaf (CV (SInt (3)))))]))]))]] (Some 1%nat) = true.
Proof. vm_compute. reflexivity. Qed.
(* Mismatch of array/object for field not in schema (multiline) *)
Example unflatten_35 : check_unflatten (u "ocid")
  [{| si_name := (u "custom_main"); si_headings := None; si_lines := [[((SStr (u "ocid")), (SInt (1))); ((SStr (u "id")), (SInt (2))); ((SStr (u "newtest/0/a")), (SInt (4)))]; [((SStr (u "ocid")), (SInt (1))); ((SStr (u "id")), (SInt (2))); ((SStr (u "newtest/a")), (SInt (3)))]] |}]
  [[((u "ocid"), (VLeaf (CV (SInt (1))))); ((u "id"), (VLeaf (CV (SInt (2))))); ((u "newtest"), (VList [[((u "a"), (VLeaf (CV (SInt (4)))))]]))]] (Some 1%nat) = true.
Proof. vm_compute. reflexivity. Qed.
(* Mismatch of array/object for field not in schema (multiline) *)
Example unflatten_36 : check_unflatten (u "")
  [{| si_name := (u "custom_main"); si_headings := None; si_lines := [[((SStr (u "id")), (SInt (2))); ((SStr (u "newtest/0/a")), (SInt (4)))]; [((SStr (u "id")), (SInt (2))); ((SStr (u "newtest/a")), (SInt (3)))]] |}]
  [[((u "id"), (VLeaf (CV (SInt (2))))); ((u "newtest"), (VList [[((u "a"), (VLeaf (CV (SInt (4)))))]]))]] (Some 1%nat) = true.
Proof. vm_compute. reflexivity. Qed.
(* str / array mixing multiline *)
Example unflatten_37 : check_unflatten (u "ocid")
  [{| si_name := (u "custom_main"); si_headings := None; si_lines := [[((SStr (u "ocid")), (SInt (1))); ((SStr (u "id")), (SInt (2))); ((SStr (u "nest/newtest")), (SInt (3)))]; [((SStr (u "ocid")), (SInt (1))); ((SStr (u "id")), (SInt (2))); ((SStr (u "nest/newtest/0/a")), (SInt (4))); ((SStr (u "nest/newtest/0/b")), (SInt (5)))]] |}]
  [[((u "ocid"), (VLeaf (CV (SInt (1))))); ((u "id"), (VLeaf (CV (SInt (2))))); ((u "nest"), (VDict [((u "newtest"), (VLeaf (CV (SInt (3)))))]))]] (Some 2%nat) = true.
Proof. vm_compute. reflexivity. Qed.
(* str / array mixing multiline *)
Example unflatten_38 : check_unflatten (u "")
  [{| si_name := (u "custom_main"); si_headings := None; si_lines := [[((SStr (u "id")), (SInt (2))); ((SStr (u "nest/newtest")), (SInt (3)))]; [((SStr (u "id")), (SInt (2))); ((SStr (u "nest/newtest/0/a")), (SInt (4))); ((SStr (u "nest/newtest/0/b")), (SInt (5)))]] |}]
  [[((u "id"), (VLeaf (CV (SInt (2))))); ((u "nest"), (VDict [((u "newtest"), (VLeaf (CV (SInt (3)))))]))]] (Some 2%nat) = true.
Proof. vm_compute. reflexivity. Qed.
(* array / str mixing multiline *)
Example unflatten_39 : check_unflatten (u "ocid")
  [{| si_name := (u "custom_main"); si_headings := None; si_lines := [[((SStr (u "ocid")), (SInt (1))); ((SStr (u "id")), (SInt (2))); ((SStr (u "nest/newtest/0/a")), (SInt (4)))]; [((SStr (u "ocid")), (SInt (1))); ((SStr (u "id")), (SInt (2))); ((SStr (u "nest/newtest")), (SInt (3)))]] |}]
  [[((u "ocid"), (VLeaf (CV (SInt (1))))); ((u "id"), (VLeaf (CV (SInt (2))))); ((u "nest"), (VDict [((u "newtest"), (VList [[((u "a"), (VLeaf (CV (SInt (4)))))]]))]))]] (Some 1%nat) = true.
Proof. vm_compute. reflexivity. Qed.
(* array / str mixing multiline *)
Example unflatten_40 : check_unflatten (u "")
  [{| si_name := (u "custom_main"); si_headings := None; si_lines := [[((SStr (u "id")), (SInt (2))); ((SStr (u "nest/newtest/0/a")), (SInt (4)))]; [((SStr (u "id")), (SInt (2))); ((SStr (u "nest/newtest")), (SInt (3)))]] |}]
  [[((u "id"), (VLeaf (CV (SInt (2))))); ((u "nest"), (VDict [((u "newtest"), (VList [[((u "a"), (VLeaf (CV (SInt (4)))))]]))]))]] (Some 1%nat) = true.
Proof. vm_compute. reflexivity. Qed.
(* str / object mixing multiline *)
Example unflatten_41 : check_unflatten (u "ocid")
  [{| si_name := (u "custom_main"); si_headings := None; si_lines := [[((SStr (u "ocid")), (SInt (1))); ((SStr (u "id")), (SInt (2))); ((SStr (u "newtest")), (SInt (3)))]; [((SStr (u "ocid")), (SInt (1))); ((SStr (u "id")), (SInt (2))); ((SStr (u "newtest/a")), (SInt (4))); ((SStr (u "newtest/b")), (SInt (5)))]] |}]
  [[((u "ocid"), (VLeaf (CV (SInt (1))))); ((u "id"), (VLeaf (CV (SInt (2))))); ((u "newtest"), (VLeaf (CV (SInt (3)))))]] (Some 2%nat) = true.
Proof. vm_compute. reflexivity. Qed.
(* str / object mixing multiline *)
Example unflatten_42 : check_unflatten (u "")
  [{| si_name := (u "custom_main"); si_headings := None; si_lines := [[((SStr (u "id")), (SInt (2))); ((SStr (u "newtest")), (SInt (3)))]; [((SStr (u "id")), (SInt (2))); ((SStr (u "newtest/a")), (SInt (4))); ((SStr (u "newtest/b")), (SInt (5)))]] |}]
  [[((u "id"), (VLeaf (CV (SInt (2))))); ((u "newtest"), (VLeaf (CV (SInt (3)))))]] (Some 2%nat) = true.
Proof. vm_compute. reflexivity. Qed.
(* object / str mixing multiline *)
Example unflatten_43 : check_unflatten (u "ocid")
  [{| si_name := (u "custom_main"); si_headings := None; si_lines := [[((SStr (u "ocid")), (SInt (1))); ((SStr (u "id")), (SInt (2))); ((SStr (u "newtest/a")), (SInt (4)))]; [((SStr (u "ocid")), (SInt (1))); ((SStr (u "id")), (SInt (2))); ((SStr (u "newtest")), (SInt (3)))]] |}]
  [[((u "ocid"), (VLeaf (CV (SInt (1))))); ((u "id"), (VLeaf (CV (SInt (2))))); ((u "newtest"), (VDict [((u "a"), (VLeaf (CV (SInt (4)))))]))]] (Some 1%nat) = true.
Proof. vm_compute. reflexivity. Qed.
(* object / str mixing multiline *)
Example unflatten_44 : check_unflatten (u "")
  [{| si_name := (u "custom_main"); si_headings := None; si_lines := [[((SStr (u "id")), (SInt (2))); ((SStr (u "newtest/a")), (SInt (4)))]; [((SStr (u "id")), (SInt (2))); ((SStr (u "newtest")), (SInt (3)))]] |}]
  [[((u "id"), (VLeaf (CV (SInt (2))))); ((u "newtest"), (VDict [((u "a"), (VLeaf (CV (SInt (4)))))]))]] (Some 1%nat) = true.
Proof. vm_compute. reflexivity. Qed.
(* Root ID is missing *)
Example unflatten_45 : check_unflatten (u "ocid")
  [{| si_name := (u "custom_main"); si_headings := None; si_lines := [[((SStr (u "id")), (SInt (2))); ((SStr (u "testA")), (SInt (3)))]] |}]
  [[((u "id"), (VLeaf (CV (SInt (2))))); ((u "testA"), (VLeaf (CV (SInt (3)))))]] (Some 0%nat) = true.
Proof. vm_compute. reflexivity. Qed.
(* Root ID is missing *)
Example unflatten_46 : check_unflatten (u "")
  [{| si_name := (u "custom_main"); si_headings := None; si_lines := [[((SStr (u "id")), (SInt (2))); ((SStr (u "testA")), (SInt (3)))]] |}]
  [[((u "id"), (VLeaf (CV (SInt (2))))); ((u "testA"), (VLeaf (CV (SInt (3)))))]] (Some 0%nat) = true.
Proof. vm_compute. reflexivity. Qed.
(* Non-string column headings *)
Example unflatten_47 : check_unflatten (u "ocid")
  [{| si_name := (u "custom_main"); si_headings := None; si_lines := [[((SInt (1)), (SStr (u "A"))); ((SInt (2)), (SStr (u "AA"))); ((SStr (u "3")), (SStr (u "AAA"))); ((SStr (u "4")), (SStr (u "AAAA"))); ((SDec (DFin false 22%N (-1))), (SStr (u "B"))); ((SFlt (FFin false 2589569785738035%N (-50))), (SStr (u "C"))); ((SBool false), (SStr (u "D")))]] |}]
  [[((u "2.2"), (VLeaf (CV (SStr (u "B"))))); ((u "2.3"), (VLeaf (CV (SStr (u "C"))))); ((u "False"), (VLeaf (CV (SStr (u "D")))))]] (Some 4%nat) = true.
Proof. vm_compute. reflexivity. Qed.
(* Non-string column headings *)
Example unflatten_48 : check_unflatten (u "")
  [{| si_name := (u "custom_main"); si_headings := None; si_lines := [[((SInt (1)), (SStr (u "A"))); ((SInt (2)), (SStr (u "AA"))); ((SStr (u "3")), (SStr (u "AAA"))); ((SStr (u "4")), (SStr (u "AAAA"))); ((SDec (DFin false 22%N (-1))), (SStr (u "B"))); ((SFlt (FFin false 2589569785738035%N (-50))), (SStr (u "C"))); ((SBool false), (SStr (u "D")))]] |}]
  [[((u "2.2"), (VLeaf (CV (SStr (u "B"))))); ((u "2.3"), (VLeaf (CV (SStr (u "C"))))); ((u "False"), (VLeaf (CV (SStr (u "D")))))]] (Some 4%nat) = true.
Proof. vm_compute. reflexivity. Qed.
(* Basic sub sheet *)
Example unflatten_49 : check_unflatten (u "ocid")
  [{| si_name := (u "custom_main"); si_headings := None; si_lines := [[((SStr (u "ocid")), (SInt (1))); ((SStr (u "id")), (SInt (2)))]; [((SStr (u "ocid")), (SInt (1))); ((SStr (u "id")), (SInt (3)))]] |}; {| si_name := (u "testArr"); si_headings := None; si_lines := [[((SStr (u "ocid")), (SInt (1))); ((SStr (u "id")), (SInt (2))); ((SStr (u "testArr/0/testC")), (SStr (u "3")))]; [((SStr (u "ocid")), (SInt (1))); ((SStr (u "id")), (SInt (2))); ((SStr (u "testArr/0/testC")), (SStr (u "4")))]] |}]
  [[((u "ocid"), (VLeaf (CV (SInt (1))))); ((u "id"), (VLeaf (CV (SInt (2))))); ((u "testArr"), (VList [[((u "testC"), (VLeaf (CV (SStr (u "3")))))]; [((u "testC"), (VLeaf (CV (SStr (u "4")))))]]))]; [((u "ocid"), (VLeaf (CV (SInt (1))))); ((u "id"), (VLeaf (CV (SInt (3)))))]] None = true.
Proof. vm_compute. reflexivity. Qed.
(* Basic sub sheet *)
Example unflatten_50 : check_unflatten (u "custom")
  [{| si_name := (u "custom_main"); si_headings := None; si_lines := [[((SStr (u "custom")), (SInt (1))); ((SStr (u "id")), (SInt (2)))]; [((SStr (u "custom")), (SInt (1))); ((SStr (u "id")), (SInt (3)))]] |}; {| si_name := (u "testArr"); si_headings := None; si_lines := [[((SStr (u "custom")), (SInt (1))); ((SStr (u "id")), (SInt (2))); ((SStr (u "testArr/0/testC")), (SStr (u "3")))]; [((SStr (u "custom")), (SInt (1))); ((SStr (u "id")), (SInt (2))); ((SStr (u "testArr/0/testC")), (SStr (u "4")))]] |}]
  [[((u "custom"), (VLeaf (CV (SInt (1))))); ((u "id"), (VLeaf (CV (SInt (2))))); ((u "testArr"), (VList [[((u "testC"), (VLeaf (CV (SStr (u "3")))))]; [((u "testC"), (VLeaf (CV (SStr (u "4")))))]]))]; [((u "custom"), (VLeaf (CV (SInt (1))))); ((u "id"), (VLeaf (CV (SInt (3)))))]] None = true.
Proof. vm_compute. reflexivity. Qed.
(* Basic sub sheet *)
Example unflatten_51 : check_unflatten (u "")
  [{| si_name := (u "custom_main"); si_headings := None; si_lines := [[((SStr (u "id")), (SInt (2)))]; [((SStr (u "id")), (SInt (3)))]] |}; {| si_name := (u "testArr"); si_headings := None; si_lines := [[((SStr (u "id")), (SInt (2))); ((SStr (u "testArr/0/testC")), (SStr (u "3")))]; [((SStr (u "id")), (SInt (2))); ((SStr (u "testArr/0/testC")), (SStr (u "4")))]] |}]
  [[((u "id"), (VLeaf (CV (SInt (2))))); ((u "testArr"), (VList [[((u "testC"), (VLeaf (CV (SStr (u "3")))))]; [((u "testC"), (VLeaf (CV (SStr (u "4")))))]]))]; [((u "id"), (VLeaf (CV (SInt (3)))))]] None = true.
Proof. vm_compute. reflexivity. Qed.
(* Nested sub sheet (with id) *)
Example unflatten_52 : check_unflatten (u "ocid")
  [{| si_name := (u "custom_main"); si_headings := None; si_lines := [[((SStr (u "ocid")), (SInt (1))); ((SStr (u "id")), (SInt (2))); ((SStr (u "testB/id")), (SInt (3))); ((SStr (u "testB/testC")), (SInt (4)))]] |}; {| si_name := (u "tes_subField"); si_headings := None; si_lines := [[((SStr (u "ocid")), (SInt (1))); ((SStr (u "id")), (SInt (2))); ((SStr (u "testB/id")), (SInt (3))); ((SStr (u "testB/subField/0/testD")), (SInt (5)))]] |}]
  [[((u "ocid"), (VLeaf (CV (SInt (1))))); ((u "id"), (VLeaf (CV (SInt (2))))); ((u "testB"), (VDict [((u "id"), (VLeaf (CV (SInt (3))))); ((u "testC"), (VLeaf (CV (SInt (4))))); ((u "subField"), (VList [[((u "testD"), (VLeaf (CV (SInt (5)))))]]))]))]] None = true.
Proof. vm_compute. reflexivity. Qed.
(* Nested sub sheet (with id) *)
Example unflatten_53 : check_unflatten (u "custom")
  [{| si_name := (u "custom_main"); si_headings := None; si_lines := [[((SStr (u "custom")), (SInt (1))); ((SStr (u "id")), (SInt (2))); ((SStr (u "testB/id")), (SInt (3))); ((SStr (u "testB/testC")), (SInt (4)))]] |}; {| si_name := (u "tes_subField"); si_headings := None; si_lines := [[((SStr (u "custom")), (SInt (1))); ((SStr (u "id")), (SInt (2))); ((SStr (u "testB/id")), (SInt (3))); ((SStr (u "testB/subField/0/testD")), (SInt (5)))]] |}]
  [[((u "custom"), (VLeaf (CV (SInt (1))))); ((u "id"), (VLeaf (CV (SInt (2))))); ((u "testB"), (VDict [((u "id"), (VLeaf (CV (SInt (3))))); ((u "testC"), (VLeaf (CV (SInt (4))))); ((u "subField"), (VList [[((u "testD"), (VLeaf (CV (SInt (5)))))]]))]))]] None = true.
Proof. vm_compute. reflexivity. Qed.
(* Nested sub sheet (with id) *)
Example unflatten_54 : check_unflatten (u "")
  [{| si_name := (u "custom_main"); si_headings := None; si_lines := [[((SStr (u "id")), (SInt (2))); ((SStr (u "testB/id")), (SInt (3))); ((SStr (u "testB/testC")), (SInt (4)))]] |}; {| si_name := (u "tes_subField"); si_headings := None; si_lines := [[((SStr (u "id")), (SInt (2))); ((SStr (u "testB/id")), (SInt (3))); ((SStr (u "testB/subField/0/testD")), (SInt (5)))]] |}]
  [[((u "id"), (VLeaf (CV (SInt (2))))); ((u "testB"), (VDict [((u "id"), (VLeaf (CV (SInt (3))))); ((u "testC"), (VLeaf (CV (SInt (4))))); ((u "subField"), (VList [[((u "testD"), (VLeaf (CV (SInt (5)))))]]))]))]] None = true.
Proof. vm_compute. reflexivity. Qed.
(* Nested sub sheet (without id) *)
Example unflatten_55 : check_unflatten (u "ocid")
  [{| si_name := (u "custom_main"); si_headings := None; si_lines := [[((SStr (u "ocid")), (SInt (1))); ((SStr (u "id")), (SInt (2))); ((SStr (u "testB/id")), (SInt (3))); ((SStr (u "testB/testC")), (SInt (4)))]] |}; {| si_name := (u "sub"); si_headings := None; si_lines := [[((SStr (u "ocid")), (SInt (1))); ((SStr (u "id")), (SInt (2))); ((SStr (u "testB/subField/0/testD")), (SInt (5)))]] |}]
  [[((u "ocid"), (VLeaf (CV (SInt (1))))); ((u "id"), (VLeaf (CV (SInt (2))))); ((u "testB"), (VDict [((u "id"), (VLeaf (CV (SInt (3))))); ((u "testC"), (VLeaf (CV (SInt (4))))); ((u "subField"), (VList [[((u "testD"), (VLeaf (CV (SInt (5)))))]]))]))]] None = true.
Proof. vm_compute. reflexivity. Qed.
(* Nested sub sheet (without id) *)
Example unflatten_56 : check_unflatten (u "custom")
  [{| si_name := (u "custom_main"); si_headings := None; si_lines := [[((SStr (u "custom")), (SInt (1))); ((SStr (u "id")), (SInt (2))); ((SStr (u "testB/id")), (SInt (3))); ((SStr (u "testB/testC")), (SInt (4)))]] |}; {| si_name := (u "sub"); si_headings := None; si_lines := [[((SStr (u "custom")), (SInt (1))); ((SStr (u "id")), (SInt (2))); ((SStr (u "testB/subField/0/testD")), (SInt (5)))]] |}]
  [[((u "custom"), (VLeaf (CV (SInt (1))))); ((u "id"), (VLeaf (CV (SInt (2))))); ((u "testB"), (VDict [((u "id"), (VLeaf (CV (SInt (3))))); ((u "testC"), (VLeaf (CV (SInt (4))))); ((u "subField"), (VList [[((u "testD"), (VLeaf (CV (SInt (5)))))]]))]))]] None = true.
Proof. vm_compute. reflexivity. Qed.
(* Nested sub sheet (without id) *)
Example unflatten_57 : check_unflatten (u "")
  [{| si_name := (u "custom_main"); si_headings := None; si_lines := [[((SStr (u "id")), (SInt (2))); ((SStr (u "testB/id")), (SInt (3))); ((SStr (u "testB/testC")), (SInt (4)))]] |}; {| si_name := (u "sub"); si_headings := None; si_lines := [[((SStr (u "id")), (SInt (2))); ((SStr (u "testB/subField/0/testD")), (SInt (5)))]] |}]
  [[((u "id"), (VLeaf (CV (SInt (2))))); ((u "testB"), (VDict [((u "id"), (VLeaf (CV (SInt (3))))); ((u "testC"), (VLeaf (CV (SInt (4))))); ((u "subField"), (VList [[((u "testD"), (VLeaf (CV (SInt (5)))))]]))]))]] None = true.
Proof. vm_compute. reflexivity. Qed.
(* Basic two sub sheets *)
Example unflatten_58 : check_unflatten (u "ocid")
  [{| si_name := (u "custom_main"); si_headings := None; si_lines := [[((SStr (u "ocid")), (SInt (1))); ((SStr (u "id")), (SInt (2)))]; [((SStr (u "ocid")), (SInt (1))); ((SStr (u "id")), (SInt (6)))]] |}; {| si_name := (u "sub1Field"); si_headings := None; si_lines := [[((SStr (u "ocid")), (SInt (1))); ((SStr (u "id")), (SInt (2))); ((SStr (u "sub1Field/0/id")), (SInt (3))); ((SStr (u "sub1Field/0/testA")), (SInt (4)))]] |}; {| si_name := (u "sub_sub2Field"); si_headings := None; si_lines := [[((SStr (u "ocid")), (SInt (1))); ((SStr (u "id")), (SInt (2))); ((SStr (u "sub1Field/0/id")), (SInt (3))); ((SStr (u "sub1Field/0/sub2Field/0/testB")), (SInt (5)))]] |}]
  [[((u "ocid"), (VLeaf (CV (SInt (1))))); ((u "id"), (VLeaf (CV (SInt (2))))); ((u "sub1Field"), (VList [[((u "id"), (VLeaf (CV (SInt (3))))); ((u "testA"), (VLeaf (CV (SInt (4))))); ((u "sub2Field"), (VList [[((u "testB"), (VLeaf (CV (SInt (5)))))]]))]]))]; [((u "ocid"), (VLeaf (CV (SInt (1))))); ((u "id"), (VLeaf (CV (SInt (6)))))]] None = true.
Proof. vm_compute. reflexivity. Qed.
(* Basic two sub sheets *)
Example unflatten_59 : check_unflatten (u "custom")
  [{| si_name := (u "custom_main"); si_headings := None; si_lines := [[((SStr (u "custom")), (SInt (1))); ((SStr (u "id")), (SInt (2)))]; [((SStr (u "custom")), (SInt (1))); ((SStr (u "id")), (SInt (6)))]] |}; {| si_name := (u "sub1Field"); si_headings := None; si_lines := [[((SStr (u "custom")), (SInt (1))); ((SStr (u "id")), (SInt (2))); ((SStr (u "sub1Field/0/id")), (SInt (3))); ((SStr (u "sub1Field/0/testA")), (SInt (4)))]] |}; {| si_name := (u "sub_sub2Field"); si_headings := None; si_lines := [[((SStr (u "custom")), (SInt (1))); ((SStr (u "id")), (SInt (2))); ((SStr (u "sub1Field/0/id")), (SInt (3))); ((SStr (u "sub1Field/0/sub2Field/0/testB")), (SInt (5)))]] |}]
  [[((u "custom"), (VLeaf (CV (SInt (1))))); ((u "id"), (VLeaf (CV (SInt (2))))); ((u "sub1Field"), (VList [[((u "id"), (VLeaf (CV (SInt (3))))); ((u "testA"), (VLeaf (CV (SInt (4))))); ((u "sub2Field"), (VList [[((u "testB"), (VLeaf (CV (SInt (5)))))]]))]]))]; [((u "custom"), (VLeaf (CV (SInt (1))))); ((u "id"), (VLeaf (CV (SInt (6)))))]] None = true.
Proof. vm_compute. reflexivity. Qed.
(* Basic two sub sheets *)
Example unflatten_60 : check_unflatten (u "")
  [{| si_name := (u "custom_main"); si_headings := None; si_lines := [[((SStr (u "id")), (SInt (2)))]; [((SStr (u "id")), (SInt (6)))]] |}; {| si_name := (u "sub1Field"); si_headings := None; si_lines := [[((SStr (u "id")), (SInt (2))); ((SStr (u "sub1Field/0/id")), (SInt (3))); ((SStr (u "sub1Field/0/testA")), (SInt (4)))]] |}; {| si_name := (u "sub_sub2Field"); si_headings := None; si_lines := [[((SStr (u "id")), (SInt (2))); ((SStr (u "sub1Field/0/id")), (SInt (3))); ((SStr (u "sub1Field/0/sub2Field/0/testB")), (SInt (5)))]] |}]
  [[((u "id"), (VLeaf (CV (SInt (2))))); ((u "sub1Field"), (VList [[((u "id"), (VLeaf (CV (SInt (3))))); ((u "testA"), (VLeaf (CV (SInt (4))))); ((u "sub2Field"), (VList [[((u "testB"), (VLeaf (CV (SInt (5)))))]]))]]))]; [((u "id"), (VLeaf (CV (SInt (6)))))]] None = true.
Proof. vm_compute. reflexivity. Qed.
(* Nested id *)
Example unflatten_61 : check_unflatten (u "ocid")
  [{| si_name := (u "custom_main"); si_headings := None; si_lines := [[((SStr (u "ocid")), (SInt (1))); ((SStr (u "id")), (SInt (2)))]] |}; {| si_name := (u "subField"); si_headings := None; si_lines := [[((SStr (u "ocid")), (SInt (1))); ((SStr (u "id")), (SInt (2))); ((SStr (u "subField/0/id")), (SInt (3))); ((SStr (u "subField/0/testA/id")), (SInt (4)))]] |}]
  [[((u "ocid"), (VLeaf (CV (SInt (1))))); ((u "id"), (VLeaf (CV (SInt (2))))); ((u "subField"), (VList [[((u "id"), (VLeaf (CV (SInt (3))))); ((u "testA"), (VDict [((u "id"), (VLeaf (CV (SInt (4)))))]))]]))]] None = true.
Proof. vm_compute. reflexivity. Qed.
(* Nested id *)
Example unflatten_62 : check_unflatten (u "custom")
  [{| si_name := (u "custom_main"); si_headings := None; si_lines := [[((SStr (u "custom")), (SInt (1))); ((SStr (u "id")), (SInt (2)))]] |}; {| si_name := (u "subField"); si_headings := None; si_lines := [[((SStr (u "custom")), (SInt (1))); ((SStr (u "id")), (SInt (2))); ((SStr (u "subField/0/id")), (SInt (3))); ((SStr (u "subField/0/testA/id")), (SInt (4)))]] |}]
  [[((u "custom"), (VLeaf (CV (SInt (1))))); ((u "id"), (VLeaf (CV (SInt (2))))); ((u "subField"), (VList [[((u "id"), (VLeaf (CV (SInt (3))))); ((u "testA"), (VDict [((u "id"), (VLeaf (CV (SInt (4)))))]))]]))]] None = true.
Proof. vm_compute. reflexivity. Qed.
(* Nested id *)
Example unflatten_63 : check_unflatten (u "")
  [{| si_name := (u "custom_main"); si_headings := None; si_lines := [[((SStr (u "id")), (SInt (2)))]] |}; {| si_name := (u "subField"); si_headings := None; si_lines := [[((SStr (u "id")), (SInt (2))); ((SStr (u "subField/0/id")), (SInt (3))); ((SStr (u "subField/0/testA/id")), (SInt (4)))]] |}]
  [[((u "id"), (VLeaf (CV (SInt (2))))); ((u "subField"), (VList [[((u "id"), (VLeaf (CV (SInt (3))))); ((u "testA"), (VDict [((u "id"), (VLeaf (CV (SInt (4)))))]))]]))]] None = true.
Proof. vm_compute. reflexivity. Qed.
(* Missing columns *)
Example unflatten_64 : check_unflatten (u "ocid")
  [{| si_name := (u "custom_main"); si_headings := None; si_lines := [[((SStr (u "ocid")), (SInt (1))); ((SStr (u "id")), (SInt (2)))]] |}; {| si_name := (u "sub"); si_headings := None; si_lines := [[((SStr (u "ocid")), (SInt (1))); ((SStr (u "id")), (SStr (u ""))); ((SStr (u "subField/0/id")), (SInt (3))); ((SStr (u "subField/0/testA")), (SInt (4)))]; [((SStr (u "ocid")), (SInt (1))); ((SStr (u "id")), (SInt (2))); ((SStr (u "subField/0/id")), (SInt (3))); ((SStr (u "subField/0/testA")), (SInt (5)))]] |}]
  [[((u "ocid"), (VLeaf (CV (SInt (1))))); ((u "id"), (VLeaf (CV (SInt (2))))); ((u "subField"), (VList [[((u "id"), (VLeaf (CV (SInt (3))))); ((u "testA"), (VLeaf (CV (SInt (5)))))]]))]; [((u "ocid"), (VLeaf (CV (SInt (1))))); ((u "subField"), (VList [[((u "id"), (VLeaf (CV (SInt (3))))); ((u "testA"), (VLeaf (CV (SInt (4)))))]]))]] None = true.
Proof. vm_compute. reflexivity. Qed.
(* Missing columns *)
Example unflatten_65 : check_unflatten (u "custom")
  [{| si_name := (u "custom_main"); si_headings := None; si_lines := [[((SStr (u "custom")), (SInt (1))); ((SStr (u "id")), (SInt (2)))]] |}; {| si_name := (u "sub"); si_headings := None; si_lines := [[((SStr (u "custom")), (SInt (1))); ((SStr (u "id")), (SStr (u ""))); ((SStr (u "subField/0/id")), (SInt (3))); ((SStr (u "subField/0/testA")), (SInt (4)))]; [((SStr (u "custom")), (SInt (1))); ((SStr (u "id")), (SInt (2))); ((SStr (u "subField/0/id")), (SInt (3))); ((SStr (u "subField/0/testA")), (SInt (5)))]] |}]
  [[((u "custom"), (VLeaf (CV (SInt (1))))); ((u "id"), (VLeaf (CV (SInt (2))))); ((u "subField"), (VList [[((u "id"), (VLeaf (CV (SInt (3))))); ((u "testA"), (VLeaf (CV (SInt (5)))))]]))]; [((u "custom"), (VLeaf (CV (SInt (1))))); ((u "subField"), (VList [[((u "id"), (VLeaf (CV (SInt (3))))); ((u "testA"), (VLeaf (CV (SInt (4)))))]]))]] None = true.
Proof. vm_compute. reflexivity. Qed.
(* Missing columns *)
Example unflatten_66 : check_unflatten (u "")
  [{| si_name := (u "custom_main"); si_headings := None; si_lines := [[((SStr (u "id")), (SInt (2)))]] |}; {| si_name := (u "sub"); si_headings := None; si_lines := [[((SStr (u "id")), (SStr (u ""))); ((SStr (u "subField/0/id")), (SInt (3))); ((SStr (u "subField/0/testA")), (SInt (4)))]; [((SStr (u "id")), (SInt (2))); ((SStr (u "subField/0/id")), (SInt (3))); ((SStr (u "subField/0/testA")), (SInt (5)))]] |}]
  [[((u "id"), (VLeaf (CV (SInt (2))))); ((u "subField"), (VList [[((u "id"), (VLeaf (CV (SInt (3))))); ((u "testA"), (VLeaf (CV (SInt (5)))))]]))]; [((u "subField"), (VList [[((u "id"), (VLeaf (CV (SInt (3))))); ((u "testA"), (VLeaf (CV (SInt (4)))))]]))]] None = true.
Proof. vm_compute. reflexivity. Qed.
(* Unmatched id *)
Example unflatten_67 : check_unflatten (u "ocid")
  [{| si_name := (u "custom_main"); si_headings := None; si_lines := [[((SStr (u "ocid")), (SInt (1))); ((SStr (u "id")), (SInt (2)))]] |}; {| si_name := (u "sub"); si_headings := None; si_lines := [[((SStr (u "ocid")), (SInt (1))); ((SStr (u "id")), (SInt (100))); ((SStr (u "subField/0/id")), (SInt (3))); ((SStr (u "subField/0/testA")), (SInt (4)))]; [((SStr (u "ocid")), (SInt (1))); ((SStr (u "id")), (SInt (2))); ((SStr (u "subField/0/id")), (SInt (3))); ((SStr (u "subField/0/testA")), (SInt (5)))]] |}]
  [[((u "ocid"), (VLeaf (CV (SInt (1))))); ((u "id"), (VLeaf (CV (SInt (2))))); ((u "subField"), (VList [[((u "id"), (VLeaf (CV (SInt (3))))); ((u "testA"), (VLeaf (CV (SInt (5)))))]]))]; [((u "ocid"), (VLeaf (CV (SInt (1))))); ((u "id"), (VLeaf (CV (SInt (100))))); ((u "subField"), (VList [[((u "id"), (VLeaf (CV (SInt (3))))); ((u "testA"), (VLeaf (CV (SInt (4)))))]]))]] None = true.
Proof. vm_compute. reflexivity. Qed.
(* Unmatched id *)
Example unflatten_68 : check_unflatten (u "custom")
  [{| si_name := (u "custom_main"); si_headings := None; si_lines := [[((SStr (u "custom")), (SInt (1))); ((SStr (u "id")), (SInt (2)))]] |}; {| si_name := (u "sub"); si_headings := None; si_lines := [[((SStr (u "custom")), (SInt (1))); ((SStr (u "id")), (SInt (100))); ((SStr (u "subField/0/id")), (SInt (3))); ((SStr (u "subField/0/testA")), (SInt (4)))]; [((SStr (u "custom")), (SInt (1))); ((SStr (u "id")), (SInt (2))); ((SStr (u "subField/0/id")), (SInt (3))); ((SStr (u "subField/0/testA")), (SInt (5)))]] |}]
  [[((u "custom"), (VLeaf (CV (SInt (1))))); ((u "id"), (VLeaf (CV (SInt (2))))); ((u "subField"), (VList [[((u "id"), (VLeaf (CV (SInt (3))))); ((u "testA"), (VLeaf (CV (SInt (5)))))]]))]; [((u "custom"), (VLeaf (CV (SInt (1))))); ((u "id"), (VLeaf (CV (SInt (100))))); ((u "subField"), (VList [[((u "id"), (VLeaf (CV (SInt (3))))); ((u "testA"), (VLeaf (CV (SInt (4)))))]]))]] None = true.
Proof. vm_compute. reflexivity. Qed.
(* Unmatched id *)
Example unflatten_69 : check_unflatten (u "")
  [{| si_name := (u "custom_main"); si_headings := None; si_lines := [[((SStr (u "id")), (SInt (2)))]] |}; {| si_name := (u "sub"); si_headings := None; si_lines := [[((SStr (u "id")), (SInt (100))); ((SStr (u "subField/0/id")), (SInt (3))); ((SStr (u "subField/0/testA")), (SInt (4)))]; [((SStr (u "id")), (SInt (2))); ((SStr (u "subField/0/id")), (SInt (3))); ((SStr (u "subField/0/testA")), (SInt (5)))]] |}]
  [[((u "id"), (VLeaf (CV (SInt (2))))); ((u "subField"), (VList [[((u "id"), (VLeaf (CV (SInt (3))))); ((u "testA"), (VLeaf (CV (SInt (5)))))]]))]; [((u "id"), (VLeaf (CV (SInt (100))))); ((u "subField"), (VList [[((u "id"), (VLeaf (CV (SInt (3))))); ((u "testA"), (VLeaf (CV (SInt (4)))))]]))]] None = true.
Proof. vm_compute. reflexivity. Qed.
(* Test same rollup *)
Example unflatten_70 : check_unflatten (u "ocid")
  [{| si_name := (u "main"); si_headings := None; si_lines := [[((SStr (u "ocid")), (SInt (1))); ((SStr (u "id")), (SInt (2))); ((SStr (u "testC")), (SInt (3))); ((SStr (u "testArr/0/id")), (SStr (u "4"))); ((SStr (u "testArr/0/testB")), (SStr (u "5")))]; [((SStr (u "ocid")), (SInt (6))); ((SStr (u "id")), (SInt (7))); ((SStr (u "testC")), (SInt (8))); ((SStr (u "testArr/0/testB")), (SStr (u "9")))]] |}; {| si_name := (u "testArr"); si_headings := None; si_lines := [[((SStr (u "ocid")), (SInt (1))); ((SStr (u "id")), (SInt (2))); ((SStr (u "testArr/0/id")), (SStr (u "4"))); ((SStr (u "testArr/0/testB")), (SStr (u "5")))]; [((SStr (u "ocid")), (SInt (6))); ((SStr (u "id")), (SInt (7))); ((SStr (u "testArr/0/testB")), (SStr (u "9")))]] |}]
  [[((u "ocid"), (VLeaf (CV (SInt (1))))); ((u "id"), (VLeaf (CV (SInt (2))))); ((u "testC"), (VLeaf (CV (SInt (3))))); ((u "testArr"), (VList [[((u "id"), (VLeaf (CV (SStr (u "4"))))); ((u "testB"), (VLeaf (CV (SStr (u "5")))))]]))]; [((u "ocid"), (VLeaf (CV (SInt (6))))); ((u "id"), (VLeaf (CV (SInt (7))))); ((u "testC"), (VLeaf (CV (SInt (8))))); ((u "testArr"), (VList [[((u "testB"), (VLeaf (CV (SStr (u "9")))))]; [((u "testB"), (VLeaf (CV (SStr (u "9")))))]]))]] None = true.
Proof. vm_compute. reflexivity. Qed.
(* Test same rollup *)
Example unflatten_71 : check_unflatten (u "custom")
  [{| si_name := (u "main"); si_headings := None; si_lines := [[((SStr (u "custom")), (SInt (1))); ((SStr (u "id")), (SInt (2))); ((SStr (u "testC")), (SInt (3))); ((SStr (u "testArr/0/id")), (SStr (u "4"))); ((SStr (u "testArr/0/testB")), (SStr (u "5")))]; [((SStr (u "custom")), (SInt (6))); ((SStr (u "id")), (SInt (7))); ((SStr (u "testC")), (SInt (8))); ((SStr (u "testArr/0/testB")), (SStr (u "9")))]] |}; {| si_name := (u "testArr"); si_headings := None; si_lines := [[((SStr (u "custom")), (SInt (1))); ((SStr (u "id")), (SInt (2))); ((SStr (u "testArr/0/id")), (SStr (u "4"))); ((SStr (u "testArr/0/testB")), (SStr (u "5")))]; [((SStr (u "custom")), (SInt (6))); ((SStr (u "id")), (SInt (7))); ((SStr (u "testArr/0/testB")), (SStr (u "9")))]] |}]
  [[((u "custom"), (VLeaf (CV (SInt (1))))); ((u "id"), (VLeaf (CV (SInt (2))))); ((u "testC"), (VLeaf (CV (SInt (3))))); ((u "testArr"), (VList [[((u "id"), (VLeaf (CV (SStr (u "4"))))); ((u "testB"), (VLeaf (CV (SStr (u "5")))))]]))]; [((u "custom"), (VLeaf (CV (SInt (6))))); ((u "id"), (VLeaf (CV (SInt (7))))); ((u "testC"), (VLeaf (CV (SInt (8))))); ((u "testArr"), (VList [[((u "testB"), (VLeaf (CV (SStr (u "9")))))]; [((u "testB"), (VLeaf (CV (SStr (u "9")))))]]))]] None = true.
Proof. vm_compute. reflexivity. Qed.
(* Test same rollup *)
Example unflatten_72 : check_unflatten (u "")
  [{| si_name := (u "main"); si_headings := None; si_lines := [[((SStr (u "id")), (SInt (2))); ((SStr (u "testC")), (SInt (3))); ((SStr (u "testArr/0/id")), (SStr (u "4"))); ((SStr (u "testArr/0/testB")), (SStr (u "5")))]; [((SStr (u "id")), (SInt (7))); ((SStr (u "testC")), (SInt (8))); ((SStr (u "testArr/0/testB")), (SStr (u "9")))]] |}; {| si_name := (u "testArr"); si_headings := None; si_lines := [[((SStr (u "id")), (SInt (2))); ((SStr (u "testArr/0/id")), (SStr (u "4"))); ((SStr (u "testArr/0/testB")), (SStr (u "5")))]; [((SStr (u "id")), (SInt (7))); ((SStr (u "testArr/0/testB")), (SStr (u "9")))]] |}]
  [[((u "id"), (VLeaf (CV (SInt (2))))); ((u "testC"), (VLeaf (CV (SInt (3))))); ((u "testArr"), (VList [[((u "id"), (VLeaf (CV (SStr (u "4"))))); ((u "testB"), (VLeaf (CV (SStr (u "5")))))]]))]; [((u "id"), (VLeaf (CV (SInt (7))))); ((u "testC"), (VLeaf (CV (SInt (8))))); ((u "testArr"), (VList [[((u "testB"), (VLeaf (CV (SStr (u "9")))))]; [((u "testB"), (VLeaf (CV (SStr (u "9")))))]]))]] None = true.
Proof. vm_compute. reflexivity. Qed.
(* Test conflicting rollup *)
Example unflatten_73 : check_unflatten (u "ocid")
  [{| si_name := (u "main"); si_headings := None; si_lines := [[((SStr (u "ocid")), (SInt (1))); ((SStr (u "id")), (SInt (2))); ((SStr (u "testArr/0/id")), (SStr (u "3"))); ((SStr (u "testArr/0/testB")), (SStr (u "4")))]] |}; {| si_name := (u "testArr"); si_headings := None; si_lines := [[((SStr (u "ocid")), (SInt (1))); ((SStr (u "id")), (SInt (2))); ((SStr (u "testArr/0/id")), (SStr (u "3"))); ((SStr (u "testArr/0/testB")), (SStr (u "5")))]] |}]
  [[((u "ocid"), (VLeaf (CV (SInt (1))))); ((u "id"), (VLeaf (CV (SInt (2))))); ((u "testArr"), (VList [[((u "id"), (VLeaf (CV (SStr (u "3"))))); ((u "testB"), (VLeaf (CV (SStr (u "4")))))]]))]] None = true.
Proof. vm_compute. reflexivity. Qed.
(* Test conflicting rollup *)
Example unflatten_74 : check_unflatten (u "custom")
  [{| si_name := (u "main"); si_headings := None; si_lines := [[((SStr (u "custom")), (SInt (1))); ((SStr (u "id")), (SInt (2))); ((SStr (u "testArr/0/id")), (SStr (u "3"))); ((SStr (u "testArr/0/testB")), (SStr (u "4")))]] |}; {| si_name := (u "testArr"); si_headings := None; si_lines := [[((SStr (u "custom")), (SInt (1))); ((SStr (u "id")), (SInt (2))); ((SStr (u "testArr/0/id")), (SStr (u "3"))); ((SStr (u "testArr/0/testB")), (SStr (u "5")))]] |}]
  [[((u "custom"), (VLeaf (CV (SInt (1))))); ((u "id"), (VLeaf (CV (SInt (2))))); ((u "testArr"), (VList [[((u "id"), (VLeaf (CV (SStr (u "3"))))); ((u "testB"), (VLeaf (CV (SStr (u "4")))))]]))]] None = true.
Proof. vm_compute. reflexivity. Qed.
(* Test conflicting rollup *)
Example unflatten_75 : check_unflatten (u "")
  [{| si_name := (u "main"); si_headings := None; si_lines := [[((SStr (u "id")), (SInt (2))); ((SStr (u "testArr/0/id")), (SStr (u "3"))); ((SStr (u "testArr/0/testB")), (SStr (u "4")))]] |}; {| si_name := (u "testArr"); si_headings := None; si_lines := [[((SStr (u "id")), (SInt (2))); ((SStr (u "testArr/0/id")), (SStr (u "3"))); ((SStr (u "testArr/0/testB")), (SStr (u "5")))]] |}]
  [[((u "id"), (VLeaf (CV (SInt (2))))); ((u "testArr"), (VList [[((u "id"), (VLeaf (CV (SStr (u "3"))))); ((u "testB"), (VLeaf (CV (SStr (u "4")))))]]))]] None = true.
Proof. vm_compute. reflexivity. Qed.
(* Unflatten empty *)
Example unflatten_76 : check_unflatten (u "ocid")
  [{| si_name := (u "custom_main"); si_headings := None; si_lines := [] |}; {| si_name := (u "subsheet"); si_headings := None; si_lines := [[((SStr (u "ocid")), (SStr (u ""))); ((SStr (u "id")), (SStr (u ""))); ((SStr (u "testA")), (SStr (u ""))); ((SStr (u "testB")), (SStr (u ""))); ((SStr (u "testC")), (SStr (u ""))); ((SStr (u "testD")), (SStr (u "")))]] |}]
  [] None = true.
Proof. vm_compute. reflexivity. Qed.
(* Unflatten empty *)
Example unflatten_77 : check_unflatten (u "custom")
  [{| si_name := (u "custom_main"); si_headings := None; si_lines := [] |}; {| si_name := (u "subsheet"); si_headings := None; si_lines := [[((SStr (u "custom")), (SStr (u ""))); ((SStr (u "id")), (SStr (u ""))); ((SStr (u "testA")), (SStr (u ""))); ((SStr (u "testB")), (SStr (u ""))); ((SStr (u "testC")), (SStr (u ""))); ((SStr (u "testD")), (SStr (u "")))]] |}]
  [] None = true.
Proof. vm_compute. reflexivity. Qed.
(* Unflatten empty *)
Example unflatten_78 : check_unflatten (u "")
  [{| si_name := (u "custom_main"); si_headings := None; si_lines := [] |}; {| si_name := (u "subsheet"); si_headings := None; si_lines := [[((SStr (u "id")), (SStr (u ""))); ((SStr (u "testA")), (SStr (u ""))); ((SStr (u "testB")), (SStr (u ""))); ((SStr (u "testC")), (SStr (u ""))); ((SStr (u "testD")), (SStr (u "")))]] |}]
  [] None = true.
Proof. vm_compute. reflexivity. Qed.
