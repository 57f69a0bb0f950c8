(** Generated by tools/gen_tests.py from the literals of
    /repo/flattentool/tests/test_json_input.py and
    test_json_input_is_unflatten_reversed.py (tests of the model's faithfulness,
    not proofs). *)
From Verif.Base Require Import PyStr PyNum PyVal PyDict Outcome.
From Verif.Model Require Import Flatten.
From Verif.Tests Require Import FlattenLib.
Open Scope Z_scope.

(* test_parse_basic_json_dict *)
Example flatten_1 : check_flatten (u "ocid")
  [(JO [((u "a"), (JS (SStr (u "b")))); ((u "c"), (JS (SStr (u "d"))))]); (JO [((u "a"), (JS (SStr (u "e")))); ((u "c"), (JS (SStr (u "f"))))])]
  (Some [(u "a"); (u "c")]) (Some [[((u "a"), (JS (SStr (u "b")))); ((u "c"), (JS (SStr (u "d"))))]; [((u "a"), (JS (SStr (u "e")))); ((u "c"), (JS (SStr (u "f"))))]])
  (Some [])
  [] = true.
Proof. vm_compute. reflexivity. Qed.
(* test_parse_not_json_dict *)
Example flatten_2 : check_flatten (u "ocid")
  [(JA [(JS (SStr (u "test")))]); (JO [((u "a"), (JS (SStr (u "b"))))]); (JS (SStr (u "test")))]
  (Some [(u "a")]) (Some [[((u "a"), (JS (SStr (u "b"))))]])
  (Some [])
  [] = true.
Proof. vm_compute. reflexivity. Qed.
(* test_parse_nested_dict_json_dict *)
Example flatten_3 : check_flatten (u "ocid")
  [(JO [((u "a"), (JS (SStr (u "b")))); ((u "c"), (JO [((u "d"), (JS (SStr (u "e"))))]))])]
  (Some [(u "a"); (u "c/d")]) (Some [[((u "a"), (JS (SStr (u "b")))); ((u "c/d"), (JS (SStr (u "e"))))]])
  (Some [])
  [] = true.
Proof. vm_compute. reflexivity. Qed.
(* test_parse_nested_list_json_dict *)
Example flatten_4 : check_flatten (u "ocid")
  [(JO [((u "a"), (JS (SStr (u "b")))); ((u "c"), (JA [(JO [((u "d"), (JS (SStr (u "e"))))])]))])]
  (Some [(u "a")]) (Some [[((u "a"), (JS (SStr (u "b"))))]])
  (Some [((u "c"), [(u "c/0/d")])])
  [((u "c"), [[((u "c/0/d"), (JS (SStr (u "e"))))]])] = true.
Proof. vm_compute. reflexivity. Qed.
(* test_parse_array *)
Example flatten_5 : check_flatten (u "ocid")
  [(JO [((u "testarray"), (JA [(JS (SStr (u "item"))); (JS (SStr (u "anotheritem"))); (JS (SInt (42)))]))])]
  (Some [(u "testarray")]) (Some [[((u "testarray"), (JS (SStr (u "item;anotheritem;42"))))]])
  (Some [])
  [] = true.
Proof. vm_compute. reflexivity. Qed.
(* test_parse_array_of_arrays *)
Example flatten_6 : check_flatten (u "ocid")
  [(JO [((u "testarray"), (JA [(JA [(JS (SStr (u "item"))); (JS (SStr (u "anotheritem"))); (JS (SInt (42)))]); (JA [(JS (SStr (u "a"))); (JS (SStr (u "b"))); (JS (SInt (1)))])]))])]
  (Some [(u "testarray")]) (Some [[((u "testarray"), (JS (SStr (u "item,anotheritem,42;a,b,1"))))]])
  (Some [])
  [] = true.
Proof. vm_compute. reflexivity. Qed.
(* test_root_list_path *)
Example flatten_7 : check_flatten (u "ocid")
  [(JO [((u "a"), (JS (SStr (u "b")))); ((u "c"), (JS (SStr (u "d"))))])]
  (Some [(u "a"); (u "c")]) (Some [[((u "a"), (JS (SStr (u "b")))); ((u "c"), (JS (SStr (u "d"))))]])
  (Some [])
  [] = true.
Proof. vm_compute. reflexivity. Qed.
(* test_parse_ids *)
Example flatten_8 : check_flatten (u "ocid")
  [(JO [((u "ocid"), (JS (SInt (1)))); ((u "id"), (JS (SInt (2)))); ((u "a"), (JS (SStr (u "b")))); ((u "c"), (JA [(JO [((u "id"), (JS (SInt (3)))); ((u "d"), (JS (SStr (u "e"))))]); (JO [((u "id"), (JS (SInt (3)))); ((u "d"), (JS (SStr (u "e2"))))])])); ((u "f"), (JO [((u "g"), (JS (SStr (u "h"))))]))])]
  (Some [(u "ocid"); (u "id"); (u "a"); (u "f/g")]) (Some [[((u "ocid"), (JS (SInt (1)))); ((u "id"), (JS (SInt (2)))); ((u "a"), (JS (SStr (u "b")))); ((u "f/g"), (JS (SStr (u "h"))))]])
  (Some [((u "c"), [(u "ocid"); (u "id"); (u "c/0/id"); (u "c/0/d")])])
  [((u "c"), [[((u "ocid"), (JS (SInt (1)))); ((u "id"), (JS (SInt (2)))); ((u "c/0/id"), (JS (SInt (3)))); ((u "c/0/d"), (JS (SStr (u "e"))))]; [((u "ocid"), (JS (SInt (1)))); ((u "id"), (JS (SInt (2)))); ((u "c/0/id"), (JS (SInt (3)))); ((u "c/0/d"), (JS (SStr (u "e2"))))]])] = true.
Proof. vm_compute. reflexivity. Qed.
(* test_parse_ids_subsheet *)
Example flatten_9 : check_flatten (u "ocid")
  [(JO [((u "ocid"), (JS (SInt (1)))); ((u "id"), (JS (SInt (2)))); ((u "testnest"), (JA [(JO [((u "id"), (JS (SInt (3)))); ((u "a"), (JS (SStr (u "b")))); ((u "c"), (JA [(JO [((u "d"), (JS (SStr (u "e"))))]); (JO [((u "d"), (JS (SStr (u "e2"))))])])); ((u "f"), (JO [((u "g"), (JS (SStr (u "h"))))]))])]))])]
  (Some [(u "ocid"); (u "id")]) (Some [[((u "ocid"), (JS (SInt (1)))); ((u "id"), (JS (SInt (2))))]])
  (Some [((u "testnest"), [(u "ocid"); (u "id"); (u "testnest/0/id"); (u "testnest/0/a"); (u "testnest/0/f/g")]); ((u "tes_c"), [(u "ocid"); (u "id"); (u "testnest/0/id"); (u "testnest/0/c/0/d")])])
  [((u "testnest"), [[((u "ocid"), (JS (SInt (1)))); ((u "id"), (JS (SInt (2)))); ((u "testnest/0/id"), (JS (SInt (3)))); ((u "testnest/0/a"), (JS (SStr (u "b")))); ((u "testnest/0/f/g"), (JS (SStr (u "h"))))]]); ((u "tes_c"), [[((u "ocid"), (JS (SInt (1)))); ((u "id"), (JS (SInt (2)))); ((u "testnest/0/id"), (JS (SInt (3)))); ((u "testnest/0/c/0/d"), (JS (SStr (u "e"))))]; [((u "ocid"), (JS (SInt (1)))); ((u "id"), (JS (SInt (2)))); ((u "testnest/0/id"), (JS (SInt (3)))); ((u "testnest/0/c/0/d"), (JS (SStr (u "e2"))))]])] = true.
Proof. vm_compute. reflexivity. Qed.
(* test_parse_ids_nested *)
Example flatten_10 : check_flatten (u "ocid")
  [(JO [((u "ocid"), (JS (SInt (1)))); ((u "id"), (JS (SInt (2)))); ((u "a"), (JS (SStr (u "b")))); ((u "testnest"), (JO [((u "id"), (JS (SInt (3)))); ((u "c"), (JA [(JO [((u "d"), (JS (SStr (u "e"))))]); (JO [((u "d"), (JS (SStr (u "e2"))))])]))])); ((u "f"), (JO [((u "g"), (JS (SStr (u "h"))))]))])]
  (Some [(u "ocid"); (u "id"); (u "a"); (u "testnest/id"); (u "f/g")]) (Some [[((u "ocid"), (JS (SInt (1)))); ((u "id"), (JS (SInt (2)))); ((u "a"), (JS (SStr (u "b")))); ((u "testnest/id"), (JS (SInt (3)))); ((u "f/g"), (JS (SStr (u "h"))))]])
  (Some [((u "tes_c"), [(u "ocid"); (u "id"); (u "testnest/id"); (u "testnest/c/0/d")])])
  [((u "tes_c"), [[((u "ocid"), (JS (SInt (1)))); ((u "id"), (JS (SInt (2)))); ((u "testnest/id"), (JS (SInt (3)))); ((u "testnest/c/0/d"), (JS (SStr (u "e"))))]; [((u "ocid"), (JS (SInt (1)))); ((u "id"), (JS (SInt (2)))); ((u "testnest/id"), (JS (SInt (3)))); ((u "testnest/c/0/d"), (JS (SStr (u "e2"))))]])] = true.
Proof. vm_compute. reflexivity. Qed.
(* test_parse_ids *)
Example flatten_11 : check_flatten (u "custom")
  [(JO [((u "custom"), (JS (SInt (1)))); ((u "id"), (JS (SInt (2)))); ((u "a"), (JS (SStr (u "b")))); ((u "c"), (JA [(JO [((u "id"), (JS (SInt (3)))); ((u "d"), (JS (SStr (u "e"))))]); (JO [((u "id"), (JS (SInt (3)))); ((u "d"), (JS (SStr (u "e2"))))])])); ((u "f"), (JO [((u "g"), (JS (SStr (u "h"))))]))])]
  (Some [(u "custom"); (u "id"); (u "a"); (u "f/g")]) (Some [[((u "custom"), (JS (SInt (1)))); ((u "id"), (JS (SInt (2)))); ((u "a"), (JS (SStr (u "b")))); ((u "f/g"), (JS (SStr (u "h"))))]])
  (Some [((u "c"), [(u "custom"); (u "id"); (u "c/0/id"); (u "c/0/d")])])
  [((u "c"), [[((u "custom"), (JS (SInt (1)))); ((u "id"), (JS (SInt (2)))); ((u "c/0/id"), (JS (SInt (3)))); ((u "c/0/d"), (JS (SStr (u "e"))))]; [((u "custom"), (JS (SInt (1)))); ((u "id"), (JS (SInt (2)))); ((u "c/0/id"), (JS (SInt (3)))); ((u "c/0/d"), (JS (SStr (u "e2"))))]])] = true.
Proof. vm_compute. reflexivity. Qed.
(* test_parse_ids_subsheet *)
Example flatten_12 : check_flatten (u "custom")
  [(JO [((u "custom"), (JS (SInt (1)))); ((u "id"), (JS (SInt (2)))); ((u "testnest"), (JA [(JO [((u "id"), (JS (SInt (3)))); ((u "a"), (JS (SStr (u "b")))); ((u "c"), (JA [(JO [((u "d"), (JS (SStr (u "e"))))]); (JO [((u "d"), (JS (SStr (u "e2"))))])])); ((u "f"), (JO [((u "g"), (JS (SStr (u "h"))))]))])]))])]
  (Some [(u "custom"); (u "id")]) (Some [[((u "custom"), (JS (SInt (1)))); ((u "id"), (JS (SInt (2))))]])
  (Some [((u "testnest"), [(u "custom"); (u "id"); (u "testnest/0/id"); (u "testnest/0/a"); (u "testnest/0/f/g")]); ((u "tes_c"), [(u "custom"); (u "id"); (u "testnest/0/id"); (u "testnest/0/c/0/d")])])
  [((u "testnest"), [[((u "custom"), (JS (SInt (1)))); ((u "id"), (JS (SInt (2)))); ((u "testnest/0/id"), (JS (SInt (3)))); ((u "testnest/0/a"), (JS (SStr (u "b")))); ((u "testnest/0/f/g"), (JS (SStr (u "h"))))]]); ((u "tes_c"), [[((u "custom"), (JS (SInt (1)))); ((u "id"), (JS (SInt (2)))); ((u "testnest/0/id"), (JS (SInt (3)))); ((u "testnest/0/c/0/d"), (JS (SStr (u "e"))))]; [((u "custom"), (JS (SInt (1)))); ((u "id"), (JS (SInt (2)))); ((u "testnest/0/id"), (JS (SInt (3)))); ((u "testnest/0/c/0/d"), (JS (SStr (u "e2"))))]])] = true.
Proof. vm_compute. reflexivity. Qed.
(* test_parse_ids_nested *)
Example flatten_13 : check_flatten (u "custom")
  [(JO [((u "custom"), (JS (SInt (1)))); ((u "id"), (JS (SInt (2)))); ((u "a"), (JS (SStr (u "b")))); ((u "testnest"), (JO [((u "id"), (JS (SInt (3)))); ((u "c"), (JA [(JO [((u "d"), (JS (SStr (u "e"))))]); (JO [((u "d"), (JS (SStr (u "e2"))))])]))])); ((u "f"), (JO [((u "g"), (JS (SStr (u "h"))))]))])]
  (Some [(u "custom"); (u "id"); (u "a"); (u "testnest/id"); (u "f/g")]) (Some [[((u "custom"), (JS (SInt (1)))); ((u "id"), (JS (SInt (2)))); ((u "a"), (JS (SStr (u "b")))); ((u "testnest/id"), (JS (SInt (3)))); ((u "f/g"), (JS (SStr (u "h"))))]])
  (Some [((u "tes_c"), [(u "custom"); (u "id"); (u "testnest/id"); (u "testnest/c/0/d")])])
  [((u "tes_c"), [[((u "custom"), (JS (SInt (1)))); ((u "id"), (JS (SInt (2)))); ((u "testnest/id"), (JS (SInt (3)))); ((u "testnest/c/0/d"), (JS (SStr (u "e"))))]; [((u "custom"), (JS (SInt (1)))); ((u "id"), (JS (SInt (2)))); ((u "testnest/id"), (JS (SInt (3)))); ((u "testnest/c/0/d"), (JS (SStr (u "e2"))))]])] = true.
Proof. vm_compute. reflexivity. Qed.
(* test_parse_ids *)
Example flatten_14 : check_flatten (u "")
  [(JO [((u "id"), (JS (SInt (2)))); ((u "a"), (JS (SStr (u "b")))); ((u "c"), (JA [(JO [((u "id"), (JS (SInt (3)))); ((u "d"), (JS (SStr (u "e"))))]); (JO [((u "id"), (JS (SInt (3)))); ((u "d"), (JS (SStr (u "e2"))))])])); ((u "f"), (JO [((u "g"), (JS (SStr (u "h"))))]))])]
  (Some [(u "id"); (u "a"); (u "f/g")]) (Some [[((u "id"), (JS (SInt (2)))); ((u "a"), (JS (SStr (u "b")))); ((u "f/g"), (JS (SStr (u "h"))))]])
  (Some [((u "c"), [(u "id"); (u "c/0/id"); (u "c/0/d")])])
  [((u "c"), [[((u "id"), (JS (SInt (2)))); ((u "c/0/id"), (JS (SInt (3)))); ((u "c/0/d"), (JS (SStr (u "e"))))]; [((u "id"), (JS (SInt (2)))); ((u "c/0/id"), (JS (SInt (3)))); ((u "c/0/d"), (JS (SStr (u "e2"))))]])] = true.
Proof. vm_compute. reflexivity. Qed.
(* test_parse_ids_subsheet *)
Example flatten_15 : check_flatten (u "")
  [(JO [((u "id"), (JS (SInt (2)))); ((u "testnest"), (JA [(JO [((u "id"), (JS (SInt (3)))); ((u "a"), (JS (SStr (u "b")))); ((u "c"), (JA [(JO [((u "d"), (JS (SStr (u "e"))))]); (JO [((u "d"), (JS (SStr (u "e2"))))])])); ((u "f"), (JO [((u "g"), (JS (SStr (u "h"))))]))])]))])]
  (Some [(u "id")]) (Some [[((u "id"), (JS (SInt (2))))]])
  (Some [((u "testnest"), [(u "id"); (u "testnest/0/id"); (u "testnest/0/a"); (u "testnest/0/f/g")]); ((u "tes_c"), [(u "id"); (u "testnest/0/id"); (u "testnest/0/c/0/d")])])
  [((u "testnest"), [[((u "id"), (JS (SInt (2)))); ((u "testnest/0/id"), (JS (SInt (3)))); ((u "testnest/0/a"), (JS (SStr (u "b")))); ((u "testnest/0/f/g"), (JS (SStr (u "h"))))]]); ((u "tes_c"), [[((u "id"), (JS (SInt (2)))); ((u "testnest/0/id"), (JS (SInt (3)))); ((u "testnest/0/c/0/d"), (JS (SStr (u "e"))))]; [((u "id"), (JS (SInt (2)))); ((u "testnest/0/id"), (JS (SInt (3)))); ((u "testnest/0/c/0/d"), (JS (SStr (u "e2"))))]])] = true.
Proof. vm_compute. reflexivity. Qed.
(* test_parse_ids_nested *)
Example flatten_16 : check_flatten (u "")
  [(JO [((u "id"), (JS (SInt (2)))); ((u "a"), (JS (SStr (u "b")))); ((u "testnest"), (JO [((u "id"), (JS (SInt (3)))); ((u "c"), (JA [(JO [((u "d"), (JS (SStr (u "e"))))]); (JO [((u "d"), (JS (SStr (u "e2"))))])]))])); ((u "f"), (JO [((u "g"), (JS (SStr (u "h"))))]))])]
  (Some [(u "id"); (u "a"); (u "testnest/id"); (u "f/g")]) (Some [[((u "id"), (JS (SInt (2)))); ((u "a"), (JS (SStr (u "b")))); ((u "testnest/id"), (JS (SInt (3)))); ((u "f/g"), (JS (SStr (u "h"))))]])
  (Some [((u "tes_c"), [(u "id"); (u "testnest/id"); (u "testnest/c/0/d")])])
  [((u "tes_c"), [[((u "id"), (JS (SInt (2)))); ((u "testnest/id"), (JS (SInt (3)))); ((u "testnest/c/0/d"), (JS (SStr (u "e"))))]; [((u "id"), (JS (SInt (2)))); ((u "testnest/id"), (JS (SInt (3)))); ((u "testnest/c/0/d"), (JS (SStr (u "e2"))))]])] = true.
Proof. vm_compute. reflexivity. Qed.
(* Basic flat *)
Example flatten_17 : check_flatten (u "ocid")
  [(JO [((u "ocid"), (JS (SStr (u "1")))); ((u "id"), (JS (SInt (2)))); ((u "testA"), (JS (SInt (3))))])]
  None (Some [[((u "ocid"), (JS (SStr (u "1")))); ((u "id"), (JS (SInt (2)))); ((u "testA"), (JS (SInt (3))))]])
  None
  [] = true.
Proof. vm_compute. reflexivity. Qed.
(* Basic flat *)
Example flatten_18 : check_flatten (u "")
  [(JO [((u "id"), (JS (SInt (2)))); ((u "testA"), (JS (SInt (3))))])]
  None (Some [[((u "id"), (JS (SInt (2)))); ((u "testA"), (JS (SInt (3))))]])
  None
  [] = true.
Proof. vm_compute. reflexivity. Qed.
(* Basic with float *)
Example flatten_19 : check_flatten (u "ocid")
  [(JO [((u "ocid"), (JS (SStr (u "1")))); ((u "id"), (JS (SInt (2)))); ((u "testA"), (JS (SInt (3))))])]
  None (Some [[((u "ocid"), (JS (SStr (u "1")))); ((u "id"), (JS (SInt (2)))); ((u "testA"), (JS (SDec (DFin false 30%N (-1)))))]])
  None
  [] = true.
Proof. vm_compute. reflexivity. Qed.
(* Basic with float *)
Example flatten_20 : check_flatten (u "")
  [(JO [((u "id"), (JS (SInt (2)))); ((u "testA"), (JS (SInt (3))))])]
  None (Some [[((u "id"), (JS (SInt (2)))); ((u "testA"), (JS (SDec (DFin false 30%N (-1)))))]])
  None
  [] = true.
Proof. vm_compute. reflexivity. Qed.
(* Basic with zero *)
Example flatten_21 : check_flatten (u "ocid")
  [(JO [((u "ocid"), (JS (SStr (u "1")))); ((u "id"), (JS (SInt (2)))); ((u "testA"), (JS (SInt (0))))])]
  None (Some [[((u "ocid"), (JS (SStr (u "1")))); ((u "id"), (JS (SInt (2)))); ((u "testA"), (JS (SInt (0))))]])
  None
  [] = true.
Proof. vm_compute. reflexivity. Qed.
(* Basic with zero *)
Example flatten_22 : check_flatten (u "")
  [(JO [((u "id"), (JS (SInt (2)))); ((u "testA"), (JS (SInt (0))))])]
  None (Some [[((u "id"), (JS (SInt (2)))); ((u "testA"), (JS (SInt (0))))]])
  None
  [] = true.
Proof. vm_compute. reflexivity. Qed.
(* Nested *)
Example flatten_23 : check_flatten (u "ocid")
  [(JO [((u "ocid"), (JS (SStr (u "1")))); ((u "id"), (JS (SInt (2)))); ((u "testO"), (JO [((u "testB"), (JS (SInt (3)))); ((u "testC"), (JS (SInt (4))))]))])]
  None (Some [[((u "ocid"), (JS (SStr (u "1")))); ((u "id"), (JS (SInt (2)))); ((u "testO/testB"), (JS (SInt (3)))); ((u "testO/testC"), (JS (SInt (4))))]])
  None
  [] = true.
Proof. vm_compute. reflexivity. Qed.
(* Nested *)
Example flatten_24 : check_flatten (u "")
  [(JO [((u "id"), (JS (SInt (2)))); ((u "testO"), (JO [((u "testB"), (JS (SInt (3)))); ((u "testC"), (JS (SInt (4))))]))])]
  None (Some [[((u "id"), (JS (SInt (2)))); ((u "testO/testB"), (JS (SInt (3)))); ((u "testO/testC"), (JS (SInt (4))))]])
  None
  [] = true.
Proof. vm_compute. reflexivity. Qed.
(* Unicode *)
Example flatten_25 : check_flatten (u "ocid")
  [(JO [((u "ocid"), (JS (SStr [233; 945; 1043; 128572; 119966; 20154]%N))); ((u "testU"), (JS (SStr [233; 945; 1043; 128572; 119966; 20154]%N)))])]
  None (Some [[((u "ocid"), (JS (SStr [233; 945; 1043; 128572; 119966; 20154]%N))); ((u "testU"), (JS (SStr [233; 945; 1043; 128572; 119966; 20154]%N)))]])
  None
  [] = true.
Proof. vm_compute. reflexivity. Qed.
(* Unicode *)
Example flatten_26 : check_flatten (u "")
  [(JO [((u "testU"), (JS (SStr [233; 945; 1043; 128572; 119966; 20154]%N)))])]
  None (Some [[((u "testU"), (JS (SStr [233; 945; 1043; 128572; 119966; 20154]%N)))]])
  None
  [] = true.
Proof. vm_compute. reflexivity. Qed.
(* Basic sub sheet *)
Example flatten_27 : check_flatten (u "ocid")
  [(JO [((u "ocid"), (JS (SInt (1)))); ((u "id"), (JS (SInt (2)))); ((u "testArr"), (JA [(JO [((u "testC"), (JS (SStr (u "3"))))]); (JO [((u "testC"), (JS (SStr (u "4"))))])]))]); (JO [((u "ocid"), (JS (SInt (1)))); ((u "id"), (JS (SInt (3))))])]
  None (Some [[((u "ocid"), (JS (SInt (1)))); ((u "id"), (JS (SInt (2))))]; [((u "ocid"), (JS (SInt (1)))); ((u "id"), (JS (SInt (3))))]])
  None
  [((u "testArr"), [[((u "ocid"), (JS (SInt (1)))); ((u "id"), (JS (SInt (2)))); ((u "testArr/0/testC"), (JS (SStr (u "3"))))]; [((u "ocid"), (JS (SInt (1)))); ((u "id"), (JS (SInt (2)))); ((u "testArr/0/testC"), (JS (SStr (u "4"))))]])] = true.
Proof. vm_compute. reflexivity. Qed.
(* Basic sub sheet *)
Example flatten_28 : check_flatten (u "custom")
  [(JO [((u "custom"), (JS (SInt (1)))); ((u "id"), (JS (SInt (2)))); ((u "testArr"), (JA [(JO [((u "testC"), (JS (SStr (u "3"))))]); (JO [((u "testC"), (JS (SStr (u "4"))))])]))]); (JO [((u "custom"), (JS (SInt (1)))); ((u "id"), (JS (SInt (3))))])]
  None (Some [[((u "custom"), (JS (SInt (1)))); ((u "id"), (JS (SInt (2))))]; [((u "custom"), (JS (SInt (1)))); ((u "id"), (JS (SInt (3))))]])
  None
  [((u "testArr"), [[((u "custom"), (JS (SInt (1)))); ((u "id"), (JS (SInt (2)))); ((u "testArr/0/testC"), (JS (SStr (u "3"))))]; [((u "custom"), (JS (SInt (1)))); ((u "id"), (JS (SInt (2)))); ((u "testArr/0/testC"), (JS (SStr (u "4"))))]])] = true.
Proof. vm_compute. reflexivity. Qed.
(* Basic sub sheet *)
Example flatten_29 : check_flatten (u "")
  [(JO [((u "id"), (JS (SInt (2)))); ((u "testArr"), (JA [(JO [((u "testC"), (JS (SStr (u "3"))))]); (JO [((u "testC"), (JS (SStr (u "4"))))])]))]); (JO [((u "id"), (JS (SInt (3))))])]
  None (Some [[((u "id"), (JS (SInt (2))))]; [((u "id"), (JS (SInt (3))))]])
  None
  [((u "testArr"), [[((u "id"), (JS (SInt (2)))); ((u "testArr/0/testC"), (JS (SStr (u "3"))))]; [((u "id"), (JS (SInt (2)))); ((u "testArr/0/testC"), (JS (SStr (u "4"))))]])] = true.
Proof. vm_compute. reflexivity. Qed.
(* Nested sub sheet (with id) *)
Example flatten_30 : check_flatten (u "ocid")
  [(JO [((u "ocid"), (JS (SInt (1)))); ((u "id"), (JS (SInt (2)))); ((u "testB"), (JO [((u "id"), (JS (SInt (3)))); ((u "testC"), (JS (SInt (4)))); ((u "subField"), (JA [(JO [((u "testD"), (JS (SInt (5))))])]))]))])]
  None (Some [[((u "ocid"), (JS (SInt (1)))); ((u "id"), (JS (SInt (2)))); ((u "testB/id"), (JS (SInt (3)))); ((u "testB/testC"), (JS (SInt (4))))]])
  None
  [((u "tes_subField"), [[((u "ocid"), (JS (SInt (1)))); ((u "id"), (JS (SInt (2)))); ((u "testB/id"), (JS (SInt (3)))); ((u "testB/subField/0/testD"), (JS (SInt (5))))]])] = true.
Proof. vm_compute. reflexivity. Qed.
(* Nested sub sheet (with id) *)
Example flatten_31 : check_flatten (u "custom")
  [(JO [((u "custom"), (JS (SInt (1)))); ((u "id"), (JS (SInt (2)))); ((u "testB"), (JO [((u "id"), (JS (SInt (3)))); ((u "testC"), (JS (SInt (4)))); ((u "subField"), (JA [(JO [((u "testD"), (JS (SInt (5))))])]))]))])]
  None (Some [[((u "custom"), (JS (SInt (1)))); ((u "id"), (JS (SInt (2)))); ((u "testB/id"), (JS (SInt (3)))); ((u "testB/testC"), (JS (SInt (4))))]])
  None
  [((u "tes_subField"), [[((u "custom"), (JS (SInt (1)))); ((u "id"), (JS (SInt (2)))); ((u "testB/id"), (JS (SInt (3)))); ((u "testB/subField/0/testD"), (JS (SInt (5))))]])] = true.
Proof. vm_compute. reflexivity. Qed.
(* Nested sub sheet (with id) *)
Example flatten_32 : check_flatten (u "")
  [(JO [((u "id"), (JS (SInt (2)))); ((u "testB"), (JO [((u "id"), (JS (SInt (3)))); ((u "testC"), (JS (SInt (4)))); ((u "subField"), (JA [(JO [((u "testD"), (JS (SInt (5))))])]))]))])]
  None (Some [[((u "id"), (JS (SInt (2)))); ((u "testB/id"), (JS (SInt (3)))); ((u "testB/testC"), (JS (SInt (4))))]])
  None
  [((u "tes_subField"), [[((u "id"), (JS (SInt (2)))); ((u "testB/id"), (JS (SInt (3)))); ((u "testB/subField/0/testD"), (JS (SInt (5))))]])] = true.
Proof. vm_compute. reflexivity. Qed.
(* Basic two sub sheets *)
Example flatten_33 : check_flatten (u "ocid")
  [(JO [((u "ocid"), (JS (SInt (1)))); ((u "id"), (JS (SInt (2)))); ((u "sub1Field"), (JA [(JO [((u "id"), (JS (SInt (3)))); ((u "testA"), (JS (SInt (4)))); ((u "sub2Field"), (JA [(JO [((u "testB"), (JS (SInt (5))))])]))])]))]); (JO [((u "ocid"), (JS (SInt (1)))); ((u "id"), (JS (SInt (6))))])]
  None (Some [[((u "ocid"), (JS (SInt (1)))); ((u "id"), (JS (SInt (2))))]; [((u "ocid"), (JS (SInt (1)))); ((u "id"), (JS (SInt (6))))]])
  None
  [((u "sub1Field"), [[((u "ocid"), (JS (SInt (1)))); ((u "id"), (JS (SInt (2)))); ((u "sub1Field/0/id"), (JS (SInt (3)))); ((u "sub1Field/0/testA"), (JS (SInt (4))))]]); ((u "sub_sub2Field"), [[((u "ocid"), (JS (SInt (1)))); ((u "id"), (JS (SInt (2)))); ((u "sub1Field/0/id"), (JS (SInt (3)))); ((u "sub1Field/0/sub2Field/0/testB"), (JS (SInt (5))))]])] = true.
Proof. vm_compute. reflexivity. Qed.
(* Basic two sub sheets *)
Example flatten_34 : check_flatten (u "custom")
  [(JO [((u "custom"), (JS (SInt (1)))); ((u "id"), (JS (SInt (2)))); ((u "sub1Field"), (JA [(JO [((u "id"), (JS (SInt (3)))); ((u "testA"), (JS (SInt (4)))); ((u "sub2Field"), (JA [(JO [((u "testB"), (JS (SInt (5))))])]))])]))]); (JO [((u "custom"), (JS (SInt (1)))); ((u "id"), (JS (SInt (6))))])]
  None (Some [[((u "custom"), (JS (SInt (1)))); ((u "id"), (JS (SInt (2))))]; [((u "custom"), (JS (SInt (1)))); ((u "id"), (JS (SInt (6))))]])
  None
  [((u "sub1Field"), [[((u "custom"), (JS (SInt (1)))); ((u "id"), (JS (SInt (2)))); ((u "sub1Field/0/id"), (JS (SInt (3)))); ((u "sub1Field/0/testA"), (JS (SInt (4))))]]); ((u "sub_sub2Field"), [[((u "custom"), (JS (SInt (1)))); ((u "id"), (JS (SInt (2)))); ((u "sub1Field/0/id"), (JS (SInt (3)))); ((u "sub1Field/0/sub2Field/0/testB"), (JS (SInt (5))))]])] = true.
Proof. vm_compute. reflexivity. Qed.
(* Basic two sub sheets *)
Example flatten_35 : check_flatten (u "")
  [(JO [((u "id"), (JS (SInt (2)))); ((u "sub1Field"), (JA [(JO [((u "id"), (JS (SInt (3)))); ((u "testA"), (JS (SInt (4)))); ((u "sub2Field"), (JA [(JO [((u "testB"), (JS (SInt (5))))])]))])]))]); (JO [((u "id"), (JS (SInt (6))))])]
  None (Some [[((u "id"), (JS (SInt (2))))]; [((u "id"), (JS (SInt (6))))]])
  None
  [((u "sub1Field"), [[((u "id"), (JS (SInt (2)))); ((u "sub1Field/0/id"), (JS (SInt (3)))); ((u "sub1Field/0/testA"), (JS (SInt (4))))]]); ((u "sub_sub2Field"), [[((u "id"), (JS (SInt (2)))); ((u "sub1Field/0/id"), (JS (SInt (3)))); ((u "sub1Field/0/sub2Field/0/testB"), (JS (SInt (5))))]])] = true.
Proof. vm_compute. reflexivity. Qed.
(* Nested id *)
Example flatten_36 : check_flatten (u "ocid")
  [(JO [((u "ocid"), (JS (SInt (1)))); ((u "id"), (JS (SInt (2)))); ((u "subField"), (JA [(JO [((u "id"), (JS (SInt (3)))); ((u "testA"), (JO [((u "id"), (JS (SInt (4))))]))])]))])]
  None (Some [[((u "ocid"), (JS (SInt (1)))); ((u "id"), (JS (SInt (2))))]])
  None
  [((u "subField"), [[((u "ocid"), (JS (SInt (1)))); ((u "id"), (JS (SInt (2)))); ((u "subField/0/id"), (JS (SInt (3)))); ((u "subField/0/testA/id"), (JS (SInt (4))))]])] = true.
Proof. vm_compute. reflexivity. Qed.
(* Nested id *)
Example flatten_37 : check_flatten (u "custom")
  [(JO [((u "custom"), (JS (SInt (1)))); ((u "id"), (JS (SInt (2)))); ((u "subField"), (JA [(JO [((u "id"), (JS (SInt (3)))); ((u "testA"), (JO [((u "id"), (JS (SInt (4))))]))])]))])]
  None (Some [[((u "custom"), (JS (SInt (1)))); ((u "id"), (JS (SInt (2))))]])
  None
  [((u "subField"), [[((u "custom"), (JS (SInt (1)))); ((u "id"), (JS (SInt (2)))); ((u "subField/0/id"), (JS (SInt (3)))); ((u "subField/0/testA/id"), (JS (SInt (4))))]])] = true.
Proof. vm_compute. reflexivity. Qed.
(* Nested id *)
Example flatten_38 : check_flatten (u "")
  [(JO [((u "id"), (JS (SInt (2)))); ((u "subField"), (JA [(JO [((u "id"), (JS (SInt (3)))); ((u "testA"), (JO [((u "id"), (JS (SInt (4))))]))])]))])]
  None (Some [[((u "id"), (JS (SInt (2))))]])
  None
  [((u "subField"), [[((u "id"), (JS (SInt (2)))); ((u "subField/0/id"), (JS (SInt (3)))); ((u "subField/0/testA/id"), (JS (SInt (4))))]])] = true.
Proof. vm_compute. reflexivity. Qed.
