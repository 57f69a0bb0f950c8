(** Generated by tools/jsontests.py: json.loads and json.dumps of CPython. *)
From Verif.Base Require Import PyStr PyNum PyVal PyDict.
From Verif.Model Require Import Flatten JsonText.
From Verif.Tests Require Import TestLib.
Local Open Scope N_scope.

Definition texts : list (str * option jval) := [
  ([], None);
  ([32], None);
  ([110; 117; 108; 108], Some (VNull));
  ([32; 110; 117; 108; 108; 32], Some (VNull));
  ([110; 117; 108], None);
  ([110; 117; 108; 108; 120], None);
  ([116; 114; 117; 101], Some (VBool true));
  ([102; 97; 108; 115; 101], Some (VBool false));
  ([78; 97; 78], Some (VOdd [78; 97; 78]));
  ([73; 110; 102; 105; 110; 105; 116; 121], Some (VOdd [73; 110; 102; 105; 110; 105; 116; 121]));
  ([45; 73; 110; 102; 105; 110; 105; 116; 121], Some (VOdd [45; 73; 110; 102; 105; 110; 105; 116; 121]));
  ([45; 73; 110; 102; 105; 110; 105; 116], None);
  ([84; 82; 85; 69], None);
  ([48], Some (VInt (0)%Z));
  ([45; 48], Some (VInt (0)%Z));
  ([48; 48], None);
  ([48; 49], None);
  ([45], None);
  ([43; 49], None);
  ([49], Some (VInt (1)%Z));
  ([45; 49; 50], Some (VInt (-12)%Z));
  ([49; 46], None);
  ([46; 53], None);
  ([48; 46; 53], Some (VReal false 5 (-1)%Z));
  ([45; 48; 46; 53; 48], Some (VReal true 50 (-2)%Z));
  ([49; 101; 53], Some (VReal false 1 (5)%Z));
  ([49; 69; 43; 53], Some (VReal false 1 (5)%Z));
  ([49; 101; 45; 48; 53], Some (VReal false 1 (-5)%Z));
  ([49; 46; 53; 101], None);
  ([49; 46; 53; 101; 43], None);
  ([49; 46; 50; 53; 69; 45; 50], Some (VReal false 125 (-4)%Z));
  ([49; 50; 51; 52; 53; 54; 55; 56; 57; 48; 49; 50; 51; 52; 53; 54; 55; 56; 57; 48], Some (VInt (12345678901234567890)%Z));
  ([49; 32; 50], None);
  ([49; 11], None);
  ([9; 49; 13; 10], Some (VInt (1)%Z));
  ([65279; 49], None);
  ([34; 34], Some (VStr []));
  ([34; 97; 34], Some (VStr [97]));
  ([34; 97], None);
  ([34; 92; 34], None);
  ([34; 92; 34; 34], Some (VStr [34]));
  ([34; 92; 117; 48; 48; 52; 49; 34], Some (VStr [65]));
  ([34; 92; 117; 48; 48; 101; 57; 34], Some (VStr [233]));
  ([34; 92; 117; 49; 50; 34], None);
  ([34; 92; 117; 68; 56; 51; 68; 92; 117; 68; 69; 48; 48; 34], Some (VStr [128512]));
  ([34; 92; 117; 100; 56; 51; 100; 92; 117; 100; 101; 48; 48; 34], Some (VStr [128512]));
  ([34; 92; 117; 100; 56; 51; 100; 34], Some (VStr [55357]));
  ([34; 92; 117; 100; 56; 51; 100; 120; 34], Some (VStr [55357; 120]));
  ([34; 92; 117; 100; 56; 51; 100; 92; 117; 48; 48; 52; 49; 34], Some (VStr [55357; 65]));
  ([34; 92; 117; 100; 101; 48; 48; 92; 117; 100; 56; 51; 100; 34], Some (VStr [56832; 55357]));
  ([34; 92; 117; 100; 56; 51; 100; 92; 117; 100; 56; 51; 100; 92; 117; 100; 101; 48; 48; 34], Some (VStr [55357; 128512]));
  ([34; 92; 117; 100; 56; 51; 100; 92; 110; 34], Some (VStr [55357; 10]));
  ([34; 92; 120; 52; 49; 34], None);
  ([34; 92; 47; 92; 98; 92; 102; 92; 110; 92; 114; 92; 116; 92; 92; 34], Some (VStr [47; 8; 12; 10; 13; 9; 92]));
  ([34; 9; 34], None);
  ([34; 10; 34], None);
  ([34; 127; 34], Some (VStr [127]));
  ([34; 8232; 34], Some (VStr [8232]));
  ([39; 97; 39], None);
  ([91; 93], Some (VArr []));
  ([91; 32; 93], Some (VArr []));
  ([91; 49; 93], Some (VArr [VInt (1)%Z]));
  ([91; 49; 44; 93], None);
  ([91; 44; 49; 93], None);
  ([91; 49; 32; 44; 50; 32; 44; 32; 51; 93], Some (VArr [VInt (1)%Z; VInt (2)%Z; VInt (3)%Z]));
  ([91; 49; 32; 50; 93], None);
  ([91; 91; 93; 44; 91; 91; 93; 93; 93], Some (VArr [VArr []; VArr [VArr []]]));
  ([91], None);
  ([93], None);
  ([91; 49], None);
  ([123; 125], Some (VObj []));
  ([123; 32; 125], Some (VObj []));
  ([123; 34; 97; 34; 58; 49; 125], Some (VObj [([97], VInt (1)%Z)]));
  ([123; 34; 97; 34; 32; 58; 32; 49; 32; 44; 32; 34; 98; 34; 58; 91; 123; 125; 93; 125], Some (VObj [([97], VInt (1)%Z); ([98], VArr [VObj []])]));
  ([123; 34; 97; 34; 58; 49; 44; 125], None);
  ([123; 97; 58; 49; 125], None);
  ([123; 34; 97; 34; 125], None);
  ([123; 34; 97; 34; 58; 125], None);
  ([123; 34; 97; 34; 58; 49; 44; 34; 97; 34; 58; 50; 125], Some (VObj [([97], VInt (2)%Z)]));
  ([123; 34; 97; 34; 58; 49; 44; 34; 98; 34; 58; 50; 44; 34; 97; 34; 58; 123; 34; 120; 34; 58; 49; 44; 34; 120; 34; 58; 50; 125; 125], Some (VObj [([97], VObj [([120], VInt (2)%Z)]); ([98], VInt (2)%Z)]));
  ([123; 34; 97; 34; 58; 49], None);
  ([123; 34; 97; 34; 32; 49; 125], None);
  ([123; 49; 58; 50; 125], None);
  ([123; 125; 123; 125], None);
  ([91; 78; 97; 78; 44; 45; 73; 110; 102; 105; 110; 105; 116; 121; 93], Some (VArr [VOdd [78; 97; 78]; VOdd [45; 73; 110; 102; 105; 110; 105; 116; 121]]));
  ([34; 92; 117; 100; 56; 51; 100; 92; 117; 122; 122; 122; 122; 34], None);
  ([34; 92; 117; 100; 56; 51; 100; 92; 117; 34], None);
  ([91; 49; 93; 93], None);
  ([45; 97], None);
  ([49; 46; 101; 53], None);
  ([49; 101; 53; 46; 53], None);
  ([73; 110; 102], None);
  ([123; 34; 97; 34; 58; 49; 32; 34; 98; 34; 58; 50; 125], None);
  ([34; 97; 34; 34; 98; 34], None);
  ([47; 42; 42; 47; 49], None);
  ([78; 97; 93], None);
  ([123; 10; 32; 34; 92; 117; 48; 48; 49; 102; 92; 117; 48; 48; 49; 102; 92; 117; 100; 56; 48; 48; 92; 117; 48; 48; 49; 102; 92; 117; 100; 99; 48; 48; 34; 58; 32; 45; 73; 110; 102; 105; 110; 105; 116; 121; 10; 125], Some (VObj [([31; 31; 55296; 31; 56320], VOdd [45; 73; 110; 102; 105; 110; 105; 116; 121])]));
  ([91; 10; 32; 32; 32; 32; 123; 10; 32; 32; 32; 32; 32; 32; 32; 32; 34; 128512; 32; 32; 47; 34; 58; 32; 91; 10; 32; 32; 32; 32; 32; 32; 32; 32; 32; 32; 32; 32; 91; 10; 32; 32; 32; 32; 32; 32; 32; 32; 32; 32; 32; 32; 32; 32; 32; 32; 102; 97; 108; 115; 101; 44; 10; 32; 32; 32; 32; 32; 32; 32; 32; 32; 32; 32; 32; 32; 32; 32; 32; 73; 110; 102; 105; 110; 105; 116; 121; 10; 32; 32; 32; 32; 32; 32; 32; 32; 32; 32; 32; 32; 93; 44; 10; 32; 32; 32; 32; 32; 32; 32; 32; 32; 32; 32; 32; 102; 97; 108; 115; 101; 44; 10; 32; 32; 32; 32; 32; 32; 32; 32; 32; 32; 32; 32; 91; 10; 32; 32; 32; 32; 32; 32; 32; 32; 32; 32; 32; 32; 32; 32; 32; 32; 34; 92; 102; 47; 34; 44; 10; 32; 32; 32; 32; 32; 32; 32; 32; 32; 32; 32; 32; 32; 32; 32; 32; 48; 10; 32; 32; 32; 32; 32; 32; 32; 32; 32; 32; 32; 32; 93; 10; 32; 32; 32; 32; 32; 32; 32; 32; 93; 10; 32; 32; 32; 32; 125; 10; 93], Some (VArr [VObj [([128512; 32; 32; 47], VArr [VArr [VBool false; VOdd [73; 110; 102; 105; 110; 105; 116; 121]]; VBool false; VArr [VStr [12; 47]; VInt (0)%Z]])]]));
  ([91; 10; 32; 32; 32; 32; 45; 49; 44; 10; 32; 32; 32; 32; 91; 10; 32; 32; 32; 32; 32; 32; 32; 32; 102; 97; 108; 46; 101; 10; 32; 32; 32; 32; 93; 10; 93], None);
  ([123; 10; 32; 32; 32; 32; 34; 92; 114; 92; 117; 100; 56; 48; 48; 92; 102; 47; 92; 92; 34; 58; 32; 91; 10; 32; 32; 32; 32; 32; 32; 32; 32; 91; 10; 32; 32; 32; 32; 32; 32; 32; 32; 32; 32; 32; 32; 123; 10; 32; 32; 32; 32; 32; 32; 32; 32; 32; 32; 32; 32; 32; 32; 32; 32; 34; 92; 98; 98; 92; 114; 34; 58; 32; 45; 73; 110; 102; 105; 110; 105; 116; 121; 44; 10; 32; 32; 32; 32; 32; 32; 32; 32; 32; 32; 32; 32; 32; 32; 32; 32; 34; 92; 34; 34; 58; 32; 45; 73; 110; 102; 105; 110; 105; 116; 121; 44; 10; 32; 32; 32; 32; 32; 32; 32; 32; 32; 32; 32; 32; 32; 32; 32; 32; 34; 34; 58; 32; 116; 114; 117; 101; 10; 32; 32; 32; 32; 32; 32; 32; 32; 32; 32; 32; 32; 125; 10; 32; 32; 32; 32; 32; 32; 32; 32; 93; 44; 10; 32; 32; 32; 32; 32; 32; 32; 32; 45; 49; 44; 10; 32; 32; 32; 32; 32; 32; 32; 32; 91; 93; 10; 32; 32; 32; 32; 93; 44; 10; 32; 32; 32; 32; 34; 34; 58; 32; 34; 34; 44; 10; 32; 32; 32; 32; 34; 92; 117; 48; 48; 101; 57; 92; 34; 34; 58; 32; 123; 125; 10; 125], Some (VObj [([13; 55296; 12; 47; 92], VArr [VArr [VObj [([8; 98; 13], VOdd [45; 73; 110; 102; 105; 110; 105; 116; 121]); ([34], VOdd [45; 73; 110; 102; 105; 110; 105; 116; 121]); ([], VBool true)]]; VInt (-1)%Z; VArr []]); ([], VStr []); ([233; 34], VObj [])]));
  ([91; 10; 32; 34; 92; 114; 34; 10; 93], Some (VArr [VStr [13]]));
  ([123; 10; 32; 32; 32; 32; 34; 233; 34; 58; 32; 34; 127; 98; 92; 117; 48; 48; 48; 48; 34; 44; 10; 32; 32; 32; 32; 34; 97; 98; 34; 58; 32; 102; 46; 97; 108; 115; 101; 44; 10; 32; 32; 32; 32; 34; 56320; 34; 58; 32; 45; 73; 110; 102; 105; 110; 105; 116; 121; 10; 125], None);
  ([91; 34], None);
  ([123; 10; 32; 34; 34; 58; 32; 116; 114; 117; 101; 44; 10; 32; 34; 32; 92; 92; 34; 58; 32; 45; 73; 110; 102; 105; 110; 105; 116; 121; 44; 10; 32; 34; 92; 117; 50; 48; 97; 99; 47; 34; 58; 32; 102; 97; 108; 115; 101; 10; 125], Some (VObj [([], VBool true); ([32; 92], VOdd [45; 73; 110; 102; 105; 110; 105; 116; 121]); ([8364; 47], VBool false)]));
  ([78; 97; 78], Some (VOdd [78; 97; 78]));
  ([123; 34; 32; 98; 92; 98; 97; 34; 93; 34; 92; 110; 34; 125], None);
  ([44; 78], None);
  ([123; 10; 32; 34; 92; 117; 48; 48; 48; 48; 92; 117; 100; 99; 48; 48; 92; 117; 100; 56; 51; 100; 92; 117; 100; 101; 48; 48; 34; 58; 32; 91; 93; 10; 125], Some (VObj [([0; 56320; 128512], VArr [])]));
  ([123; 34; 34; 58; 32; 91; 91; 123; 34; 55296; 92; 110; 47; 92; 92; 92; 34; 34; 58; 32; 48; 44; 32; 34; 92; 92; 34; 58; 32; 102; 97; 108; 115; 101; 125; 44; 32; 78; 97; 78; 44; 32; 123; 34; 233; 92; 117; 48; 48; 48; 48; 92; 110; 92; 34; 34; 58; 32; 102; 97; 108; 115; 101; 44; 32; 34; 92; 102; 97; 55296; 34; 58; 32; 116; 114; 117; 101; 125; 93; 93; 125], Some (VObj [([], VArr [VArr [VObj [([55296; 10; 47; 92; 34], VInt (0)%Z); ([92], VBool false)]; VOdd [78; 97; 78]; VObj [([233; 0; 10; 34], VBool false); ([12; 97; 55296], VBool true)]]])]));
  ([91; 93], Some (VArr []));
  ([91; 10; 32; 32; 32; 32; 91; 93; 44; 10; 32; 32; 32; 32; 123; 10; 32; 32; 32; 32; 32; 32; 32; 32; 34; 92; 114; 98; 92; 117; 48; 48; 48; 48; 92; 34; 34; 58; 32; 91; 10; 32; 32; 32; 32; 32; 32; 32; 32; 32; 32; 32; 32; 123; 125; 10; 32; 32; 32; 32; 32; 32; 32; 32; 93; 10; 32; 32; 32; 32; 125; 44; 10; 32; 32; 32; 32; 91; 10; 32; 32; 32; 32; 32; 32; 32; 32; 123; 125; 10; 32; 32; 32; 32; 93; 10; 93], Some (VArr [VArr []; VObj [([13; 98; 0; 34], VArr [VObj []])]; VArr [VObj []]]));
  ([101], None);
  ([91; 10; 32; 73; 110; 102; 105; 110; 105; 116; 121; 44; 10; 32; 34; 92; 92; 47; 34; 10; 93], Some (VArr [VOdd [73; 110; 102; 105; 110; 105; 116; 121]; VStr [92; 47]]));
  ([78; 97; 78], Some (VOdd [78; 97; 78]));
  ([34; 92; 117; 48; 48; 49; 102; 92; 102; 98; 34], Some (VStr [31; 12; 98]));
  ([34; 32; 92; 102; 127; 8232; 34], Some (VStr [32; 12; 127; 8232]));
  ([48], Some (VInt (0)%Z));
  ([110; 117; 108; 108], Some (VNull));
  ([91; 101], None);
  ([91; 10; 32; 32; 32; 32; 123; 10; 32; 32; 32; 32; 32; 32; 32; 34; 34; 58; 32; 78; 97; 78; 44; 10; 32; 32; 32; 32; 32; 32; 32; 32; 34; 32; 34; 58; 32; 73; 110; 102; 105; 110; 105; 116; 121; 44; 10; 32; 32; 32; 32; 32; 32; 32; 32; 34; 8232; 127; 92; 114; 92; 110; 34; 58; 32; 73; 110; 102; 105; 110; 105; 116; 121; 10; 32; 32; 32; 32; 125; 44; 10; 32; 32; 32; 32; 78; 97; 78; 44; 10; 32; 32; 32; 32; 78; 97; 78; 10; 93], Some (VArr [VObj [([], VOdd [78; 97; 78]); ([32], VOdd [73; 110; 102; 105; 110; 105; 116; 121]); ([8232; 127; 13; 10], VOdd [73; 110; 102; 105; 110; 105; 116; 121])]; VOdd [78; 97; 78]; VOdd [78; 97; 78]]));
  ([116; 114; 46; 101], None);
  ([110; 46; 108; 108], None);
  ([34; 92; 34; 117; 48; 48; 101; 57; 98; 92; 117; 48; 48; 55; 102; 92; 114; 34], Some (VStr [34; 117; 48; 48; 101; 57; 98; 127; 13]));
  ([92; 123; 125], None);
  ([101; 93], None);
  ([91; 10; 32; 32; 32; 32; 78; 97; 78; 44; 10; 32; 32; 32; 32; 123; 10; 32; 32; 32; 32; 32; 32; 32; 32; 34; 92; 116; 8232; 47; 233; 97; 34; 58; 32; 102; 97; 108; 115; 101; 44; 10; 32; 32; 32; 32; 32; 32; 32; 34; 128512; 92; 110; 8232; 34; 58; 32; 123; 125; 10; 32; 32; 32; 32; 125; 10; 93], Some (VArr [VOdd [78; 97; 78]; VObj [([9; 8232; 47; 233; 97], VBool false); ([128512; 10; 8232], VObj [])]]));
  ([110; 117; 108; 108], Some (VNull));
  ([73; 110; 102; 105; 110; 116; 121], None);
  ([123; 34; 34; 58; 32; 48; 44; 32; 34; 92; 117; 48; 48; 55; 102; 92; 117; 50; 48; 97; 99; 44; 32; 123; 125; 125], None);
  ([91; 44], None);
  ([45; 52; 53; 56; 54; 50; 57; 55; 54; 44; 55; 48; 56; 50; 52; 51; 57; 56; 55; 55; 51; 50], None);
  ([73; 110; 102; 105; 110; 105; 116; 121], Some (VOdd [73; 110; 102; 105; 110; 105; 116; 121]));
  ([34; 97; 92; 117; 50; 48; 50; 56; 92; 110; 34], Some (VStr [97; 8232; 10]));
  ([123; 10; 32; 32; 32; 32; 34; 92; 116; 92; 117; 100; 99; 48; 48; 92; 117; 48; 48; 49; 102; 92; 117; 48; 48; 49; 102; 92; 117; 48; 48; 49; 102; 34; 58; 32; 45; 56; 51; 56; 53; 52; 50; 49; 52; 51; 57; 52; 48; 49; 48; 57; 53; 48; 56; 48; 56; 44; 10; 32; 32; 32; 32; 34; 92; 34; 97; 92; 117; 100; 99; 48; 48; 34; 58; 32; 91; 93; 44; 10; 32; 32; 32; 32; 34; 92; 117; 50; 48; 97; 99; 92; 117; 48; 48; 55; 102; 92; 117; 48; 48; 55; 102; 92; 117; 50; 48; 97; 99; 92; 117; 100; 56; 48; 48; 34; 58; 32; 91; 10; 32; 32; 101; 32; 32; 32; 32; 32; 32; 45; 73; 110; 102; 105; 110; 105; 116; 121; 44; 10; 32; 32; 32; 32; 32; 32; 32; 32; 34; 92; 34; 92; 117; 100; 56; 51; 100; 92; 117; 100; 101; 48; 48; 92; 117; 48; 48; 48; 48; 92; 34; 34; 10; 32; 32; 32; 32; 93; 10; 125], None);
  ([123; 10; 32; 34; 34; 58; 32; 123; 125; 44; 10; 32; 34; 97; 34; 58; 32; 91; 10; 32; 32; 91; 93; 44; 10; 32; 32; 34; 92; 102; 34; 44; 10; 32; 32; 45; 73; 110; 102; 105; 110; 105; 116; 121; 10; 32; 93; 44; 10; 32; 34; 32; 92; 117; 48; 48; 101; 57; 34; 58; 32; 102; 97; 108; 115; 101; 10; 125], Some (VObj [([], VObj []); ([97], VArr [VArr []; VStr [12]; VOdd [45; 73; 110; 102; 105; 110; 105; 116; 121]]); ([32; 233], VBool false)]));
  ([32; 48], Some (VInt (0)%Z));
  ([91; 10; 32; 45; 53; 52; 48; 52; 51; 56; 57; 52; 55; 56; 57; 55; 53; 52; 55; 50; 54; 53; 52; 57; 44; 10; 32; 123; 10; 32; 32; 34; 34; 58; 32; 45; 49; 10; 32; 125; 10; 93], Some (VArr [VInt (-54043894789754726549)%Z; VObj [([], VInt (-1)%Z)]]));
  ([45; 50; 49; 56; 49; 57; 55; 54; 51; 55; 52; 51; 56; 55; 49; 56; 44; 55; 51; 49; 51], None);
  ([91; 10; 32; 32; 32; 32; 116; 114; 117; 101; 44; 10; 32; 32; 32; 32; 110; 117; 108; 108; 10; 93], Some (VArr [VBool true; VNull]));
  ([34; 127; 92; 116; 92; 114; 92; 102; 34], Some (VStr [127; 9; 13; 12]));
  ([123; 34; 34; 58; 32; 34; 92; 117; 100; 56; 51; 100; 92; 117; 100; 101; 48; 48; 92; 117; 100; 56; 48; 48; 92; 102; 34; 125], Some (VObj [([], VStr [128512; 55296; 12])]));
  ([93], None);
  ([123; 34; 97; 92; 117; 48; 48; 48; 48; 127; 34; 58; 32; 91; 34; 55296; 127; 56320; 98; 34; 93; 44; 32; 34; 8232; 92; 34; 92; 34; 92; 117; 48; 48; 49; 102; 34; 58; 32; 91; 91; 34; 92; 34; 92; 34; 92; 98; 128512; 34; 44; 32; 91; 110; 117; 108; 108; 93; 93; 44; 32; 116; 114; 117; 101; 44; 32; 78; 97; 78; 93; 44; 32; 34; 8364; 92; 102; 8232; 98; 233; 34; 58; 32; 116; 114; 117; 101; 125], Some (VObj [([97; 0; 127], VArr [VStr [55296; 127; 56320; 98]]); ([8232; 34; 34; 31], VArr [VArr [VStr [34; 34; 8; 128512]; VArr [VNull]]; VBool true; VOdd [78; 97; 78]]); ([8364; 12; 8232; 98; 233], VBool true)]));
  ([91; 10; 32; 32; 32; 32; 91; 10; 32; 32; 32; 32; 32; 32; 32; 32; 91; 10; 32; 32; 32; 32; 32; 32; 32; 32; 32; 32; 32; 32; 123; 10; 32; 32; 32; 32; 32; 32; 32; 32; 32; 32; 32; 32; 32; 32; 32; 32; 34; 92; 117; 100; 99; 48; 48; 92; 117; 48; 48; 48; 48; 92; 117; 48; 48; 101; 57; 34; 58; 32; 34; 92; 117; 48; 48; 48; 48; 92; 102; 92; 92; 92; 117; 48; 48; 101; 57; 34; 10; 32; 32; 32; 32; 32; 32; 32; 32; 32; 32; 32; 32; 125; 44; 10; 32; 32; 32; 32; 32; 32; 32; 32; 32; 32; 32; 32; 48; 44; 10; 32; 32; 32; 32; 32; 32; 32; 32; 32; 32; 32; 32; 123; 10; 32; 32; 32; 32; 32; 32; 32; 32; 32; 32; 32; 32; 32; 32; 32; 32; 34; 92; 114; 92; 110; 92; 117; 100; 56; 51; 100; 92; 117; 100; 101; 48; 48; 92; 34; 34; 58; 32; 48; 10; 32; 32; 32; 32; 32; 32; 32; 32; 32; 32; 32; 32; 125; 10; 32; 32; 32; 32; 32; 32; 32; 32; 93; 44; 10; 32; 32; 32; 32; 32; 32; 32; 32; 91; 93; 44; 10; 32; 32; 32; 32; 32; 32; 32; 32; 91; 10; 32; 32; 32; 32; 32; 32; 32; 32; 32; 32; 32; 32; 123; 10; 32; 32; 32; 32; 32; 32; 32; 32; 32; 32; 32; 32; 32; 32; 32; 32; 34; 92; 34; 97; 34; 58; 32; 78; 97; 78; 44; 10; 32; 32; 32; 32; 32; 32; 32; 32; 32; 32; 32; 32; 32; 32; 32; 32; 34; 92; 110; 32; 47; 34; 58; 32; 48; 44; 10; 32; 32; 32; 32; 32; 32; 32; 32; 32; 32; 32; 32; 32; 32; 32; 32; 34; 32; 92; 116; 47; 34; 58; 32; 45; 56; 51; 48; 50; 52; 55; 57; 51; 51; 55; 56; 51; 48; 50; 51; 54; 55; 49; 57; 53; 10; 32; 32; 32; 32; 32; 32; 32; 32; 32; 32; 32; 32; 125; 44; 10; 32; 32; 32; 32; 32; 32; 32; 32; 32; 32; 32; 32; 48; 44; 10; 32; 32; 32; 32; 32; 32; 32; 32; 32; 32; 32; 32; 91; 10; 32; 32; 32; 32; 32; 32; 32; 32; 32; 32; 32; 32; 32; 32; 32; 32; 116; 114; 117; 101; 44; 10; 32; 32; 32; 32; 32; 32; 32; 32; 32; 32; 32; 32; 32; 32; 32; 32; 34; 92; 44; 48; 97; 99; 92; 117; 48; 48; 48; 48; 92; 117; 100; 56; 51; 100; 92; 117; 100; 101; 48; 48; 34; 10; 32; 32; 32; 32; 32; 32; 32; 32; 32; 32; 32; 32; 93; 10; 32; 32; 32; 32; 32; 32; 32; 32; 93; 10; 32; 32; 32; 32; 93; 10; 93], None);
  ([123; 10; 32; 32; 32; 32; 34; 92; 34; 8232; 92; 98; 233; 92; 110; 34; 58; 32; 123; 10; 32; 32; 32; 32; 32; 32; 32; 32; 34; 92; 98; 128512; 92; 116; 34; 58; 32; 91; 10; 32; 32; 32; 32; 32; 32; 32; 32; 32; 32; 32; 32; 45; 53; 53; 55; 49; 50; 52; 49; 52; 49; 50; 53; 56; 51; 54; 51; 55; 57; 48; 50; 53; 10; 32; 32; 32; 32; 32; 32; 32; 32; 93; 44; 10; 32; 32; 32; 32; 32; 32; 32; 32; 34; 34; 58; 32; 123; 10; 32; 32; 32; 32; 32; 32; 32; 32; 32; 32; 32; 32; 34; 128512; 92; 110; 34; 58; 32; 123; 10; 32; 32; 32; 32; 32; 32; 32; 32; 32; 32; 32; 32; 32; 32; 32; 32; 34; 128512; 92; 117; 48; 48; 48; 48; 92; 117; 48; 48; 49; 102; 34; 58; 32; 34; 34; 10; 32; 32; 32; 32; 32; 32; 32; 32; 32; 32; 32; 32; 125; 44; 10; 32; 32; 32; 32; 32; 32; 32; 32; 32; 32; 32; 32; 34; 34; 58; 32; 91; 10; 32; 32; 32; 32; 32; 32; 32; 32; 32; 32; 32; 32; 32; 32; 32; 32; 34; 34; 10; 32; 32; 32; 32; 32; 32; 32; 32; 32; 32; 32; 32; 93; 10; 32; 32; 32; 32; 32; 32; 32; 32; 125; 44; 10; 32; 32; 32; 32; 32; 32; 32; 32; 34; 127; 92; 117; 48; 48; 49; 102; 92; 114; 32; 128512; 34; 58; 32; 52; 49; 54; 54; 53; 51; 49; 49; 48; 55; 55; 51; 54; 53; 49; 52; 56; 50; 57; 51; 10; 32; 32; 32; 32; 125; 44; 10; 32; 32; 32; 32; 34; 92; 34; 34; 58; 32; 45; 73; 110; 102; 105; 110; 105; 116; 121; 10; 125], Some (VObj [([34; 8232; 8; 233; 10], VObj [([8; 128512; 9], VArr [VInt (-55712414125836379025)%Z]); ([], VObj [([128512; 10], VObj [([128512; 0; 31], VStr [])]); ([], VArr [VStr []])]); ([127; 31; 13; 32; 128512], VInt (41665311077365148293)%Z)]); ([34], VOdd [45; 73; 110; 102; 105; 110; 105; 116; 121])]));
  ([32], None);
  ([34; 55296; 92; 102; 34], Some (VStr [55296; 12]));
  ([91; 10; 32; 32; 32; 32; 123; 10; 32; 32; 32; 32; 32; 32; 32; 32; 34; 97; 55296; 92; 34; 127; 34; 58; 32; 48; 44; 10; 32; 32; 32; 32; 32; 32; 32; 32; 34; 92; 92; 92; 114; 92; 117; 48; 48; 48; 48; 92; 110; 34; 58; 32; 45; 49; 10; 32; 32; 32; 32; 125; 44; 10; 32; 32; 32; 32; 34; 92; 117; 48; 48; 49; 102; 55296; 32; 98; 233; 34; 44; 10; 32; 32; 32; 32; 51; 55; 48; 57; 50; 56; 54; 53; 48; 56; 55; 49; 50; 55; 55; 48; 57; 53; 49; 10; 93], Some (VArr [VObj [([97; 55296; 34; 127], VInt (0)%Z); ([92; 13; 0; 10], VInt (-1)%Z)]; VStr [31; 55296; 32; 98; 233]; VInt (3709286508712770951)%Z]));
  ([91; 10; 32; 91; 10; 32; 32; 116; 114; 117; 101; 44; 10; 32; 32; 123; 10; 32; 32; 32; 34; 127; 32; 92; 34; 34; 58; 32; 34; 92; 98; 32; 8232; 55296; 92; 116; 34; 44; 10; 32; 32; 32; 34; 92; 92; 92; 117; 48; 48; 49; 102; 92; 116; 34; 58; 32; 110; 117; 108; 108; 44; 10; 32; 32; 32; 34; 34; 58; 32; 123; 10; 32; 32; 32; 32; 34; 127; 92; 117; 48; 48; 48; 48; 92; 114; 233; 92; 98; 34; 58; 32; 116; 114; 117; 101; 10; 32; 32; 32; 125; 10; 32; 32; 125; 44; 10; 32; 32; 48; 10; 32; 93; 44; 10; 32; 91; 93; 10; 93], Some (VArr [VArr [VBool true; VObj [([127; 32; 34], VStr [8; 32; 8232; 55296; 9]); ([92; 31; 9], VNull); ([], VObj [([127; 0; 13; 233; 8], VBool true)])]; VInt (0)%Z]; VArr []]));
  ([91; 91; 93; 93; 93], None);
  ([91; 10; 32; 32; 32; 32; 102; 97; 108; 115; 101; 44; 10; 32; 32; 32; 32; 45; 73; 110; 102; 105; 110; 105; 116; 121; 44; 10; 32; 32; 32; 32; 123; 10; 32; 32; 32; 32; 32; 32; 32; 32; 34; 92; 114; 98; 34; 58; 32; 48; 44; 10; 32; 32; 32; 32; 32; 32; 32; 32; 34; 92; 102; 92; 110; 92; 117; 48; 48; 48; 48; 92; 114; 34; 58; 32; 116; 114; 117; 101; 44; 10; 32; 34; 32; 32; 32; 32; 32; 32; 32; 34; 92; 98; 92; 117; 50; 48; 50; 56; 92; 98; 97; 92; 92; 34; 58; 32; 34; 92; 98; 92; 117; 48; 48; 101; 57; 98; 34; 10; 32; 32; 32; 32; 125; 10; 93], None);
  ([91; 123; 125; 44; 32; 91; 34; 92; 117; 48; 48; 48; 48; 92; 117; 100; 99; 48; 48; 47; 92; 117; 100; 56; 51; 100; 92; 117; 100; 101; 48; 48; 34; 93; 44; 32; 45; 49; 93], Some (VArr [VObj []; VArr [VStr [0; 56320; 47; 128512]]; VInt (-1)%Z]));
  ([123; 125], Some (VObj []));
  ([102; 97; 108; 32; 115; 101], None);
  ([123; 125], Some (VObj []))
].
Example loads_as_python : map (fun x => loads (fst x)) texts = map snd texts.
Proof. vm_compute. reflexivity. Qed.

Definition datas : list (jv * str) := [
  (JO [([34; 47], JO []); ([233], JS (SStr [13; 92; 9]))], [123; 10; 32; 32; 32; 32; 34; 92; 34; 47; 34; 58; 32; 123; 125; 44; 10; 32; 32; 32; 32; 34; 233; 34; 58; 32; 34; 92; 114; 92; 92; 92; 116; 34; 10; 125]);
  (JO [([8364], JS (SBool true))], [123; 10; 32; 32; 32; 32; 34; 8364; 34; 58; 32; 116; 114; 117; 101; 10; 125]);
  (JA [JS (SInt (0)%Z); JO []], [91; 10; 32; 32; 32; 32; 48; 44; 10; 32; 32; 32; 32; 123; 125; 10; 93]);
  (JS (SFlt (FInf true)), [45; 73; 110; 102; 105; 110; 105; 116; 121]);
  (JS (SInt (1175831740682295464)%Z), [49; 49; 55; 53; 56; 51; 49; 55; 52; 48; 54; 56; 50; 50; 57; 53; 52; 54; 52]);
  (JS (SFlt (FInf false)), [73; 110; 102; 105; 110; 105; 116; 121]);
  (JS (SFlt (FInf false)), [73; 110; 102; 105; 110; 105; 116; 121]);
  (JS (SBool true), [116; 114; 117; 101]);
  (JS (SBool false), [102; 97; 108; 115; 101]);
  (JS (SInt (-40715819848723684291)%Z), [45; 52; 48; 55; 49; 53; 56; 49; 57; 56; 52; 56; 55; 50; 51; 54; 56; 52; 50; 57; 49]);
  (JA [JS (SBool true); JO [([32; 98; 31], JA [JS (SBool false)]); ([34], JA [JS (SStr []); JS (SStr [233])]); ([56320; 55296], JA [JS (SBool false); JS (SFlt FNan); JO [([9; 0; 127; 13; 8232], JS (SStr [32; 0; 47; 92; 98]))]])]; JS (SFlt FNan)], [91; 10; 32; 32; 32; 32; 116; 114; 117; 101; 44; 10; 32; 32; 32; 32; 123; 10; 32; 32; 32; 32; 32; 32; 32; 32; 34; 32; 98; 92; 117; 48; 48; 49; 102; 34; 58; 32; 91; 10; 32; 32; 32; 32; 32; 32; 32; 32; 32; 32; 32; 32; 102; 97; 108; 115; 101; 10; 32; 32; 32; 32; 32; 32; 32; 32; 93; 44; 10; 32; 32; 32; 32; 32; 32; 32; 32; 34; 92; 34; 34; 58; 32; 91; 10; 32; 32; 32; 32; 32; 32; 32; 32; 32; 32; 32; 32; 34; 34; 44; 10; 32; 32; 32; 32; 32; 32; 32; 32; 32; 32; 32; 32; 34; 233; 34; 10; 32; 32; 32; 32; 32; 32; 32; 32; 93; 44; 10; 32; 32; 32; 32; 32; 32; 32; 32; 34; 56320; 55296; 34; 58; 32; 91; 10; 32; 32; 32; 32; 32; 32; 32; 32; 32; 32; 32; 32; 102; 97; 108; 115; 101; 44; 10; 32; 32; 32; 32; 32; 32; 32; 32; 32; 32; 32; 32; 78; 97; 78; 44; 10; 32; 32; 32; 32; 32; 32; 32; 32; 32; 32; 32; 32; 123; 10; 32; 32; 32; 32; 32; 32; 32; 32; 32; 32; 32; 32; 32; 32; 32; 32; 34; 92; 116; 92; 117; 48; 48; 48; 48; 127; 92; 114; 8232; 34; 58; 32; 34; 32; 92; 117; 48; 48; 48; 48; 47; 92; 92; 98; 34; 10; 32; 32; 32; 32; 32; 32; 32; 32; 32; 32; 32; 32; 125; 10; 32; 32; 32; 32; 32; 32; 32; 32; 93; 10; 32; 32; 32; 32; 125; 44; 10; 32; 32; 32; 32; 78; 97; 78; 10; 93]);
  (JS (SFlt (FInf false)), [73; 110; 102; 105; 110; 105; 116; 121]);
  (JS (SBool true), [116; 114; 117; 101]);
  (JS (SStr [9; 8364; 98]), [34; 92; 116; 8364; 98; 34]);
  (JS (SFlt (FInf false)), [73; 110; 102; 105; 110; 105; 116; 121]);
  (JS (SFlt (FInf true)), [45; 73; 110; 102; 105; 110; 105; 116; 121]);
  (JS (SBool false), [102; 97; 108; 115; 101]);
  (JS (SFlt FNan), [78; 97; 78]);
  (JO [([12; 56320; 31], JA [JS (SFlt (FInf false))]); ([47; 0; 12], JS (SInt (43878868268702632151)%Z))], [123; 10; 32; 32; 32; 32; 34; 92; 102; 56320; 92; 117; 48; 48; 49; 102; 34; 58; 32; 91; 10; 32; 32; 32; 32; 32; 32; 32; 32; 73; 110; 102; 105; 110; 105; 116; 121; 10; 32; 32; 32; 32; 93; 44; 10; 32; 32; 32; 32; 34; 47; 92; 117; 48; 48; 48; 48; 92; 102; 34; 58; 32; 52; 51; 56; 55; 56; 56; 54; 56; 50; 54; 56; 55; 48; 50; 54; 51; 50; 49; 53; 49; 10; 125]);
  (JS (SFlt (FInf true)), [45; 73; 110; 102; 105; 110; 105; 116; 121]);
  (JS (SInt (0)%Z), [48]);
  (JS SNone, [110; 117; 108; 108]);
  (JO [([9; 92; 55296; 31], JS (SStr [55296])); ([55296; 56320], JS (SBool true)); ([32; 12], JS (SInt (0)%Z))], [123; 10; 32; 32; 32; 32; 34; 92; 116; 92; 92; 55296; 92; 117; 48; 48; 49; 102; 34; 58; 32; 34; 55296; 34; 44; 10; 32; 32; 32; 32; 34; 55296; 56320; 34; 58; 32; 116; 114; 117; 101; 44; 10; 32; 32; 32; 32; 34; 32; 92; 102; 34; 58; 32; 48; 10; 125]);
  (JO [([9; 34; 8232; 0], JS (SBool false)); ([], JO [([128512; 97; 8], JO [([127; 97; 8232; 47; 31], JS (SBool true)); ([47; 8; 56320], JO [([233], JS (SInt (-6120247543846684008)%Z))])]); ([56320], JS SNone); ([127; 55296], JS (SFlt (FInf false)))])], [123; 10; 32; 32; 32; 32; 34; 92; 116; 92; 34; 8232; 92; 117; 48; 48; 48; 48; 34; 58; 32; 102; 97; 108; 115; 101; 44; 10; 32; 32; 32; 32; 34; 34; 58; 32; 123; 10; 32; 32; 32; 32; 32; 32; 32; 32; 34; 128512; 97; 92; 98; 34; 58; 32; 123; 10; 32; 32; 32; 32; 32; 32; 32; 32; 32; 32; 32; 32; 34; 127; 97; 8232; 47; 92; 117; 48; 48; 49; 102; 34; 58; 32; 116; 114; 117; 101; 44; 10; 32; 32; 32; 32; 32; 32; 32; 32; 32; 32; 32; 32; 34; 47; 92; 98; 56320; 34; 58; 32; 123; 10; 32; 32; 32; 32; 32; 32; 32; 32; 32; 32; 32; 32; 32; 32; 32; 32; 34; 233; 34; 58; 32; 45; 54; 49; 50; 48; 50; 52; 55; 53; 52; 51; 56; 52; 54; 54; 56; 52; 48; 48; 56; 10; 32; 32; 32; 32; 32; 32; 32; 32; 32; 32; 32; 32; 125; 10; 32; 32; 32; 32; 32; 32; 32; 32; 125; 44; 10; 32; 32; 32; 32; 32; 32; 32; 32; 34; 56320; 34; 58; 32; 110; 117; 108; 108; 44; 10; 32; 32; 32; 32; 32; 32; 32; 32; 34; 127; 55296; 34; 58; 32; 73; 110; 102; 105; 110; 105; 116; 121; 10; 32; 32; 32; 32; 125; 10; 125]);
  (JS (SFlt (FInf true)), [45; 73; 110; 102; 105; 110; 105; 116; 121]);
  (JO [], [123; 125]);
  (JA [JS (SFlt (FInf false)); JO []], [91; 10; 32; 32; 32; 32; 73; 110; 102; 105; 110; 105; 116; 121; 44; 10; 32; 32; 32; 32; 123; 125; 10; 93]);
  (JA [JS SNone], [91; 10; 32; 32; 32; 32; 110; 117; 108; 108; 10; 93]);
  (JS (SFlt FNan), [78; 97; 78]);
  (JA [], [91; 93]);
  (JS (SBool true), [116; 114; 117; 101]);
  (JS (SFlt (FInf true)), [45; 73; 110; 102; 105; 110; 105; 116; 121]);
  (JS (SInt (-1)%Z), [45; 49]);
  (JA [JS (SInt (26720165917992314416)%Z); JS (SInt (-5479053869972415591)%Z)], [91; 10; 32; 32; 32; 32; 50; 54; 55; 50; 48; 49; 54; 53; 57; 49; 55; 57; 57; 50; 51; 49; 52; 52; 49; 54; 44; 10; 32; 32; 32; 32; 45; 53; 52; 55; 57; 48; 53; 51; 56; 54; 57; 57; 55; 50; 52; 49; 53; 53; 57; 49; 10; 93]);
  (JO [([0], JS (SFlt (FInf false))); ([8364], JS (SStr [0; 13; 34]))], [123; 10; 32; 32; 32; 32; 34; 92; 117; 48; 48; 48; 48; 34; 58; 32; 73; 110; 102; 105; 110; 105; 116; 121; 44; 10; 32; 32; 32; 32; 34; 8364; 34; 58; 32; 34; 92; 117; 48; 48; 48; 48; 92; 114; 92; 34; 34; 10; 125]);
  (JO [([], JO [([], JA [JS (SFlt FNan); JA [JS (SStr [])]; JS (SStr [8364; 31])]); ([97; 56320], JA [JA [JS (SInt (-1)%Z); JS (SFlt FNan); JS (SFlt FNan)]]); ([98; 47; 34; 56320], JS (SStr [98; 97; 97; 8364; 56320]))]); ([32; 0; 55296; 47; 0], JA [JS (SInt (-1)%Z); JA [JA [JS SNone; JS (SBool false); JS (SFlt (FInf false))]]; JO [([98; 32; 127; 10], JA [JS (SBool true)]); ([34; 97; 31], JO []); ([10; 233], JS (SInt (0)%Z))]])], [123; 10; 32; 32; 32; 32; 34; 34; 58; 32; 123; 10; 32; 32; 32; 32; 32; 32; 32; 32; 34; 34; 58; 32; 91; 10; 32; 32; 32; 32; 32; 32; 32; 32; 32; 32; 32; 32; 78; 97; 78; 44; 10; 32; 32; 32; 32; 32; 32; 32; 32; 32; 32; 32; 32; 91; 10; 32; 32; 32; 32; 32; 32; 32; 32; 32; 32; 32; 32; 32; 32; 32; 32; 34; 34; 10; 32; 32; 32; 32; 32; 32; 32; 32; 32; 32; 32; 32; 93; 44; 10; 32; 32; 32; 32; 32; 32; 32; 32; 32; 32; 32; 32; 34; 8364; 92; 117; 48; 48; 49; 102; 34; 10; 32; 32; 32; 32; 32; 32; 32; 32; 93; 44; 10; 32; 32; 32; 32; 32; 32; 32; 32; 34; 97; 56320; 34; 58; 32; 91; 10; 32; 32; 32; 32; 32; 32; 32; 32; 32; 32; 32; 32; 91; 10; 32; 32; 32; 32; 32; 32; 32; 32; 32; 32; 32; 32; 32; 32; 32; 32; 45; 49; 44; 10; 32; 32; 32; 32; 32; 32; 32; 32; 32; 32; 32; 32; 32; 32; 32; 32; 78; 97; 78; 44; 10; 32; 32; 32; 32; 32; 32; 32; 32; 32; 32; 32; 32; 32; 32; 32; 32; 78; 97; 78; 10; 32; 32; 32; 32; 32; 32; 32; 32; 32; 32; 32; 32; 93; 10; 32; 32; 32; 32; 32; 32; 32; 32; 93; 44; 10; 32; 32; 32; 32; 32; 32; 32; 32; 34; 98; 47; 92; 34; 56320; 34; 58; 32; 34; 98; 97; 97; 8364; 56320; 34; 10; 32; 32; 32; 32; 125; 44; 10; 32; 32; 32; 32; 34; 32; 92; 117; 48; 48; 48; 48; 55296; 47; 92; 117; 48; 48; 48; 48; 34; 58; 32; 91; 10; 32; 32; 32; 32; 32; 32; 32; 32; 45; 49; 44; 10; 32; 32; 32; 32; 32; 32; 32; 32; 91; 10; 32; 32; 32; 32; 32; 32; 32; 32; 32; 32; 32; 32; 91; 10; 32; 32; 32; 32; 32; 32; 32; 32; 32; 32; 32; 32; 32; 32; 32; 32; 110; 117; 108; 108; 44; 10; 32; 32; 32; 32; 32; 32; 32; 32; 32; 32; 32; 32; 32; 32; 32; 32; 102; 97; 108; 115; 101; 44; 10; 32; 32; 32; 32; 32; 32; 32; 32; 32; 32; 32; 32; 32; 32; 32; 32; 73; 110; 102; 105; 110; 105; 116; 121; 10; 32; 32; 32; 32; 32; 32; 32; 32; 32; 32; 32; 32; 93; 10; 32; 32; 32; 32; 32; 32; 32; 32; 93; 44; 10; 32; 32; 32; 32; 32; 32; 32; 32; 123; 10; 32; 32; 32; 32; 32; 32; 32; 32; 32; 32; 32; 32; 34; 98; 32; 127; 92; 110; 34; 58; 32; 91; 10; 32; 32; 32; 32; 32; 32; 32; 32; 32; 32; 32; 32; 32; 32; 32; 32; 116; 114; 117; 101; 10; 32; 32; 32; 32; 32; 32; 32; 32; 32; 32; 32; 32; 93; 44; 10; 32; 32; 32; 32; 32; 32; 32; 32; 32; 32; 32; 32; 34; 92; 34; 97; 92; 117; 48; 48; 49; 102; 34; 58; 32; 123; 125; 44; 10; 32; 32; 32; 32; 32; 32; 32; 32; 32; 32; 32; 32; 34; 92; 110; 233; 34; 58; 32; 48; 10; 32; 32; 32; 32; 32; 32; 32; 32; 125; 10; 32; 32; 32; 32; 93; 10; 125]);
  (JS (SBool true), [116; 114; 117; 101]);
  (JO [([8364; 9; 47; 56320; 127], JO [([32; 9; 55296], JS (SFlt (FInf true))); ([12; 127; 233; 55296; 31], JS (SInt (-1)%Z)); ([8; 8364; 56320; 31; 98], JS (SInt (0)%Z))]); ([55296; 34; 98], JS (SInt (-1)%Z))], [123; 10; 32; 32; 32; 32; 34; 8364; 92; 116; 47; 56320; 127; 34; 58; 32; 123; 10; 32; 32; 32; 32; 32; 32; 32; 32; 34; 32; 92; 116; 55296; 34; 58; 32; 45; 73; 110; 102; 105; 110; 105; 116; 121; 44; 10; 32; 32; 32; 32; 32; 32; 32; 32; 34; 92; 102; 127; 233; 55296; 92; 117; 48; 48; 49; 102; 34; 58; 32; 45; 49; 44; 10; 32; 32; 32; 32; 32; 32; 32; 32; 34; 92; 98; 8364; 56320; 92; 117; 48; 48; 49; 102; 98; 34; 58; 32; 48; 10; 32; 32; 32; 32; 125; 44; 10; 32; 32; 32; 32; 34; 55296; 92; 34; 98; 34; 58; 32; 45; 49; 10; 125]);
  (JS (SBool false), [102; 97; 108; 115; 101]);
  (JO [([128512; 34; 8364], JS (SBool true)); ([34; 32; 47; 31], JO []); ([8232; 47], JO [([8; 8], JO [([31; 32], JS (SBool false)); ([13; 8], JO [([98], JS (SStr [32; 8; 128512])); ([8232; 12; 8232; 56320], JS (SInt (-1)%Z))])])])], [123; 10; 32; 32; 32; 32; 34; 128512; 92; 34; 8364; 34; 58; 32; 116; 114; 117; 101; 44; 10; 32; 32; 32; 32; 34; 92; 34; 32; 47; 92; 117; 48; 48; 49; 102; 34; 58; 32; 123; 125; 44; 10; 32; 32; 32; 32; 34; 8232; 47; 34; 58; 32; 123; 10; 32; 32; 32; 32; 32; 32; 32; 32; 34; 92; 98; 92; 98; 34; 58; 32; 123; 10; 32; 32; 32; 32; 32; 32; 32; 32; 32; 32; 32; 32; 34; 92; 117; 48; 48; 49; 102; 32; 34; 58; 32; 102; 97; 108; 115; 101; 44; 10; 32; 32; 32; 32; 32; 32; 32; 32; 32; 32; 32; 32; 34; 92; 114; 92; 98; 34; 58; 32; 123; 10; 32; 32; 32; 32; 32; 32; 32; 32; 32; 32; 32; 32; 32; 32; 32; 32; 34; 98; 34; 58; 32; 34; 32; 92; 98; 128512; 34; 44; 10; 32; 32; 32; 32; 32; 32; 32; 32; 32; 32; 32; 32; 32; 32; 32; 32; 34; 8232; 92; 102; 8232; 56320; 34; 58; 32; 45; 49; 10; 32; 32; 32; 32; 32; 32; 32; 32; 32; 32; 32; 32; 125; 10; 32; 32; 32; 32; 32; 32; 32; 32; 125; 10; 32; 32; 32; 32; 125; 10; 125]);
  (JO [], [123; 125]);
  (JO [([12; 47; 31; 9], JO [([32; 8364; 31; 127; 128512], JS (SStr [98])); ([8364; 128512], JS (SInt (0)%Z))]); ([31; 8232; 0; 0; 128512], JS (SFlt (FInf false)))], [123; 10; 32; 32; 32; 32; 34; 92; 102; 47; 92; 117; 48; 48; 49; 102; 92; 116; 34; 58; 32; 123; 10; 32; 32; 32; 32; 32; 32; 32; 32; 34; 32; 8364; 92; 117; 48; 48; 49; 102; 127; 128512; 34; 58; 32; 34; 98; 34; 44; 10; 32; 32; 32; 32; 32; 32; 32; 32; 34; 8364; 128512; 34; 58; 32; 48; 10; 32; 32; 32; 32; 125; 44; 10; 32; 32; 32; 32; 34; 92; 117; 48; 48; 49; 102; 8232; 92; 117; 48; 48; 48; 48; 92; 117; 48; 48; 48; 48; 128512; 34; 58; 32; 73; 110; 102; 105; 110; 105; 116; 121; 10; 125]);
  (JA [JS (SBool false); JO [([8232; 34; 233; 47], JA [JS (SBool true)])]], [91; 10; 32; 32; 32; 32; 102; 97; 108; 115; 101; 44; 10; 32; 32; 32; 32; 123; 10; 32; 32; 32; 32; 32; 32; 32; 32; 34; 8232; 92; 34; 233; 47; 34; 58; 32; 91; 10; 32; 32; 32; 32; 32; 32; 32; 32; 32; 32; 32; 32; 116; 114; 117; 101; 10; 32; 32; 32; 32; 32; 32; 32; 32; 93; 10; 32; 32; 32; 32; 125; 10; 93]);
  (JA [], [91; 93]);
  (JS (SBool false), [102; 97; 108; 115; 101]);
  (JO [([56320; 32], JO []); ([8232; 55296; 12; 56320], JO [([56320; 56320; 8; 98], JO [([55296; 128512; 127; 128512; 127], JA [JS (SInt (19213907405909522679)%Z); JS (SFlt (FInf true)); JS (SInt (0)%Z)]); ([31; 92; 55296], JS (SFlt (FInf true))); ([98; 13; 97; 127; 0], JS (SFlt (FInf false)))])])], [123; 10; 32; 32; 32; 32; 34; 56320; 32; 34; 58; 32; 123; 125; 44; 10; 32; 32; 32; 32; 34; 8232; 55296; 92; 102; 56320; 34; 58; 32; 123; 10; 32; 32; 32; 32; 32; 32; 32; 32; 34; 56320; 56320; 92; 98; 98; 34; 58; 32; 123; 10; 32; 32; 32; 32; 32; 32; 32; 32; 32; 32; 32; 32; 34; 55296; 128512; 127; 128512; 127; 34; 58; 32; 91; 10; 32; 32; 32; 32; 32; 32; 32; 32; 32; 32; 32; 32; 32; 32; 32; 32; 49; 57; 50; 49; 51; 57; 48; 55; 52; 48; 53; 57; 48; 57; 53; 50; 50; 54; 55; 57; 44; 10; 32; 32; 32; 32; 32; 32; 32; 32; 32; 32; 32; 32; 32; 32; 32; 32; 45; 73; 110; 102; 105; 110; 105; 116; 121; 44; 10; 32; 32; 32; 32; 32; 32; 32; 32; 32; 32; 32; 32; 32; 32; 32; 32; 48; 10; 32; 32; 32; 32; 32; 32; 32; 32; 32; 32; 32; 32; 93; 44; 10; 32; 32; 32; 32; 32; 32; 32; 32; 32; 32; 32; 32; 34; 92; 117; 48; 48; 49; 102; 92; 92; 55296; 34; 58; 32; 45; 73; 110; 102; 105; 110; 105; 116; 121; 44; 10; 32; 32; 32; 32; 32; 32; 32; 32; 32; 32; 32; 32; 34; 98; 92; 114; 97; 127; 92; 117; 48; 48; 48; 48; 34; 58; 32; 73; 110; 102; 105; 110; 105; 116; 121; 10; 32; 32; 32; 32; 32; 32; 32; 32; 125; 10; 32; 32; 32; 32; 125; 10; 125]);
  (JS (SBool true), [116; 114; 117; 101]);
  (JA [], [91; 93]);
  (JS (SStr [8232; 233; 98]), [34; 8232; 233; 98; 34]);
  (JS (SInt (-86632229520607060160)%Z), [45; 56; 54; 54; 51; 50; 50; 50; 57; 53; 50; 48; 54; 48; 55; 48; 54; 48; 49; 54; 48]);
  (JO [([56320; 0; 47], JS (SFlt (FInf false))); ([31], JS (SBool false)); ([55296; 9], JS (SFlt FNan))], [123; 10; 32; 32; 32; 32; 34; 56320; 92; 117; 48; 48; 48; 48; 47; 34; 58; 32; 73; 110; 102; 105; 110; 105; 116; 121; 44; 10; 32; 32; 32; 32; 34; 92; 117; 48; 48; 49; 102; 34; 58; 32; 102; 97; 108; 115; 101; 44; 10; 32; 32; 32; 32; 34; 55296; 92; 116; 34; 58; 32; 78; 97; 78; 10; 125]);
  (JO [([34; 8], JS (SInt (-1)%Z)); ([9], JS (SStr [8232; 47; 0; 8]))], [123; 10; 32; 32; 32; 32; 34; 92; 34; 92; 98; 34; 58; 32; 45; 49; 44; 10; 32; 32; 32; 32; 34; 92; 116; 34; 58; 32; 34; 8232; 47; 92; 117; 48; 48; 48; 48; 92; 98; 34; 10; 125]);
  (JS (SStr [34; 92; 31]), [34; 92; 34; 92; 92; 92; 117; 48; 48; 49; 102; 34]);
  (JS (SFlt (FInf false)), [73; 110; 102; 105; 110; 105; 116; 121]);
  (JO [([233; 13; 31; 32], JS (SInt (-1)%Z)); ([], JS (SStr [127]))], [123; 10; 32; 32; 32; 32; 34; 233; 92; 114; 92; 117; 48; 48; 49; 102; 32; 34; 58; 32; 45; 49; 44; 10; 32; 32; 32; 32; 34; 34; 58; 32; 34; 127; 34; 10; 125]);
  (JO [([31; 8232; 233; 56320], JA [JS (SInt (-19607584825619546249)%Z); JS (SInt (0)%Z); JS (SBool false)]); ([55296; 0], JS (SInt (72161565002549526688)%Z))], [123; 10; 32; 32; 32; 32; 34; 92; 117; 48; 48; 49; 102; 8232; 233; 56320; 34; 58; 32; 91; 10; 32; 32; 32; 32; 32; 32; 32; 32; 45; 49; 57; 54; 48; 55; 53; 56; 52; 56; 50; 53; 54; 49; 57; 53; 52; 54; 50; 52; 57; 44; 10; 32; 32; 32; 32; 32; 32; 32; 32; 48; 44; 10; 32; 32; 32; 32; 32; 32; 32; 32; 102; 97; 108; 115; 101; 10; 32; 32; 32; 32; 93; 44; 10; 32; 32; 32; 32; 34; 55296; 92; 117; 48; 48; 48; 48; 34; 58; 32; 55; 50; 49; 54; 49; 53; 54; 53; 48; 48; 50; 53; 52; 57; 53; 50; 54; 54; 56; 56; 10; 125]);
  (JS (SInt (-89941943133929192007)%Z), [45; 56; 57; 57; 52; 49; 57; 52; 51; 49; 51; 51; 57; 50; 57; 49; 57; 50; 48; 48; 55]);
  (JA [JS (SFlt FNan); JA [JS (SFlt FNan); JA [JO [([128512], JS (SFlt FNan))]]; JA []]; JA [JS (SStr [13; 13]); JA [JO [([32; 233], JS (SFlt (FInf false)))]; JA []]]], [91; 10; 32; 32; 32; 32; 78; 97; 78; 44; 10; 32; 32; 32; 32; 91; 10; 32; 32; 32; 32; 32; 32; 32; 32; 78; 97; 78; 44; 10; 32; 32; 32; 32; 32; 32; 32; 32; 91; 10; 32; 32; 32; 32; 32; 32; 32; 32; 32; 32; 32; 32; 123; 10; 32; 32; 32; 32; 32; 32; 32; 32; 32; 32; 32; 32; 32; 32; 32; 32; 34; 128512; 34; 58; 32; 78; 97; 78; 10; 32; 32; 32; 32; 32; 32; 32; 32; 32; 32; 32; 32; 125; 10; 32; 32; 32; 32; 32; 32; 32; 32; 93; 44; 10; 32; 32; 32; 32; 32; 32; 32; 32; 91; 93; 10; 32; 32; 32; 32; 93; 44; 10; 32; 32; 32; 32; 91; 10; 32; 32; 32; 32; 32; 32; 32; 32; 34; 92; 114; 92; 114; 34; 44; 10; 32; 32; 32; 32; 32; 32; 32; 32; 91; 10; 32; 32; 32; 32; 32; 32; 32; 32; 32; 32; 32; 32; 123; 10; 32; 32; 32; 32; 32; 32; 32; 32; 32; 32; 32; 32; 32; 32; 32; 32; 34; 32; 233; 34; 58; 32; 73; 110; 102; 105; 110; 105; 116; 121; 10; 32; 32; 32; 32; 32; 32; 32; 32; 32; 32; 32; 32; 125; 44; 10; 32; 32; 32; 32; 32; 32; 32; 32; 32; 32; 32; 32; 91; 93; 10; 32; 32; 32; 32; 32; 32; 32; 32; 93; 10; 32; 32; 32; 32; 93; 10; 93]);
  (JA [], [91; 93]);
  (JS (SStr [97]), [34; 97; 34])
].
Example dumps_as_python : map (fun x => dumps test_env 0 (fst x)) datas = map snd datas.
Proof. vm_compute. reflexivity. Qed.
