(** test_metatab and test_metatab_only of /repo/flattentool/tests/test_init.py:1052-1154. *)
From Coq Require Import String.
From Verif.Base Require Import PyStr PyNum PyVal PyDict Outcome.
From Verif.Model Require Import Warn Lib Convert Input Json SourceMap Readers Flatten Schema Commands.
From Verif.Tests Require Import TestLib CommandLib.

Definition g (rows : list (list string)) : grid := map (map (fun s => SStr (u s))) rows.
Local Open Scope string_scope.
Definition basic_meta : book :=
  [(u "main", g [["colA"; "colB"]; ["cell1"; "cell2"]; ["cell3"; "cell4"]]);
   (u "subsheet", g [["colC"; "colD"]; ["cell5"; "cell6"]; ["cell7"; "cell8"]]);
   (u "Meta", g [["a"; "a1"]; ["b"; "b1"]; ["c"; "c1"]])].
Definition no_schema : sv := VO None [(u "properties", VO None [])].
Definition meta_world := test_world basic_meta (JO []) (JO []) no_schema.
Definition leaf (s : string) : jout := OLeaf (JStr (u s)).
Definition row2 (a x b y : string) : jout := OObj [(u a, leaf x); (u b, leaf y)].
Definition writes (m : IO unit) : list (option str * content) :=
  flat_map (fun e => match e with Wrote f c => [(f, c)] | _ => [] end) (warns m).

Example test_metatab : forall f, In f [u "xlsx"; u "ods"] -> exists cells heads, writes (unflatten_file meta_world (with_meta (u "Meta") false (unflatten_opts f))) =
  [(Some (u "out.json"), CJson (OObj [(u "a", leaf "a1"); (u "b", leaf "b1"); (u "c", leaf "c1");
     (u "main", OArr [row2 "colA" "cell1" "colB" "cell2"; row2 "colA" "cell3" "colB" "cell4"; row2 "colC" "cell5" "colD" "cell6"; row2 "colC" "cell7" "colD" "cell8"])]));
   (Some (u "cells"), CCells cells); (Some (u "heads"), CHeads heads)] /\
  map fst cells = [u "a"; u "b"; u "c"; []; u "main/0/colA"; u "main/0/colB"; u "main/1/colA"; u "main/1/colB"; u "main/2/colC"; u "main/2/colD"; u "main/3/colC"; u "main/3/colD";
                   u "main/0"; u "main/1"; u "main/2"; u "main/3"] /\
  heads = [(u "a", [(u "Meta", SStr (u "a"))]); (u "b", [(u "Meta", SStr (u "b"))]); (u "c", [(u "Meta", SStr (u "c"))]);
     (u "main/colA", [(u "main", SStr (u "colA"))]); (u "main/colB", [(u "main", SStr (u "colB"))]); (u "main/colC", [(u "subsheet", SStr (u "colC"))]); (u "main/colD", [(u "subsheet", SStr (u "colD"))])].
Proof. intros f [<-|[<-|[]]]; (do 2 eexists; split; [vm_compute; reflexivity|split; vm_compute; reflexivity]). Qed.
Example test_metatab_only : exists cells heads, writes (unflatten_file meta_world (with_meta (u "Meta") true (unflatten_opts (u "xlsx")))) =
  [(Some (u "out.json"), CJson (OObj [(u "a", leaf "a1"); (u "b", leaf "b1"); (u "c", leaf "c1")]));
   (Some (u "cells"), CCells cells); (Some (u "heads"), CHeads heads)] /\
  map fst cells = [u "a"; u "b"; u "c"; []].
Proof. do 2 eexists; split; vm_compute; reflexivity. Qed.
Example test_metatab_with_base : unflatten_file meta_world (with_base (u "base_json.json") (with_meta (u "Meta") false (unflatten_opts (u "xlsx")))) = Raise EFlattenToolError [].
Proof. reflexivity. Qed.
