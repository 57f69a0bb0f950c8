"""Source map examples of /repo/flattentool/tests/test_end_to_end.py (no schema) as Coq examples."""
import os, sys
sys.path.insert(0, os.path.dirname(__file__))
import gen_tests as g
FN = "test_end_to_end.py"
cases = []
for n in ["test_dict_data", "test_list_of_dicts_data", "test_list_of_dicts_with_ids_data"]:
    cases.append((n, g.load(FN, n + "_sheets"), g.load(FN, n + "_cell_source_map"), g.load(FN, n + "_heading_source_map")))
for i, c in enumerate(g.load(FN, "test_arrangement_data_sheets")):
    cases.append(("test_arrangement_%d" % i, c[0], c[1], c[2]))
def loc(l):
    if len(l) == 2: return "(%s, %d%%N)" % (g.s(l[0]), l[1])
    return "{| l_sheet := %s; l_col := %s; l_row := %d%%N; l_heading := %s |}" % (g.s(l[0]), g.s(l[1]), l[2], g.scalar(l[3]))
out = ["""(** Generated by tools/gen_map_tests.py from the literal tables of
    /repo/flattentool/tests/test_end_to_end.py: the model gives the source maps
    the repo's own tests expect, in the same order (tests of the model's
    faithfulness, not proofs). *)
From Verif.Base Require Import PyStr PyNum PyVal PyDict Outcome.
From Verif.Model Require Import Warn Lib Convert Input SourceMap.
From Verif.Tests Require Import TestLib.
Open Scope Z_scope.
Definition test_fancy : fancy := {| f_root_is_list := false; f_root_list_path := u "main"; f_cells := true; f_headings := true |}.
Definition maps_of (sheets : list sheet_in) : option (option cmap * option hmap) :=
  match fancy_unflatten (test_opts []) test_fancy sheets with Ok (_, c, h) _ => Some (c, h) | Raise _ _ => None end.
"""]
for name, sheets, cm, hm in cases:
    ss = g.lst("{| si_name := %s; si_headings := Some %s; si_lines := %s |}" % (g.s(sh["name"]), g.lst(g.scalar(h) for h in sh["headings"]),
         g.lst(g.line(dict(zip(sh["headings"], r))) for r in sh["rows"])) for sh in sheets)
    cs = g.lst("(%s, %s %s)" % (g.s(k), "ERows" if len(v[0]) == 2 else "ECells", g.lst(map(loc, v))) for k, v in cm.items())
    hs = g.lst("(%s, %s)" % (g.s(k), g.lst("(%s, %s)" % (g.s(a), g.scalar(b)) for a, b in v)) for k, v in hm.items())
    out.append("Example %s : maps_of %s\n  = Some (Some %s,\n    Some %s).\nProof. vm_compute. reflexivity. Qed.\n" % (name, ss, cs, hs))
open("/verif/rocq/theories/Tests/SourceMapRepo.v", "w").write("\n".join(out))
