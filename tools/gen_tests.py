"""Turns the literal test tables of /repo/flattentool/tests into Coq examples.

Only literals are read (ast, no import and no execution of /repo code)."""
import ast, datetime, sys
from collections import OrderedDict
from decimal import Decimal
T = "/repo/flattentool/tests/"

def load(fn, name):
    tree = ast.parse(open(T + fn).read())
    env = {"OrderedDict": OrderedDict, "datetime": datetime, "Decimal": Decimal, "UNICODE_TEST_STRING": "éαГ😼𝒞人"}
    for n in tree.body:
        if isinstance(n, ast.Assign) and getattr(n.targets[0], "id", None) == name:
            return eval(compile(ast.Expression(n.value), fn, "eval"), {"__builtins__": {}}, env)
    raise KeyError(name)

def s(x):
    if all(32 <= ord(c) < 127 and c != '"' for c in x):
        return '(u "%s")' % x
    return "[" + "; ".join(str(ord(c)) for c in x) + "]%N"

def scalar(v):
    if v is None: return "SNone"
    if isinstance(v, bool): return "(SBool %s)" % str(v).lower()
    if isinstance(v, int): return "(SInt (%d))" % v
    if isinstance(v, float):
        n, d = v.as_integer_ratio()
        e = d.bit_length() - 1
        return "(SFlt (FFin %s %d%%N (%d)))" % ("true" if n < 0 else "false", abs(n), -e)
    if isinstance(v, str): return "(SStr %s)" % s(v)
    if isinstance(v, Decimal):
        t = v.as_tuple()
        return "(SDec (DFin %s %s%%N (%d)))" % ("true" if t.sign else "false", "".join(map(str, t.digits)), t.exponent)
    if isinstance(v, datetime.datetime): return "(SDt 1%N)"
    raise TypeError(v)

def lst(l): return "[" + "; ".join(l) + "]"
def line(d): return lst("(%s, %s)" % (scalar(k), scalar(v)) for k, v in d.items())

def vnode(v):
    if isinstance(v, dict): return "(VDict %s)" % vdict(v)
    if isinstance(v, list):
        if v and not isinstance(v[0], dict):
            if isinstance(v[0], list):
                return "(VLeaf (CList2 %s))" % lst(lst(scalar(y) for y in x) for x in v)
            return "(VLeaf (CList %s))" % lst(scalar(x) for x in v)
        return "(VList %s)" % lst(vdict(x) for x in v)
    return "(VLeaf (CV %s))" % scalar(v)
def vdict(d): return lst("(%s, %s)" % (s(k), vnode(v)) for k, v in d.items())

TITLES = {"ocid": "Open Contracting ID", "custom": "Custom"}
def inject(root, d):
    out = OrderedDict()
    for k, v in d.items():
        if k == "ROOT_ID":
            if root == "": continue
            k = root
        elif k == "ROOT_ID_TITLE":
            if root == "": continue
            k = TITLES[root]
        out[k] = v
    return out

def unflatten_tests():
    out = ["""(** Generated by tools/gen_tests.py from the literal tables of
    /repo/flattentool/tests/test_input_SpreadsheetInput_unflatten.py and
    ..._unflatten_mulitplesheets.py: the model gives the output the repo's own
    tests expect (tests of the model's faithfulness, not proofs). *)
From Verif.Base Require Import PyStr PyNum PyVal PyDict Outcome.
From Verif.Model Require Import Warn Lib Convert Input.
From Verif.Tests Require Import TestLib.
Open Scope Z_scope.
"""]
    n = 0
    def emit(comment, root, sheets, exp, nwarn):
        nonlocal n
        n += 1
        sh = lst("{| si_name := %s; si_headings := None; si_lines := %s |}" % (s(k), lst(line(inject(root, l)) for l in ls)) for k, ls in sheets.items())
        exp = [inject(root, d) for d in exp]
        if exp == [{}]: exp = []
        e = lst(vdict(d) for d in exp)
        w = "None" if nwarn is None else "(Some %d%%nat)" % nwarn
        out.append("(* %s *)\nExample unflatten_%d : check_unflatten %s\n  %s\n  %s %s = true.\nProof. vm_compute. reflexivity. Qed." % (comment.replace("(*","").replace("*)",""), n, s(root), sh, e, w))
    for (comment, il, exp, warns, rev, noschema) in load("test_input_SpreadsheetInput_unflatten.py", "testdata"):
        if not noschema: continue
        for root in ("ocid", ""):
            emit(comment, root, {"custom_main": il}, exp, len(warns))
    for (comment, sheets, exp, warns, rev) in load("test_input_SpreadsheetInput_unflatten_mulitplesheets.py", "testdata_multiplesheets"):
        for root in ("ocid", "custom", ""):
            emit(comment, root, sheets, exp, None)
    open("/verif/rocq/theories/Tests/UnflattenRepo.v", "w").write("\n".join(out) + "\n")
    print(n, "unflatten tests")

def jv(v):
    if isinstance(v, dict): return "(JO %s)" % jobj(v)
    if isinstance(v, list): return "(JA %s)" % lst(jv(x) for x in v)
    return "(JS %s)" % scalar(v)
def jobj(d): return lst("(%s, %s)" % (s(k), jv(v)) for k, v in d.items())
def floats_to_dec(v):
    if isinstance(v, dict): return OrderedDict((k, floats_to_dec(x)) for k, x in v.items())
    if isinstance(v, list): return [floats_to_dec(x) for x in v]
    if isinstance(v, float): return Decimal(repr(v))
    return v

def flatten_tests():
    out = ["""(** Generated by tools/gen_tests.py from the literals of
    /repo/flattentool/tests/test_json_input.py and
    test_json_input_is_unflatten_reversed.py (tests of the model's faithfulness,
    not proofs). *)
From Verif.Base Require Import PyStr PyNum PyVal PyDict Outcome.
From Verif.Model Require Import Flatten.
From Verif.Tests Require Import FlattenLib.
Open Scope Z_scope.
"""]
    n = 0
    def emit(comment, root, recs, main_header, main_lines, sub_headers, sub_lines):
        nonlocal n
        n += 1
        opt = lambda x, f: "None" if x is None else "(Some %s)" % f(x)
        hdr = lambda h: lst(s(x) for x in h)
        rows = lambda ls: lst(jobj(l) for l in ls)
        out.append("(* %s *)\nExample flatten_%d : check_flatten %s\n  %s\n  %s %s\n  %s\n  %s = true.\nProof. vm_compute. reflexivity. Qed." % (
            comment.replace("(*","").replace("*)",""), n, s(root), lst(jv(x) for x in recs),
            opt(main_header, hdr), opt(main_lines, rows),
            opt(sub_headers, lambda d: lst("(%s, %s)" % (s(k), hdr(v)) for k, v in d.items())),
            lst("(%s, %s)" % (s(k), rows(v)) for k, v in sub_lines.items())))
    env = {"OrderedDict": OrderedDict, "Decimal": Decimal}
    ev = lambda node: eval(compile(ast.Expression(node), "x", "eval"), {"__builtins__": {}}, env)
    tree = ast.parse(open(T + "test_json_input.py").read())
    for fn in [f for f in ast.walk(tree) if isinstance(f, ast.FunctionDef)]:
        calls = [c for c in ast.walk(fn) if isinstance(c, ast.Call) and getattr(c.func, "id", "") == "JSONParser"]
        if len(calls) != 1: continue
        kw = {k.arg: k.value for k in calls[0].keywords}
        if "root_json_dict" not in kw or not set(kw) <= {"root_json_dict", "root_id", "root_list_path"}: continue
        try: data = ev(kw["root_json_dict"])
        except Exception: continue
        if "root_list_path" in kw: data = data[ev(kw["root_list_path"])]
        if not isinstance(data, list): continue
        root = ev(kw["root_id"]) if "root_id" in kw else "ocid"
        mh = ml = sh = None; sl = {}
        for a in [x for x in ast.walk(fn) if isinstance(x, ast.Assert)]:
            t = a.test
            if not (isinstance(t, ast.Compare) and isinstance(t.ops[0], ast.Eq)): continue
            left = ast.unparse(t.left)
            try: right = ev(t.comparators[0])
            except Exception: continue
            if left == "list(parser.main_sheet)": mh = right
            elif left == "list(parser.main_sheet.lines)": ml = right
            elif left in ("listify(parser.sub_sheets)", "parser.sub_sheets"): sh = right
            elif left.startswith("list(parser.sub_sheets[") and left.endswith("].lines)"):
                sl[ast.literal_eval(left[len("list(parser.sub_sheets["):-len("].lines)")])] = right
        emit(fn.name, root or "", floats_to_dec(data), mh, floats_to_dec(ml), sh, floats_to_dec(sl))
    for x in load("test_input_SpreadsheetInput_unflatten.py", "testdata"):
        comment, exp, inp, warns, rev = x[:5]
        if not rev or "WKT" in comment: continue
        for root in ("ocid", ""):
            e = [inject(root, d) for d in exp]
            if e == [{}]: e = []
            emit(comment, root, [floats_to_dec(inject(root, d)) for d in inp], None, floats_to_dec(e), None, {})
    for (comment, exp, inp, warns, rev) in load("test_input_SpreadsheetInput_unflatten_mulitplesheets.py", "testdata_multiplesheets"):
        if not rev: continue
        for root in ("ocid", "custom", ""):
            e = {k: [floats_to_dec(inject(root, l)) for l in ls] for k, ls in exp.items()}
            main = e.pop("custom_main", None)
            emit(comment, root, [floats_to_dec(inject(root, d)) for d in inp], None, main, None, e)
    open("/verif/rocq/theories/Tests/FlattenRepo.v", "w").write("\n".join(out) + "\n")
    print(n, "flatten tests")

if __name__ == "__main__":
    unflatten_tests()
    flatten_tests()
