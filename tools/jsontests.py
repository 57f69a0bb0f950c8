"""Tests/JsonPython.v: what Python's json package makes of texts and of data, to
be compared with Model/JsonText.v."""
import json, random, re
random.seed(65)
def coq_str(s): return "[" + "; ".join(str(ord(c)) for c in s) + "]"
class Real:
    def __init__(self, text):
        m = re.fullmatch(r"(-?)(\d+)(?:\.(\d+))?(?:[eE]([+-]?\d+))?", text)
        fs = m.group(3) or ""
        self.neg, self.c, self.e = m.group(1) == "-", int(m.group(2) + fs), int(m.group(4) or 0) - len(fs)
class Odd:
    def __init__(self, s): self.s = s
def jval(v):
    if v is None: return "VNull"
    if v is True: return "VBool true"
    if v is False: return "VBool false"
    if isinstance(v, int): return "VInt (%d)%%Z" % v
    if isinstance(v, Real): return "VReal %s %d (%d)%%Z" % (str(v.neg).lower(), v.c, v.e)
    if isinstance(v, Odd): return "VOdd %s" % coq_str(v.s)
    if isinstance(v, str): return "VStr %s" % coq_str(v)
    if isinstance(v, list): return "VArr [%s]" % "; ".join(jval(x) for x in v)
    return "VObj [%s]" % "; ".join("(%s, %s)" % (coq_str(k), jval(x)) for k, x in v.items())
def jv(v):
    if v is None: return "JS SNone"
    if v is True: return "JS (SBool true)"
    if v is False: return "JS (SBool false)"
    if isinstance(v, int): return "JS (SInt (%d)%%Z)" % v
    if isinstance(v, float): return "JS (SFlt %s)" % ("FNan" if v != v else "(FInf %s)" % str(v < 0).lower())
    if isinstance(v, str): return "JS (SStr %s)" % coq_str(v)
    if isinstance(v, list): return "JA [%s]" % "; ".join(jv(x) for x in v)
    return "JO [%s]" % "; ".join("(%s, %s)" % (coq_str(k), jv(x)) for k, x in v.items())
CHARS = 'ab"\\/\b\f\n\r\t\x00\x1f\x7f \u00e9\u2028\u20ac\U0001f600\ud800\udc00'
def text(): return "".join(random.choice(CHARS) for _ in range(random.randrange(6)))
def data(depth=0):
    r = random.random()
    if depth > 3 or r < 0.5:
        return random.choice([None, True, False, 0, -1, random.randrange(-10**20, 10**20), text(), text(), text(), float("nan"), float("inf"), -float("inf")])
    if r < 0.75: return [data(depth + 1) for _ in range(random.randrange(4))]
    return {text(): data(depth + 1) for _ in range(random.randrange(4))}
def load(t):
    try:
        return "Some (%s)" % jval(json.loads(t, parse_float=Real, parse_constant=Odd))
    except json.JSONDecodeError:
        return "None"
texts = ['', ' ', 'null', ' null ', 'nul', 'nullx', 'true', 'false', 'NaN', 'Infinity', '-Infinity', '-Infinit', 'TRUE', '0', '-0', '00', '01', '-', '+1', '1', '-12',
  '1.', '.5', '0.5', '-0.50', '1e5', '1E+5', '1e-05', '1.5e', '1.5e+', '1.25E-2', '12345678901234567890', '1 2', '1\x0b', '\t1\r\n', '\ufeff1', '""', '"a"', '"a', '"\\"', '"\\""',
  '"\\u0041"', '"\\u00e9"', '"\\u12"', '"\\uD83D\\uDE00"', '"\\ud83d\\ude00"', '"\\ud83d"', '"\\ud83dx"', '"\\ud83d\\u0041"', '"\\ude00\\ud83d"', '"\\ud83d\\ud83d\\ude00"',
  '"\\ud83d\\n"', '"\\x41"', '"\\/\\b\\f\\n\\r\\t\\\\"', '"\t"', '"\n"', '"\x7f"', '"\u2028"', "'a'", '[]', '[ ]', '[1]', '[1,]', '[,1]', '[1 ,2 , 3]', '[1 2]', '[[],[[]]]', '[', ']', '[1',
  '{}', '{ }', '{"a":1}', '{"a" : 1 , "b":[{}]}', '{"a":1,}', '{a:1}', '{"a"}', '{"a":}', '{"a":1,"a":2}', '{"a":1,"b":2,"a":{"x":1,"x":2}}', '{"a":1', '{"a" 1}', '{1:2}', '{}{}', '[NaN,-Infinity]',
  '"\\ud83d\\uzzzz"', '"\\ud83d\\u"', '[1]]', '-a', '1.e5', '1e5.5', 'Inf', '{"a":1 "b":2}', '"a""b"', '/**/1']
for _ in range(60):
    t = list(json.dumps(data(), indent=random.choice([None, 1, 4]), ensure_ascii=random.random() < 0.5))
    if random.random() < 0.6 and t:
        i = random.randrange(len(t))
        t[i:i + random.randrange(3)] = random.choice(["", ",", "]", '"', " ", "\\", "e", ".", "-"])
    texts.append("".join(t))
datas = [data() for _ in range(60)]
out = ["(** Generated by tools/jsontests.py: json.loads and json.dumps of CPython. *)",
  "From Verif.Base Require Import PyStr PyNum PyVal PyDict.", "From Verif.Model Require Import Flatten JsonText.", "From Verif.Tests Require Import TestLib.", "Local Open Scope N_scope.", "",
  "Definition texts : list (str * option jval) := ["]
out.append(";\n".join("  (%s, %s)" % (coq_str(t), load(t)) for t in texts))
out += ["].", "Example loads_as_python : map (fun x => loads (fst x)) texts = map snd texts.", "Proof. vm_compute. reflexivity. Qed.", "",
  "Definition datas : list (jv * str) := ["]
out.append(";\n".join("  (%s, %s)" % (jv(d), coq_str(json.dumps(d, indent=4, ensure_ascii=False))) for d in datas))
out += ["].", "Example dumps_as_python : map (fun x => dumps test_env 0 (fst x)) datas = map snd datas.", "Proof. vm_compute. reflexivity. Qed.", ""]
open("rocq/theories/Tests/JsonPython.v", "w").write("\n".join(out))
