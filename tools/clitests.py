"""Writes rocq/theories/Tests/CliArgparse.v: what the standard library's argparse
(3.11) makes of command lines, with the options of /repo/flattentool/cli.py.
cli.py is read as text (its add_argument calls are literals); it is not run."""
import argparse, ast, glob, random, shlex, sys, contextlib, io

src = ast.parse(open('/repo/flattentool/cli.py').read())
fn = next(n for n in src.body if isinstance(n, ast.FunctionDef) and n.name == 'create_parser')
names = {'output_formats': ['csv', 'ods', 'xlsx', 'all'], 'input_formats': ['csv', 'ods', 'xlsx'], 'int': int}
def val(n):
    return names[n.id] if isinstance(n, ast.Name) else ast.literal_eval(n)
def build():
    parsers, subs = {}, None
    for st in fn.body:
        call = st.value if isinstance(st, (ast.Expr, ast.Assign)) else None
        if not isinstance(call, ast.Call) or not isinstance(call.func, ast.Attribute):
            continue
        args = [val(a) for a in call.args] if call.func.attr != 'ArgumentParser' else []
        kw = {k.arg: val(k.value) for k in call.keywords}
        kw.pop('help', None)
        if call.func.attr == 'ArgumentParser':
            parsers['parser'] = argparse.ArgumentParser()
        elif call.func.attr == 'add_subparsers':
            subs = parsers['parser'].add_subparsers(**kw)
        elif call.func.attr == 'add_parser':
            parsers[st.targets[0].id] = subs.add_parser(*args)
        elif call.func.attr == 'add_argument':
            parsers[call.func.value.id].add_argument(*args, **kw)
    return parsers

ps = build()
def run(argv):
    if '--' in argv:
        return 'outside'
    try:
        with contextlib.redirect_stderr(io.StringIO()), contextlib.redirect_stdout(io.StringIO()):
            return vars(ps['parser'].parse_args(argv))
    except SystemExit as e:
        return 'usage' if e.code == 2 else 'help'

lines = []
for f in sorted(glob.glob('/repo/examples/**/cmd.txt', recursive=True)):
    for l in open(f):
        l = l.strip()
        if l.startswith('$ flatten-tool'):
            w = shlex.split(l[2:])
            if '|' not in w and '>' not in w and '<' not in w:
                lines.append(w[1:])
rnd = random.Random(int(sys.argv[1]) if len(sys.argv) > 1 else 7)
flags = {}
for c, p in (('create-template', 'parser_create_template'), ('flatten', 'parser_flatten'), ('unflatten', 'parser_unflatten')):
    flags[c] = list(ps[p]._option_string_actions)
vals = ['csv', 'xlsx', 'all', 'a', '', '-', '5', '-5', '-.5', '-5x', '=', 'x y', '-x y', 'CRLF', '1_0', ' 7 ', 'a=b', '--x', '-v', '-h']
for i in range(2500):
    c = rnd.choice(list(flags))
    l = []
    while rnd.random() < 0.2:
        l.append(rnd.choice(['-v', '--verbose', '--verb', '-vv', '-h', '--help', '-vh', '-vx', '-v=', '--v=1', '-q', '--q']))
    if rnd.random() < 0.97:
        l.append(c if rnd.random() < 0.97 else rnd.choice(['flat', 'x']))
    body = []
    if c != 'create-template' and rnd.random() < 0.85:
        body.append(['in.json'])
    if c == 'unflatten' and rnd.random() < 0.85:
        body.append(rnd.choice([['-f', 'csv'], ['-f=csv'], ['-fcsv'], ['--input', 'ods'], ['--input-format=xlsx']]))
    if c == 'create-template' and rnd.random() < 0.85:
        body.append(rnd.choice([['-s', 'x'], ['-s=x'], ['-sx'], ['--sch', 'x'], ['--schema=x']]))
    for _ in range(rnd.randrange(4)):
        f = rnd.choice(flags[c])
        if f in ('-h', '--help') and rnd.random() < 0.7:
            continue
        if rnd.random() < 0.25 and f.startswith('--'):
            f = f[:rnd.randrange(3, len(f) + 1)]
        act = ps['parser_' + c.replace('-', '_')]._option_string_actions.get(f)
        v = rnd.choice(vals[:4] if rnd.random() < 0.6 else vals)
        if act is not None and act.type is int and rnd.random() < 0.7:
            v = rnd.choice(['5', '0', ' 7 ', '1_0'])
        if act is not None and act.nargs == 0 and rnd.random() < 0.85:
            body.append([f])
        else:
            k = rnd.random()
            if k < 0.45: body.append([f, v])
            elif k < 0.7: body.append([f + '=' + v])
            elif k < 0.8: body.append([f + v])
            elif k < 0.9: body.append([f, v, rnd.choice(vals)])
            else: body.append([f])
    rnd.shuffle(body)
    lines.append(l + [w for b in body for w in b])

def s(x):
    assert '"' not in x
    return '(u "%s")' % x
def v(x):
    if x is True: return '(ABool true)'
    if x is False: return '(ABool false)'
    if isinstance(x, int): return '(AInt (%d))' % x
    if isinstance(x, str): return '(AStr %s)' % s(x)
    return '(AList [%s])' % '; '.join(v(y) for y in x)
def o(x):
    return 'None' if x is None else '(Some %s)' % v(x)
def coq(l):
    return '[%s]' % '; '.join(s(x) for x in l)
docs, kinds, keep = [], {}, []
good = [l for l in lines if isinstance(run(l), dict)]
bad = [l for l in lines if not isinstance(run(l), dict)]
ndoc = sum(1 for l in lines[:200] if l and '/' in ' '.join(l))
chosen = lines[:ndoc] + [l for l in good if l not in lines[:ndoc]][:int(sys.argv[2]) if len(sys.argv) > 2 else 220] + bad[:int(sys.argv[2]) if len(sys.argv) > 2 else 220]
out = []
for l in chosen:
    r = run(l)
    if isinstance(r, str):
        e = {'usage': 'PUsage', 'help': 'PHelp', 'outside': 'POutside'}[r]
    else:
        # the options that differ from their defaults, and how many attributes there are
        d = {k: x for k, x in r.items() if k not in ('subparser_name', 'verbose')}
        if r['subparser_name'] is None:
            e = 'PDone (%s, None)' % ('true' if r['verbose'] else 'false')
        else:
            sub = '[%s]' % '; '.join('(%s, %s)' % (s(k), o(x)) for k, x in d.items() if x is not None and x is not False)
            e = 'PDone (%s, Some (%s, %d%%nat, %s))' % ('true' if r['verbose'] else 'false', s(r['subparser_name']), len(d), sub)
    out.append('  (%s,\n   %s)' % (coq(l), e))
    kinds[e.split()[0]] = kinds.get(e.split()[0], 0) + 1
print(kinds, ndoc, len(lines), file=sys.stderr)
print('''(** Generated by tools/clitests.py: what the standard library's argparse makes of
    the command lines of /repo/examples/**/cmd.txt and of random ones, with the
    options of cli.py. *)
From Verif.Base Require Import PyStr PyNum PyVal PyDict Outcome.
From Verif.Model Require Import Cli.
Local Open Scope Z_scope.

Fixpoint aval_eqb (a b : aval) : bool :=
  match a, b with
  | AStr s, AStr t => str_eqb s t
  | AInt x, AInt y => Z.eqb x y
  | ABool x, ABool y => Bool.eqb x y
  | AList l, AList m => (fix go l m := match l, m with [], [] => true | x :: l', y :: m' => aval_eqb x y && go l' m' | _, _ => false end) l m
  | _, _ => false
  end.
(** None and False are left out of the expected attributes *)
Definition set_there (v : option aval) : bool := match v with None | Some (ABool false) => false | _ => true end.
Definition ns_ok (ns want : list (str * option aval)) (n : nat) : bool :=
  Nat.eqb (List.length ns) n
  && Nat.eqb (List.length (filter (fun kv => set_there (snd kv)) ns)) (List.length want)
  && forallb (fun kv => match sget (fst kv) ns, snd kv with Some (Some a), Some b => aval_eqb a b | _, _ => false end) want.
Definition verbose_of (ns : list (str * option aval)) : bool := match sget (u "verbose") ns with Some (Some (ABool b)) => b | _ => false end.
Definition line_ok (c : list str * presult (bool * option (str * nat * list (str * option aval)))) : bool :=
  match parse_args (fst c), snd c with
  | PUsage, PUsage | PHelp, PHelp | POutside, POutside => true
  | PDone (ns, None), PDone (v, None) => Bool.eqb (verbose_of ns) v
  | PDone (ns, Some (name, sub)), PDone (v, Some (name', n, want)) => Bool.eqb (verbose_of ns) v && str_eqb name name' && ns_ok sub want n
  | _, _ => false
  end.
Definition lines : list (list str * presult (bool * option (str * nat * list (str * option aval)))) := [
%s].
Example lines_ok : forallb line_ok lines = true.
Proof. vm_compute. reflexivity. Qed.''' % ';\n'.join(out))
