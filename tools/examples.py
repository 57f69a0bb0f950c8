#!/usr/bin/env python3
"""Makes rocq/theories/Tests/DocExamples.v from the examples of the documentation
in /repo/examples (read as text, nothing is run).  Left out: the help texts.  XLSX
files are read here; so are XML schemas, without their annotations, and XML output."""
import json, os, re, shlex, sys, zipfile
import xml.etree.ElementTree as ET
R = '/repo'
def q(s):
    # (coqdep takes ". From" in a string for a command)
    if all(32 <= ord(c) < 127 for c in s) and '. From' not in s:
        return '(u "' + s.replace('"', '""') + '")'
    return '([' + '; '.join(str(ord(c)) for c in s) + ']%N)'
def text(s):
    for nl, name in (('\r\n', 'crlf_'), ('\n', 'lf_')):
        if nl in s:
            parts = s.split(nl)
            return '(line_text %s [' % name + ';\n      '.join(q(p) for p in parts) + '])'
    return q(s)
def read(p):
    with open(os.path.join(R, p), newline='', encoding='utf-8') as f:
        return f.read()
class TooDeep(Exception): pass
# jsonref: "$ref" is replaced by what it points to; the dictionary with the "$ref" is
# kept as the reference of the new one
def schema_term(path):
    docs = {}
    def doc(p):
        if p not in docs: docs[p] = json.loads(read(p))
        return docs[p]
    def get(p, frag):
        v = doc(p)
        for k in [k for k in frag.split('/') if k]:
            k = k.replace('~1', '/').replace('~0', '~')
            v = v[int(k)] if isinstance(v, list) else v[k]
        return v
    def term(v, p, depth):
        if depth > 30: raise TooDeep
        if isinstance(v, dict):
            ref = 'None'
            if isinstance(v.get('$ref'), str):
                ref = '(Some [' + '; '.join('(%s, %s)' % (q(k), term(x, p, depth + 1)) for k, x in v.items()) + '])'
                f, _, frag = v['$ref'].partition('#')
                np = os.path.normpath(os.path.join(os.path.dirname(p), f)) if f else p
                t = get(np, frag)
                return target(t, np, depth + 1, ref)
            return target(v, p, depth, ref)
        if isinstance(v, list): return '(VA [' + '; '.join(term(x, p, depth + 1) for x in v) + '])'
        if v is None: return '(VS SNone)'
        if isinstance(v, bool): return '(VS (SBool %s))' % str(v).lower()
        if isinstance(v, int): return '(VS (SInt (%d)))' % v
        if isinstance(v, str): return '(VS (SStr %s))' % q(v)
        raise TooDeep
    def target(v, p, depth, ref):
        assert isinstance(v, dict) and '$ref' not in v
        return '(VO %s [' % ref + '; '.join('(%s, %s)' % (q(k), term(x, p, depth + 1)) for k, x in v.items()) + '])'
    return term(doc(path), path, 0)
M = '{http://schemas.openxmlformats.org/spreadsheetml/2006/main}'
REL = '{http://schemas.openxmlformats.org/officeDocument/2006/relationships}'
def book_term(path):
    z = zipfile.ZipFile(os.path.join(R, path))
    shared = [''.join(t.text or '' for t in si.iter(M + 't')) for si in ET.fromstring(z.read('xl/sharedStrings.xml'))]
    rels = {r.get('Id'): r.get('Target') for r in ET.fromstring(z.read('xl/_rels/workbook.xml.rels'))}
    sheets = []
    for sh in ET.fromstring(z.read('xl/workbook.xml')).iter(M + 'sheet'):
        rows = {}
        for c in ET.fromstring(z.read('xl/' + rels[sh.get(REL + 'id')])).iter(M + 'c'):
            v = c.find(M + 'v')
            if v is None: continue
            col, row = re.match('([A-Z]+)([0-9]+)$', c.get('r')).groups()
            n = 0
            for ch in col: n = n * 26 + ord(ch) - 64
            t = c.get('t', 'n')
            assert t in ('s', 'n'), t
            rows[int(row), n] = '(SStr %s)' % q(shared[int(v.text)]) if t == 's' else '(SInt %d)' % int(v.text)
        nr, nc = max(r for r, _ in rows), max(c for _, c in rows)
        sheets.append('(%s, [%s])' % (q(sh.get('name')), '; '.join('[' + '; '.join(rows.get((r, c), 'SNone') for c in range(1, nc + 1)) + ']' for r in range(1, nr + 1))))
    return '[' + '; '.join(sheets) + ']'
XS = '{http://www.w3.org/2001/XMLSchema}'
def xel_term(e, name=lambda t: t):
    kids = [c for c in e if isinstance(c.tag, str) and c.tag != XS + 'annotation']
    text = (e.text or '').strip()
    return '(El %s [%s] %s [%s])' % (q(name(e.tag)), '; '.join('(%s, %s)' % (q(k), q(v)) for k, v in e.attrib.items()),
        '(Some %s)' % q(e.text) if text else 'None', ';\n   '.join(xel_term(c, name) for c in kids))
xsds = {}
def xsd_term(path):
    if path not in xsds:
        e = ET.fromstring(read(path).encode('utf-8'))
        xsds[path] = ('xsd_%d' % len(xsds), xel_term(e, lambda t: t.replace(XS, 'xsd:')))
    return xsds[path][0]
out, left = [], []
for root, dirs, files in sorted(os.walk(os.path.join(R, 'examples'))):
    root = os.path.relpath(root, R)
    if 'cmd.txt' not in files: continue
    cmds = read(root + '/cmd.txt').strip().split('\n')
    argv = shlex.split(cmds[0])[2:]
    why = None
    if 'help' in root: why = 'help'
    if why: left.append((root, why)); continue
    names, schemas, books, xs = [], [], [], []
    skip = 0
    for i, a in enumerate(argv):
        flag, eq, val = a.partition('=')
        if flag in ('--schema', '-s'):
            schemas.append(val if eq else argv[i + 1])
        elif flag in ('-o', '--cell-source-map', '--heading-source-map'): continue
        for c in (val if eq else '', a):
            if c.startswith('examples/') and '/actual' not in c and c not in schemas:
                p = os.path.join(R, c)
                if c.endswith('.xlsx'): books.append(c); continue
                if c.endswith('.xsd'): xs.append(c); continue
                if os.path.isdir(p):
                    names += [os.path.join(c.rstrip('/'), n) for n in sorted(os.listdir(p)) if n.endswith('.csv')]
                elif os.path.isfile(p): names.append(c)
    schemas = list(dict.fromkeys(schemas)); names = [n for n in dict.fromkeys(names) if n not in schemas]
    if 'unflattened.json' in ' '.join(names): names = [n for n in names if 'unflattened.json' not in n]
    off = '--disable-local-refs' in argv
    expected = []
    outname = None
    for i, a in enumerate(argv):
        if a == '-o': outname = argv[i + 1]
        elif a.startswith('-o='): outname = a[3:]   # cli: -o=x gives "x"
    d = os.path.join(R, root, 'expected')
    if os.path.isdir(d):
        for n in sorted(os.listdir(d)):
            expected.append((root + '/actual/' + n, read(root + '/expected/' + n)))
    stdout = None
    if len(cmds) > 1:   # $ cat FILE
        assert cmds[1].startswith('$ cat ')
        stdout = None
        expected.append((cmds[1][6:], read(root + '/expected.json')))
    else:
        for n in ('expected.txt', 'expected.json'):
            if os.path.exists(os.path.join(R, root, n)): stdout = read(root + '/' + n); break
        if stdout: expected.append((None, stdout))
    code = int(read(root + '/expected_return_code.txt').strip()) if 'expected_return_code.txt' in files else 0
    try:
        st = '' if off else '; '.join('(%s, %s)' % (q(s), schema_term(s)) for s in schemas)
    except (TooDeep, RecursionError):
        left.append((root, 'schema that refers to itself')); continue
    ident = root[len('examples/'):].replace('/', '_').replace('-', '_')
    world = '''(doc_world
    [%s]
    [%s] [%s]
    [%s] %s)''' % (';\n     '.join('(%s, %s)' % (q(n), text(read(n))) for n in names), '; '.join('(%s, %s)' % (q(b), book_term(b)) for b in books),
       '; '.join('(%s, %s)' % (q(x), xsd_term(x)) for x in xs), st, str(off).lower())
    args = '; '.join(q(a) for a in argv)
    if '--xml' in argv:
        t = read(root + '/expected.xml')
        out.append('''(** %s: %s *)
(* %s *)
Goal True. holds (xml_is %s
  [%s]
  %s
  %s). Qed.
''' % (root, ' '.join(argv), ident, world, args, xel_term(ET.fromstring(t.encode('utf-8'))), q(re.search('<!--(.*?)-->', t, re.S).group(1))))
        continue
    out.append('''(** %s: %s *)
(* %s *)
Goal True. holds (outcome_is %s
  [%s] %d
  [%s]). Qed.
''' % (root, ' '.join(argv), ident, world, args, code,
       ';\n   '.join('(%s, %s)' % ('None' if n is None else '(Some %s)' % q(n), text(t)) for n, t in expected)))
head = '''(** The examples of the documentation, /repo/examples, from the command line to the
    texts of the files (of XLSX input: cells; of XML output and XML schemas: the
    elements): made by tools/examples.py.  Left out: the help texts.  These are
    tests, evaluated when this file is compiled; nothing is proved here. *)
From Coq Require Import String.
From Verif.Base Require Import PyStr PyNum PyVal PyDict Outcome.
From Verif.Model Require Import Readers Schema SortXml.
From Verif.Tests Require Import ExampleLib.
Local Open Scope list_scope.

'''
with open(sys.argv[1] if len(sys.argv) > 1 else '/verif/rocq/theories/Tests/DocExamples.v', 'w', encoding='utf-8') as f:
    f.write(head + ''.join('(** %s *)\nDefinition %s : xel :=\n  %s.\n' % (p, n, t) for p, (n, t) in xsds.items()) + '\n'.join(out))
print(len(out), 'examples; left out:', left)
