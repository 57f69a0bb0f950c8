"""Turn the assertions of flattentool/tests/test_schema_parser.py into Coq examples
(the file is only parsed, nothing of the project is run)."""
import ast, sys
T=ast.parse(open('/repo/flattentool/tests/test_schema_parser.py').read())
def ev(n,env):
    if isinstance(n,ast.Dict): return [(ev(k,env),ev(v,env)) for k,v in zip(n.keys,n.values)]
    if isinstance(n,ast.Constant): return n.value
    if isinstance(n,(ast.List,ast.Tuple)): return ('L',[ev(x,env) for x in n.elts])
    if isinstance(n,ast.Name): return env[n.id]
    if isinstance(n,ast.Call) and n.func.id=='OrderedDict': return [tuple(ev(x,env)[1]) for x in n.args[0].elts]
    if isinstance(n,ast.Call) and n.func.id=='object_in_array_example_properties':
        a,b=[ev(x,env) for x in n.args]; ts=env['type_string']
        return [("id",ts),(a,[("type","array"),("items",[("type","object"),("properties",[(b,ts)])])])]
    if isinstance(n,ast.Call) and n.func.id=='set': return ev(n.args[0],env) if n.args else ('L',[])
    raise ValueError(ast.dump(n))
q=lambda s:'u "%s"'%s
def sv(v):
    if isinstance(v,str): return '(VS (SStr (%s)))'%q(v)
    if isinstance(v,tuple): return '(VA [%s])'%'; '.join(map(sv,v[1]))
    if isinstance(v,list): return '(VO None [%s])'%'; '.join('(%s, %s)'%(q(k),sv(x)) for k,x in v)
    raise ValueError(v)
lst=lambda l:'[%s]'%'; '.join(map(q,l))
out=[]
def run(name,body,env):
    cur=None; n=0
    for s in body:
        if isinstance(s,ast.If):
            b=s.body if env[s.test.id] else s.orelse
            cur,n=run2(name,b,env,cur,n); continue
        cur,n=run2(name,[s],env,cur,n)
    if cur: flush(name,cur,n)
def flush(name,cur,n):
    c=cur
    out.append('Example %s_%d : check_schema (sopts_of %s %s %s) %s\n  %s %s [%s] %s = true.\nProof. vm_compute. reflexivity. Qed.'%(name,n,c['rollup'],c['titles'],c['root'],sv(c['schema']),
      'None' if c['main'] is None else '(Some %s)'%lst(c['main']), 'None' if c['subs'] is None else '(Some %s)'%lst(c['subs']),
      '; '.join('(%s, %s)'%(q(k),lst(v)) for k,v in c['cols']), 'None' if c['nw'] is None else '(Some %d%%nat)'%c['nw']))
def run2(name,body,env,cur,n):
    for s in body:
        if isinstance(s,ast.Assign) and isinstance(s.value,ast.Call) and getattr(s.value.func,'id','')=='SchemaParser':
            kw={k.arg:k.value for k in s.value.keywords}
            if 'root_schema_dict' not in kw: return None,n
            if cur: flush(name,cur,n); n+=1
            cur=dict(schema=ev(kw['root_schema_dict'],env),rollup='true' if 'rollup' in kw else 'false',titles=('true' if ev(kw['use_titles'],env) else 'false') if 'use_titles' in kw else 'false',root='(%s)'%q(ev(kw['root_id'],env)) if 'root_id' in kw else '[]',main=None,subs=None,cols=[],nw=None)
        elif isinstance(s,ast.Assert) and cur is not None and isinstance(s.test,ast.Compare) and isinstance(s.test.left,ast.Call):
            l=s.test.left; r=s.test.comparators[0]
            src=ast.unparse(l)
            if src=='len(recwarn)': cur['nw']=r.value
            elif src=='set(parser.main_sheet)': cur['main']=ev(r,env)[1]
            elif src=='set(parser.sub_sheets)': cur['subs']=ev(r,env)[1]
            elif 'sub_sheets[' in src: cur['cols'].append((l.args[0].slice.value,ev(r,env)[1]))
            else: raise ValueError(src)
    return cur,n
base={'type_string':[("type","string")]}
def funcs(body,pre):
    for f in body:
        if isinstance(f,ast.ClassDef): yield from funcs(f.body,pre+f.name+'_')
        elif isinstance(f,ast.FunctionDef) and f.name.startswith('test_') and f.name not in('test_sub_sheet_list_like','test_get_property_type_set','test_filename_and_dict_error'): yield pre+f.name,f
for name,f in funcs(T.body,''):
    args=[a.arg for a in f.args.args]
    if 'use_titles' in args: envs=[('_t',dict(base,use_titles=True)),('_f',dict(base,use_titles=False))]
    elif 'type_' in args: envs=[('_s',dict(base,type_='string')),('_n',dict(base,type_='number'))]
    else: envs=[('',base)]
    for suf,e in envs:
        run(name+suf,f.body,e)
print('''(** The assertions of flattentool/tests/test_schema_parser.py, by tools/gen_schema_tests.py. *)
From Coq Require Import String.
From Verif.Base Require Import PyStr PyNum PyVal PyDict Outcome.
From Verif.Model Require Import Flatten Titles Schema.
From Verif.Tests Require Import TestLib SchemaLib.
''')
print('\n'.join(out))
