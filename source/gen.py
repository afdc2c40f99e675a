"""Writes Source.v and SourceSpecs.v: the syntax trees of decoder.py, encoder.py, tools.py and specs.py as Coq terms.
The source is parsed as text, it is not run. Left out: docstrings, annotations,
`from None` of raise."""
import ast,sys
REPO=sys.argv[1] if len(sys.argv)>1 else '/repo'
OP={'Add':'Add','Sub':'Sub','Mult':'Mult','FloorDiv':'FloorDiv','Mod':'Mod','BitAnd':'BitAnd','BitOr':'BitOr','LShift':'LShift','RShift':'RShift'}
CMP={'Eq':'CmpEq','NotEq':'CmpNotEq','LtE':'CmpLtE','Gt':'CmpGt','In':'CmpIn','NotIn':'CmpNotIn','Is':'CmpIs','IsNot':'CmpIsNot'}
def s(x):
    assert all(ord(c)<127 for c in x)
    return '"'+x.replace('"','""')+'"'
def lst(l): return '['+'; '.join(l)+']'
def opt(x): return 'None' if x is None else f'(Some {x})'
def e(n):
    t=type(n).__name__
    if t=='Constant':
        v=n.value
        if v is None: c='CNone'
        elif v is True: c='CTrue'
        elif v is False: c='CFalse'
        elif isinstance(v,int): c=f'(CInt {v})'
        elif isinstance(v,str): c=f'(CStr {s(v)})'
        elif isinstance(v,bytes): c=f'(CBytes {lst([f"{b}%N" for b in v])})'
        else: raise Exception(v)
        return f'(Constant {c})'
    if t=='Name': return f'(Name {s(n.id)})'
    if t=='Attribute': return f'(Attribute {e(n.value)} {s(n.attr)})'
    if t=='Subscript': return f'(Subscript {e(n.value)} {e(n.slice)})'
    if t=='Slice':
        assert n.step is None
        return f'(Slice {opt(n.lower and e(n.lower))} {opt(n.upper and e(n.upper))})'
    if t=='Call': return f'(Call {e(n.func)} {lst([e(a) for a in n.args])} {lst([f"({s(k.arg)}, {e(k.value)})" for k in n.keywords])})'
    if t=='BinOp': return f'(BinOp {e(n.left)} {OP[type(n.op).__name__]} {e(n.right)})'
    if t=='BoolOp':
        assert isinstance(n.op,ast.And) and len(n.values)==2
        return f'(BoolAnd {e(n.values[0])} {e(n.values[1])})'
    if t=='UnaryOp': return f'({type(n.op).__name__} {e(n.operand)})'
    if t=='Compare':
        assert len(n.ops)==1
        return f'(Compare {e(n.left)} {CMP[type(n.ops[0]).__name__]} {e(n.comparators[0])})'
    if t=='IfExp': return f'(IfExp {e(n.test)} {e(n.body)} {e(n.orelse)})'
    if t=='Tuple': return f'(Tuple {lst([e(a) for a in n.elts])})'
    if t=='List': return f'(EList {lst([e(a) for a in n.elts])})'
    if t=='Dict': return f'(Dict {lst([f"({e(k)}, {e(v)})" for k,v in zip(n.keys,n.values)])})'
    if t=='ListComp':
        gs=[]
        for g in n.generators:
            assert not g.is_async
            gs.append(f'({e(g.target)}, {e(g.iter)}, {lst([e(i) for i in g.ifs])})')
        return f'(ListComp {e(n.elt)} {lst(gs)})'
    if t=='JoinedStr': return f'(JoinedStr {lst([e(a) for a in n.values])})'
    if t=='FormattedValue':
        assert n.conversion==-1 and n.format_spec is None
        return e(n.value)
    raise Exception(t)
def block(b,ind):
    b=[x for x in b if not (isinstance(x,ast.Expr) and isinstance(x.value,ast.Constant) and isinstance(x.value.value,str))]
    if not b: return '[]'
    return '[\n'+';\n'.join(' '*ind+st(x,ind) for x in b)+']'
def st(n,ind):
    t=type(n).__name__
    if t=='Expr':
        if isinstance(n.value,ast.Yield): return f'YieldS {e(n.value.value)}'
        return f'Expr {e(n.value)}'
    if t=='Assign':
        assert len(n.targets)==1
        return f'Assign {e(n.targets[0])} {e(n.value)}'
    if t=='AnnAssign': return f'Assign {e(n.target)} {e(n.value)}'
    if t=='AugAssign': return f'AugAssign {e(n.target)} {OP[type(n.op).__name__]} {e(n.value)}'
    if t=='If': return f'If {e(n.test)} {block(n.body,ind+2)} {block(n.orelse,ind+2)}'
    if t=='For':
        assert not n.orelse
        return f'For {e(n.target)} {e(n.iter)} {block(n.body,ind+2)}'
    if t=='Return': return f'Return {opt(n.value and e(n.value))}'
    if t=='Raise':
        assert n.cause is None or (isinstance(n.cause,ast.Constant) and n.cause.value is None)
        return f'RaiseS {e(n.exc)}'
    if t=='Try':
        assert not n.orelse and not n.finalbody
        hs=[f'({s(h.type.id)}, {opt(h.name and s(h.name))}, {block(h.body,ind+2)})' for h in n.handlers]
        return f'Try {block(n.body,ind+2)} {lst(hs)}'
    raise Exception(t)
out=['(** * Source: decoder.py, encoder.py and tools.py as syntax trees.','    Written by source/gen.py from the text of /repo/iso8583; not edited by hand. *)','From Verif Require Import PyAst.','Local Open Scope string_scope.','Local Open Scope Z_scope.','Local Open Scope list_scope.','']
for mod in ['decoder','encoder','tools']:
    tree=ast.parse(open(f'{REPO}/iso8583/{mod}.py').read())
    names=[];top=[];table=[]
    def fun(f,q):
        a=f.args
        assert not (a.posonlyargs or a.kwonlyargs or a.vararg or a.kwarg) and not f.decorator_list
        nm='src_'+q.replace('.','_')
        names.append((q,nm))
        out.append(f'(** {mod}.py:{f.lineno}-{f.end_lineno} *)')
        out.append(f'Definition {nm} : fundef := {{| f_params := {lst([s(x.arg) for x in a.args])}; f_body := {block(f.body,2)} |}}.\n')
        if a.defaults:
            out.append(f'(** The default values of the last parameters of {q}. *)')
            out.append(f'Definition defaults_{q.replace(".","_")} : list expr := {lst([e(d) for d in a.defaults])}.\n')
    for n in tree.body:
        if isinstance(n,ast.FunctionDef): fun(n,n.name)
        elif isinstance(n,ast.ClassDef):
            assert [b.id for b in n.bases]==['ValueError'] and not n.decorator_list and not n.keywords
            for m in n.body:
                if isinstance(m,ast.FunctionDef): fun(m,n.name+'.'+m.name)
                else: assert isinstance(m,ast.Expr)
        elif isinstance(n,ast.Assign) and isinstance(n.targets[0],ast.Subscript):
            k=n.targets[0]
            assert k.value.id=='_dispatch' and k.slice.attr=='__repr__'
            table.append((n.lineno,k.slice.value.id,n.value.id))
        else: top.append(ast.unparse(n))
    out.append(f'Definition {mod}_py : list (string * fundef) := [\n'+';\n'.join(f'  ({s(q)}, {nm})' for q,nm in names)+'].\n')
    if table:
        out.append(f'(** _dispatch, {mod}.py:{", ".join(str(l) for l,_,_ in table)} *)')
        out.append(f'Definition {mod}_table : list (string * string) := {lst([f"({s(c)}, {s(f)})" for _,c,f in table])}.\n')
    print(mod,top,file=sys.stderr)
open(sys.argv[2] if len(sys.argv)>2 else '/verif/rocq/theories/Source.v','w').write('\n'.join(out))

# The two specifications, specs.py
out=['(** * SourceSpecs: specs.py as syntax trees.','    Written by source/gen.py from the text of /repo/iso8583; not edited by hand. *)','From Verif Require Import PyAst.','Local Open Scope string_scope.','Local Open Scope Z_scope.','Local Open Scope list_scope.','']
names=[]
for n in ast.parse(open(f'{REPO}/iso8583/specs.py').read()).body:
    if isinstance(n,ast.Expr) and isinstance(n.value,ast.Constant): continue
    assert isinstance(n,ast.Assign) and len(n.targets)==1 and isinstance(n.value,ast.Dict)
    x=n.targets[0].id
    names.append(x)
    out.append(f'(** specs.py:{n.lineno}-{n.end_lineno} *)')
    out.append(f'Definition src_{x} : expr := Dict [\n'+';\n'.join(f'  ({e(k)}, {e(v)})' for k,v in zip(n.value.keys,n.value.values))+'].\n')
out.append('(** The statements of the module, in this order. *)')
out.append('Definition specs_py : list stmt := '+lst([f'Assign (Name {s(x)}) src_{x}' for x in names])+'.\n')
open(sys.argv[3] if len(sys.argv)>3 else sys.argv[2].replace('Source.v','SourceSpecs.v') if len(sys.argv)>2 else '/verif/rocq/theories/SourceSpecs.v','w').write('\n'.join(out))
