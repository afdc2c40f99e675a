"""Differential test of rocq/theories/PySem.v against CPython.

    difftest.py SEED N DIR

writes to DIR a Coq file with N random programs of the subset of PyAst.v (none of them from /repo) and what
CPython gave for each; compile DiffBase.v, then Programs.v, with -Q .../theories Verif -R DIR Diff. Every
answer is Same, Stk (outside of the subset: PySem gives no answer) or Differs. Even seeds also misuse
operations: wrong arguments, attributes, operators, names.
"""
import ast,random,sys,io,types,binascii,re
seed=int(sys.argv[1]);N=int(sys.argv[2]);DIR=sys.argv[3];MUT=seed%2==0
R=random.Random(seed)
import os
src=open(os.path.join(os.path.dirname(os.path.abspath(__file__)),'gen.py')).read()
pre=src[:src.index("out=['(** * Source:")].replace("REPO=sys.argv[1] if len(sys.argv)>1 else '/repo'","")
G={};exec(pre,G);block,lst,cs=G['block'],G['lst'],G['s']
TY=['int','str','bytes','ba','set','dict','list','bool','none']
CODECS=['ascii','latin-1','cp500','utf-8','no-such']
def const(ty):
    if ty=='int': return repr(R.choice([0,1,2,3,5,7,8,10,16,64,100,128,255,256,-1,-3]))
    if ty=='str': return repr(R.choice(['','a','0','12','abc','ABC','0A','fF','1 2','x y','"q','007','-5','big','ascii','zz']))
    if ty=='bytes': return repr(R.choice([b'',b'a',b'\x00',b'\x80\xff',b'12',b'0a',b'abc',b"q'",b'\n\\',b'q"\'']))
    if ty=='bool': return R.choice(['True','False'])
    if ty=='none': return 'None'
def template():
    r=''
    for _ in range(R.randint(1,3)):
        if R.random()<.3: r+=R.choice(['a',' ','{{','}}','x:'])
        else:
            f=R.choice(['','','a','w'])
            if R.random()<.7:
                f+=':'
                if R.random()<.4: f+=R.choice(['','*',' ','0','<'])+R.choice('<>^=')
                if R.random()<.3: f+='0'
                if R.random()<.7: f+=R.choice(['1','3','10','{w}','{w}','{}'])
                if R.random()<.6: f+=R.choice('sd')
            r+='{'+f+'}'
    return r
class Ctx:
    def __init__(s): s.v={t:[] for t in TY}; s.nonneg=[]
def ex(ty,c,d):
    if R.random()<0.02: ty=R.choice(TY)
    vs=c.v[ty]
    if d<=0 or R.random()<0.15:
        if vs and R.random()<0.7: return R.choice(vs)
        if ty in('int','str','bytes','bool','none'): return const(ty)
        if vs and R.random()<0.5: return R.choice(vs)
        return {'ba':'bytearray(b"ab")','set':'set()','dict':'{}','list':'[]'}[ty]
    e=lambda t: ex(t,c,d-1)
    def pick(*l): return R.choice(l)()
    if ty=='int':
        return pick(lambda:f'({e("int")} {R.choice(["+","-","*","&","|"])} {e("int")})',
          lambda:f'({e("int")} {R.choice(["//","%"])} {R.choice(["2","4","7","-3","8"])})',
          lambda:f'({e("int")} {R.choice(["<<",">>"])} {R.choice(["0","1","3","8"])})',
          lambda:f'len({e(R.choice(["str","bytes","ba","str","int","none"]))})',
          lambda:f'int({e("str")})', lambda:f'int({e("str")}, 10)', lambda:f'int({e("int")})',
          lambda:f'(-{e("int")})', lambda:f'int.from_bytes({e(R.choice(["bytes","ba"]))}, "big", signed=False)',
          lambda:f'({e("int")} if {e("bool")} else {e("int")})', lambda:f'{e("ba")}[{R.choice(["0","1","2","9"])}]',
          lambda:f'{e("dict")}[{e("str")}]', lambda:f'{e("dict")}.get({e("str")}, {e("int")})',lambda:f'g1({e("int")}, {e("int")})',
          lambda:f'len(({e("int")}, {e("str")}))',lambda:f'{e("dict")}.pop({e("str")}, {e("int")})')
    if ty=='str':
        return pick(lambda:f'({e("str")} + {e(R.choice(["str","str","str","int","bytes"]))})', lambda:f'({e("str")} * {R.choice(["2","0","-1","3"])})',
          lambda:f'{e("str")}[{R.choice(["","1","0","-1","2"])}:{R.choice(["","1","3","-1","2"])}]',
          lambda:f'{e("str")}[{e("int")}:{e("int")}]',
          lambda:f'str({e(R.choice(["int","str","list"]))})', lambda:f'repr({e(R.choice(["int","str","bytes","none","bool","ba"]))})',
          lambda:f'{e("str")}.upper()', lambda:f'{e(R.choice(["bytes","ba"]))}.hex()', lambda:f'{e(R.choice(["bytes","ba"]))}.decode({R.choice(CODECS)!r})',
          lambda:'f"'+R.choice(['a','','z '])+'{'+v_(c,'str')+'}'+R.choice(['','b'])+'{'+v_(c,'int')+'}"',
          lambda:f'"{{:0{{len_type}}d}}".format({e("int")}, len_type={R.choice(["1","2","5","-1",e("int")])})',
          lambda:f'"{{index:3s}}".format(index={e("str")})',
          lambda:f'" {{desc: <{{desc_width}}}}".format(desc={e("str")}, desc_width={R.choice(["0","1","4","9"])})',
          lambda:f'"{{}} ".format({e("str")})', lambda:f'{template()!r}.format({e(R.choice(["int","str"]))}, {R.choice(["3","7",e("str")])}, a={e(R.choice(["int","str","str","none"]))}, w={R.choice(["0","1","4","12","-2"])})', lambda:f'type({e(R.choice(TY))}).__name__',
          lambda:f'({e("str")} if {e("bool")} else {e("str")})',lambda:f'{e("dict")}[{e("str")}]',lambda:f'g2({e("str")}, {e("int")})')
    if ty=='bytes':
        return pick(lambda:f'({e("bytes")} + {e("bytes")})', lambda:f'bytes({e(R.choice(["ba","bytes"]))})',
          lambda:f'{e("bytes")}[{R.choice(["","1","0","-1","2"])}:{R.choice(["","1","3","-1","2"])}]',
          lambda:f'{e("str")}.encode({R.choice(CODECS)!r})', lambda:f'bytes({e("str")}, {R.choice(CODECS)!r})',
          lambda:f'bytes.fromhex({e("str")})', lambda:f'binascii.a2b_hex({e(R.choice(["str","bytes","ba","none","int"]))})',
          lambda:f'{e("int")}.to_bytes({R.choice(["1","2","4","-1","0"])}, "big", signed=False)' if R.random()<0.8 else f'({e("int")}).to_bytes({e("int")}, "big", signed=False)')
    if ty=='ba': return pick(lambda:f'bytearray({e(R.choice(["bytes","ba"]))})', lambda:'bytearray()', lambda:f'{e("ba")}[{R.choice(["","1","0"])}:{R.choice(["","1","3","-1"])}]')
    if ty=='set': return pick(lambda:f'set({e("listi")})' if False else f'set(range({R.choice(["0","2","-2"])}, {R.choice(["1","5","3"])}))', lambda:'set()',
          lambda:f'set([{e("int")}, {e("int")}])', lambda:f'{e("set")}.{R.choice(["difference","intersection"])}(range({e("int")}, {e("int")}))')
    if ty=='dict': return pick(lambda:'{'+', '.join(f'{e("str")}: {e(R.choice(["str","int"]))}' for _ in range(R.randint(0,3)))+'}')
    if ty=='list': return pick(lambda:'['+', '.join(e(R.choice(['int','str','bytes'])) for _ in range(R.randint(0,3)))+']',
          lambda:f'sorted({R.choice([e("set"),"[%s, %s]"%(e("int"),e("int"))])})', lambda:f'sorted([{e("str")}, {e("str")}, {e("str")}], key=int)',
          lambda:lc(c,d), lambda:f'g3({e("int")})', lambda:f'sorted({e("dict")}.keys(), key=int)')
    if ty=='bool': return pick(lambda:f'({e("int")} {R.choice(["==","!=","<=",">"])} {e("int")})', lambda:f'({e("str")} {R.choice(["==","!="])} {e("str")})',
          lambda:f'({e(R.choice(["none","str","int"]))} {R.choice(["is","is not"])} None)', lambda:f'(not {e(R.choice(["bool","str","int","bytes","none","set"]))})',
          lambda:f'({e("bool")} and {e("bool")})', lambda:f'({e("int")} {R.choice(["in","not in"])} {e("set")})', lambda:f'({e("str")} {R.choice(["in","not in"])} {e("dict")})',
          lambda:f'isinstance({e(R.choice(TY))}, {R.choice(["str","int","bytes","bytearray","dict","set","(bytes, bytearray)","(str, dict)"])})',
          lambda:f'{e("str")}.isnumeric()', lambda:f'{e(R.choice(TY))}.isnumeric()', lambda:f'{e("set")}.issubset(range({e("int")}, {e("int")}))')
    if ty=='none': return pick(lambda:'None', lambda:f'{e("set")}.add({e("int")})', lambda:f'{e("set")}.remove({e("int")})', lambda:f'{e("set")}.update({R.choice([e("set"),"range(1, 4)"])})')
def v_(c,t):
    return R.choice(c.v[t]) if c.v[t] else {'str':"'k'",'int':'3'}[t]
K=[0]
def fresh():
    K[0]+=1; return f'v{K[0]}'
def lc(c,d):
    c2=Ctx(); c2.v={t:list(x) for t,x in c.v.items()}
    x=fresh()
    kind=R.choice(['range','list','enum'])
    if kind=='range': it=f'range({R.choice(["0","1","8"])}, {R.choice(["3","0","9"])})'; c2.v['int'].append(x); tgt=x
    elif kind=='list': it=f'[{ex("str",c,d-1)}, {ex("str",c,d-1)}]'; c2.v['str'].append(x); tgt=x
    else:
        y=fresh(); it=f'enumerate({ex(R.choice(["bytes","ba"]),c,d-1)})'; c2.v['int']+=[x,y]; tgt=f'{x}, {y}'
    s=f'{ex(R.choice(["int","str","bytes"]),c2,d-1)} for {tgt} in {it}'
    if R.random()<0.4:
        z=fresh(); c2.v['int'].append(z)
        s=f'{ex("int",c2,1)} for {tgt} in {it} for {z} in range(0, 2)'
    if R.random()<0.5: s+=f' if {ex("bool",c2,d-1)}'
    return f'[{s}]'
EXC=['KeyError','ValueError','TypeError','LookupError','Exception','OverflowError','AttributeError','IndexError','NameError','UnicodeError']
def stmts(c,n,d,ind,allv,gen=False):
    o=[];sp='  '*ind
    for _ in range(n):
        k=R.random()
        if d==2 and not gen and R.random()<0.6:
            x=stmts(c,1,1,ind+1,allv,gen)
            o+=[f'{sp}try:']+x+[f'{sp}except Exception:',f'{sp}  w1 = 0']; continue
        if k<0.4:
            t=R.choice(TY); x=fresh() if R.random()<0.6 or not c.v[t] else R.choice(c.v[t])
            o.append(f'{sp}{x} = {ex(t,c,3)}')
            if x not in c.v[t]: c.v[t].append(x)
            allv.add(x)
        elif k<0.5 and any(c.v[t] for t in('int','str','bytes','ba')):
            t=R.choice([t for t in('int','str','bytes','ba') if c.v[t]]); x=R.choice(c.v[t])
            o.append(f'{sp}{x} {"+=" if t!="int" else R.choice(["+=","-=","*=","|=","&=","<<=",">>=","//=","%="])} {ex("bytes" if t=="ba" else t,c,2) if t!="int" else R.choice(["1","3",ex("int",c,1)])}')
        elif k<0.57 and c.v['dict']:
            o.append(f'{sp}{R.choice(c.v["dict"])}[{ex("str",c,1)}] = {ex(R.choice(["int","str","bytes"]),c,2)}')
        elif k<0.61 and c.v['ba']:
            o.append(f'{sp}{R.choice(c.v["ba"])}[{R.choice(["0","1","5"])}] {R.choice(["=","|=","=","+="])} {R.choice(["1","255","64",ex("int",c,1)])}')
        elif k<0.64 and c.v['dict']:
            o.append(f'{sp}{R.choice(c.v["dict"])}.pop({ex("str",c,1)}, None)')
        elif k<0.68:
            o.append(f'{sp}{ex("none",c,2)}')
        elif k<0.72:
            x=fresh();y=fresh(); o.append(f'{sp}{x}, {y} = {ex("int",c,2)}, {ex("str",c,2)}'); c.v['int'].append(x); c.v['str'].append(y); allv|={x,y}
        elif d>0 and k<0.82:
            cc=ex(R.choice(['bool','bool','int','str','bytes','none','set']),c,2)
            o.append(f'{sp}if {cc}:'); o+=stmts(c,R.randint(1,2),d-1,ind+1,allv,gen)
            if R.random()<0.6: o.append(f'{sp}else:'); o+=stmts(c,R.randint(1,2),d-1,ind+1,allv,gen)
        elif d>0 and k<0.88:
            x=fresh(); it=R.choice(['range(0, 3)',f'range(1, 9, {R.choice([2,3])})',ex('list',c,2),f'sorted({ex("set",c,1)})',f'{ex("dict",c,1)}.keys()' if c.v['dict'] else 'range(2, 4)'])
            y=fresh()
            if R.random()<0.3: o.append(f'{sp}for {x}, {y} in enumerate({ex("bytes",c,1)}):'); c.v['int'].append(y); allv.add(y); c.v['int'].append(x)
            else:
                o.append(f'{sp}for {x} in {it}:'); c.v['int' if 'range' in it else 'str'].append(x)
            allv.add(x)
            o+=stmts(c,R.randint(1,3),d-1,ind+1,allv,gen)
        elif d>0 and k<0.97:
            o.append(f'{sp}try:'); o+=stmts(c,R.randint(1,3),d-1,ind+1,allv,gen)
            for _ in range(R.randint(1,2)):
                if R.random()<0.4:
                    x=fresh(); o.append(f'{sp}except {R.choice(EXC)} as {x}:')
                    if R.random()<0.4: allv.add(x)
                else: o.append(f'{sp}except {R.choice(EXC)}:')
                o+=stmts(c,R.randint(1,2),d-1,ind+1,allv,gen)
        elif gen: o.append(f'{sp}yield {ex("int",c,2)}')
        elif k<0.985: o.append(f'{sp}raise TypeError({ex("str",c,2)})')
        else: o.append(f'{sp}return {ex(R.choice(TY),c,2)}')
    if not o: o=[f'{sp}w0 = 0']
    return o
def program():
    K[0]=0
    fs=[]
    def fun(name,params,ptys,ret,n,avail):
        c=Ctx(); allv=set()
        for p,t in zip(params,ptys): c.v[t].append(p)
        b=stmts(c,n,2,1,allv,gen=(ret=='gen'))
        if ret=='gen': b.append(f'  yield {ex("int",c,1)}')
        elif ret=='all':
            vs=sorted(allv); R.shuffle(vs); vs=vs[:8]
            for v in vs:
                if R.random()<0.9: b+=['  try:',f'    {v}','  except NameError:',f'    {v} = 0']
            b.append('  return ('+''.join(v+', ' for v in vs)+')')
        else: b.append(f'  return {ex(ret,c,2)}')
        return f'def {name}({", ".join(params)}):\n'+'\n'.join(b)+'\n'
    def nocall(t): return re.sub(r'(?<!def )\bg[123]\(','len(',t) 
    g1=nocall(fun('g1',['a','b'],['int','int'],'int',2,[]))
    g2=nocall(fun('g2',['a','b'],['str','int'],'str',2,[]))
    g3=nocall(fun('g3',['a'],['int'],'gen',2,[]))
    f=fun('f',['p','q','r'],['bytes','dict','str'],'all',R.randint(4,9),[])
    return g1+g2+g3+f
METH=['upper','isnumeric','hex','keys','get','pop','add','remove','update','difference','intersection','issubset','encode','decode','format','to_bytes','from_bytes','fromhex','a2b_hex','__class__','__name__','write','nothing']
class Mut(ast.NodeTransformer):
    def visit(self,n):
        self.generic_visit(n)
        if isinstance(n,ast.Call) and R.random()<0.03:
            k=R.randint(0,4)
            pool=[ast.Constant(value=R.choice([0,1,'a','12',b'a',None,True]))]+[ast.Name(id=R.choice(['p','q','r']),ctx=ast.Load())]
            if k==0 and n.args: n.args.pop(R.randrange(len(n.args)))
            elif k==1: n.args.append(R.choice(pool))
            elif k==2 and n.args: n.args[R.randrange(len(n.args))]=R.choice(pool)
            elif k==3: n.keywords.append(ast.keyword(arg=R.choice(['key','signed','encoding','x','len_type']),value=R.choice(pool)))
            elif n.keywords: n.keywords.pop()
        elif isinstance(n,ast.Attribute) and R.random()<0.03: n.attr=R.choice(METH)
        elif isinstance(n,ast.BinOp) and R.random()<0.03: n.op=R.choice([ast.Add,ast.Sub,ast.Mult,ast.FloorDiv,ast.Mod,ast.BitOr,ast.BitAnd,ast.LShift,ast.RShift])()
        elif isinstance(n,ast.Compare) and R.random()<0.05: n.ops=[R.choice([ast.Eq,ast.NotEq,ast.In,ast.NotIn,ast.Is,ast.IsNot,ast.LtE,ast.Gt,ast.Lt,ast.GtE])()]
        elif isinstance(n,ast.Name) and isinstance(n.ctx,ast.Load) and R.random()<0.02: n.id=R.choice(['p','q','r','len','int','str','bytes','set','ValueError','g1','dict','p','q','r'])
        elif isinstance(n,ast.Subscript) and R.random()<0.03: n.slice=R.choice([ast.Constant(value=R.choice([0,1,'a',None])),n.slice])
        return n
def mutate(text):
    t=ast.parse(text)
    t=Mut().visit(t); ast.fix_missing_locations(t)
    r=ast.unparse(t)+'\n'
    compile(r,'p','exec')
    return r
class Done_(Exception): pass
def dump(v):
    seen={}
    keep=[]
    def go(v):
        if v is None: return 'N'
        if v is True: return 'T'
        if v is False: return 'F'
        t=type(v)
        if t is int: return 'i'+str(v)
        if t is str: return 's['+','.join(str(ord(x)) for x in v)+']'
        if t is bytes: return 'b['+','.join(str(x) for x in v)+']'
        if t is tuple: return '('+''.join(go(x)+';' for x in v)+')'
        if isinstance(v,type) or callable(v): raise Done_('callable')
        if isinstance(v,BaseException): return 'e'+cls(v)
        if isinstance(v,types.GeneratorType): raise Done_('generator value')
        if t in(bytearray,set,dict,list):
            if id(v) in seen: return f'#{seen[id(v)]}'
            seen[id(v)]=len(seen); keep.append(v)
            if t is bytearray: return 'a['+','.join(str(x) for x in v)+']'
            if t is set: return 'S['+','.join(str(x) for x in (sorted(v) if all(type(x) in (int,bool) for x in v) else sorted(v,key=repr)))+']'
            if t is dict: return '{'+''.join(go(k)+':'+go(x)+';' for k,x in v.items())+'}'
            return 'l['+''.join(go(x)+';' for x in v)+']'
        raise Done_(str(t))
    return go(v)
def cls(x):
    n=type(x).__name__
    return {'UnicodeDecodeError':'UnicodeError','UnicodeEncodeError':'UnicodeError'}.get(n,n)
import signal
def run(text,args):
    g={'binascii':binascii}
    exec(compile(text,'p','exec'),g)
    def to(*a): raise TimeoutError
    signal.signal(signal.SIGALRM,to); signal.alarm(2)
    try: r=g['f'](*args)
    except TimeoutError: raise Done_('timeout')
    except MemoryError: raise Done_('memory')
    except Exception as x: return 'X'+cls(x)
    finally: signal.alarm(0)
    return 'R'+dump(r)
BASE=r'''From Verif Require Import PyBase Types PyAst PySem CPython311.
Local Open Scope string_scope.
Local Open Scope list_scope.
Definition ps (s : pystr) : string := fold_right (fun c t => String (Ascii.ascii_of_N c) t) "" s.
Definition zs (n : Z) : string := ps (zstr n).
Fixpoint join (l : list string) : string := match l with [] => "" | [x] => x | x :: l' => (x ++ "," ++ join l')%string end.
Fixpoint insert (x : Z) (l : list Z) := match l with [] => [x] | y :: l' => if (x <=? y)%Z then x :: l else y :: insert x l' end.
Definition nums (l : list N) : string := join (map (fun n => zs (Z.of_N n)) l).
Fixpoint index (l : loc) (s : list loc) : option nat := match s with [] => None | x :: s' => if Nat.eqb x l then Some 0 else option_map S (index l s') end.
Fixpoint dump (fuel : nat) (h : heap) (v : value) (seen : list loc) : string * list loc :=
  match fuel with O => ("?", seen) | S n =>
  let many := (fix many (l : list value) (seen : list loc) : string * list loc := match l with [] => ("", seen) | x :: l' =>
     let (a, s1) := dump n h x seen in let (b, s2) := many l' s1 in ((a ++ ";" ++ b)%string, s2) end) in
  match v with
  | NoneV => ("N", seen) | BoolV true => ("T", seen) | BoolV false => ("F", seen)
  | IntV z => (("i" ++ zs z)%string, seen)
  | StrV s => (("s[" ++ nums s ++ "]")%string, seen)
  | BytesV b => (("b[" ++ nums (map b2n b) ++ "]")%string, seen)
  | TupleV l => let (a, s) := many l seen in (("(" ++ a ++ ")")%string, s)
  | TypeV _ | OtherTypeV _ => ("type", seen)
  | ExcV c _ => (("e" ++ c)%string, seen)
  | RefV l => match index l seen with Some i => (("#" ++ zs (Z.of_nat i))%string, seen) | None =>
     let seen := seen ++ [l] in
     match hget h l with
     | Some (BytearrayO b) => (("a[" ++ nums (map b2n b) ++ "]")%string, seen)
     | Some (SetO s) => (("S[" ++ join (map zs (fold_right insert [] s)) ++ "]")%string, seen)
     | Some (ListO vs) => let (a, s) := many vs seen in (("l[" ++ a ++ "]")%string, s)
     | Some (DictO d) => let (a, s) := (fix items (l : list (pykey * value)) (seen : list loc) : string * list loc := match l with [] => ("", seen) | (k, x) :: l' =>
          let (a, s1) := dump n h x seen in let (b, s2) := items l' s1 in
          ((fst (dump n h (of_key k) []) ++ ":" ++ a ++ ";" ++ b)%string, s2) end) d seen in (("{" ++ a ++ "}")%string, s)
     | _ => ("?", seen)
     end end
  | _ => ("?", seen)
  end end.
Inductive verdict_ := Same | Stk (why : string) | Differs (n : Z) (got : string).
Definition verdict (n : Z) (prog : list (string * fundef)) (p : list N) (q : list (pystr * pystr)) (r : pystr) (expected : string) : verdict_ :=
  let h := [StreamO []; DictO (map (fun kv => (KStr (fst kv), StrV (snd kv))) q)] in
  match call_fun cpython311 (fun l => l) (RefV 0) [] prog 6 "f" [BytesV (map n2b p); RefV 1; StrV r] h with
  | (Done v, h') => let s := ("R" ++ fst (dump 12 h' v []))%string in if s =? expected then Same else Differs n s
  | (Thrown x, h') => let s := ("X" ++ exc_class h' x)%string in if s =? expected then Same else Differs n s
  | (Stuck w, _) => Stk w
  end.
'''
out=['From Verif Require Import PyBase Types PyAst PySem CPython311.','From Diff Require Import DiffBase.','Local Open Scope string_scope.','Local Open Scope list_scope.','Local Open Scope Z_scope.']
meta=[]
def coqstr(s): return '"'+s.replace('"','""')+'"'
n=0;tries=0
while n<N:
    tries+=1
    try:
        text=program()
        if MUT: text=mutate(text)
    except (KeyError,ValueError,SyntaxError): continue
    try:
        tree=ast.parse(text)
        defs=[]
        for f in tree.body:
            defs.append(f'({cs(f.name)}, {{| f_params := {lst([cs(x.arg) for x in f.args.args])}; f_body := {block(f.body,2)} |}})')
    except (SyntaxError,AssertionError,KeyError) as x: continue
    except Exception as x:
        print('gen',x,file=sys.stderr); continue
    args=(R.choice([b'',b'0123',b'\xf0\xf1',b'ab\x00']),R.choice([{},{'a':'x','2':'y'},{'12':'7','0':'','abc':'-5'}]),R.choice(['','12','a','AbC9']))
    try: exp=run(text,tuple([args[0],dict(args[1]),args[2]]))
    except Done_ as x: continue
    except (OverflowError,ValueError): continue
    if len(exp)>6000: continue
    d='; '.join(f'(u {cs(k)}, u {cs(v)})' for k,v in args[1].items())
    out.append(f'Definition p{n} : list (string * fundef) := [\n'+';\n'.join(defs)+'].')
    out.append(f'Eval vm_compute in (verdict {n} p{n} [{"; ".join(str(b)+"%N" for b in args[0])}] [{d}] (u {cs(args[2])}) {coqstr(exp)}).')
    meta.append((text,args,exp)); n+=1
open(DIR+'/DiffBase.v','w').write(BASE)
open(DIR+'/Programs.v','w').write('\n'.join(out)+'\n')
