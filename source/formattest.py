"""Differential test of rocq/theories/PyFormat.v against CPython's str.format.

    formattest.py SEED N > F.v ; coqc -Q .../theories Verif F.v

prints how many random cases agree, are unknown to PyFormat though CPython has an answer, are unknown to PyFormat
and errors in CPython, differ (0 expected).
"""
import random,sys
random.seed(int(sys.argv[1])); N=int(sys.argv[2])
def tmpl():
    r=''
    for _ in range(random.randint(1,4)):
        x=random.random()
        if x<.3: r+=random.choice(['a',' ','{{','}}','x:','é','\n','}','{'] if random.random()<.15 else ['a',' ','{{','}}','x:','é','\n'])
        else:
            n=random.choice(['','','a','b','w'])
            sp=''
            if random.random()<.8:
                sp=':'
                if random.random()<.5: sp+=random.choice(['','*',' ','0','<','x','é',':'])+random.choice('<>^=')
                if random.random()<.1: sp+=random.choice('+- #z,_.')
                if random.random()<.4: sp+='0'
                if random.random()<.7: sp+=random.choice(['1','3','7','10','{w}','{w}','{}','{b}'])
                if random.random()<.08: sp+=random.choice('+- #z,_.x9')
                if random.random()<.6: sp+=random.choice('sdsdsdsdxf')
            r+='{'+n+sp+'}'
    return r
def val():
    return random.choice([0,5,-3,12345,-12345,10**6,'','ab','héllo','-1','3']) 
def pl(s): return '['+'; '.join('%d%%N'%ord(c) for c in s)+']'
def fa(v): return 'Some (FStr %s)'%pl(v) if isinstance(v,str) else 'Some (FInt (%d)%%Z)'%v
rows=[]; st={'ok':0,'err':0}
for i in range(N):
    t=tmpl(); args=[val() for _ in range(random.randint(0,4))]; kw={'a':val(),'b':random.choice([val(),4]),'w':random.choice([0,1,2,5,9,-1,-7,'3','<4'])}
    try: e='Y %s'%pl(t.format(*args,**kw)); st['ok']+=1
    except ValueError as x: e='V %s'%pl(str(x)); st['err']+=1
    except Exception as x: e='O'; st['err']+=1
    if len(e)>3000: continue
    rows.append('(%s, [%s], [%s], %s)'%(pl(t),'; '.join(map(fa,args)),'; '.join('("%s", %s)'%(k,fa(v)) for k,v in kw.items()),e))
print('''From Verif Require Import PyBase PyFormat CPython311.
Local Open Scope string_scope. Local Open Scope list_scope.
Inductive ex := Y (s : pystr) | V (s : pystr) | O.
Definition cases := [''')
print(';\n'.join(rows)); print('''].
Definition verdict (c : pystr * list (option farg) * list (string * option farg) * ex) : nat :=
 let '(t,a,k,e) := c in match str_format cpython311 t a k, e with FUnknown, Y _ => 1 | FUnknown, _ => 2 | FText s, Y s' => if str_eqb s s' then 0 else 3 | FError s, V s' => if str_eqb s s' then 0 else 3 | _, _ => 3 end.
Definition tally (n : nat) := length (filter (fun c => Nat.eqb (verdict c) n) cases).
Compute (tally 0, tally 1, tally 2, tally 3).
Compute (filter (fun c => Nat.eqb (verdict c) 3) cases).
Compute (firstn 3 (filter (fun c => Nat.eqb (verdict c) 1) cases)).
''')
