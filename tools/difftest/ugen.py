# compares uport.py with the model on random unified diffs: python3 ugen.py SEED N > /tmp/u.v
import random,sys
sys.path.insert(0,__import__('os').path.dirname(__import__('os').path.abspath(__file__)))
from uport import *
seed=int(sys.argv[1]); N=int(sys.argv[2]); random.seed(seed)
R=random.random; C=random.choice
def by(s): return '['+';'.join('x%02x'%ord(c) for c in s)+']'
def ls(x): return '['+';'.join(by(l) for l in x)+']'
def z(n): return '(%d)%%Z'%n
def b2(x): return 'true' if x else 'false'
def text(n): return [C('abc')*C([1,1,2])+C(['\n']*8+['',' \n','\t\x1c \n']) for _ in range(n)]
def mutate(x):
    x=list(x)
    for _ in range(random.randint(0,4)):
        p=random.randint(0,len(x)); q=random.randint(p,min(len(x),p+3)); x[p:q]=text(random.randint(0,3))
    return x
WS=[' ']*40+['\t','  ','\x0b','\r','\x1c','','\n']
def num():
    r=R()
    if r<.93: return str(random.randint(0,5))
    return C(['00','007','18446744073709551615','18446744073709551616','99999999999999999999','','x','+1','3'])
def hdr(b=None,a=None):
    def part(n): 
        l=str(n) if n is not None and R()<.9 else num()
        return num()+(','+l if (n!=1 or R()<.5) and R()<.95 else '')
    s='@@'+C(WS)+'-'+part(b)+C(WS)+C(['+']*9+['-'])+part(a)+C(WS)+'@@'+C(['']*6+[' f()','\t',' @@','x','@'])+C(['\n']*8+['','\n\n','\r\n'])
    return C(['','',' ','@']) + s if R()<.1 else s
def body():
    out=[];b=a=0
    for _ in range(random.randint(0,6)):
        k=C('-+ '); out.append(k+C('ab')+C(['\n']*6+['',' \n',' \t\n','\x0b\n','\x1c\n'])); b+=k!='+'; a+=k!='-'
    return out,b,a
def clump():
    o,b,a=body()
    r=R()
    if r<.02: o=[' x\n']*C([254,255,256,257])+o; b,a=sum(x[0]!='+' for x in o),sum(x[0]!='-' for x in o)
    if R()<.15: b=max(0,b+random.randint(-2,2))
    if R()<.15: a=max(0,a+random.randint(-2,2))
    if R()<.15 and o: o[random.randrange(len(o))]=C(['','x\n','@@ -1 +1 @@\n','\\ no\n','\n'])
    t=C([[]]*3+[['\\ No newline at end of file\n']]*2+[['\\']]+[['rest\n']])
    return [hdr(b,a)]+o+t
P=[];G=[];H=[];T={}
while len(G)<N:
    pre=['x\n']*random.randint(0,3)
    L=pre+clump()
    if R()<.3: L=L+clump()
    at=len(pre) if R()<.85 else random.randint(0,len(L)+1)
    dbg=R()<.5
    try:
        g=get_from_at(L,at,dbg)
        if g is None: r='(Ok (DOk None))'; k='none'
        else:
            h,b,a,c,n=g; k='ok'
            r='(Ok (DOk (Some (UClump (SLs (SL %s %s) (SL %s %s)) %s %s (%s,%s) %d))))'%(z(h[0][0]),z(h[0][1]),z(h[1][0]),z(h[1][1]),ls(b),ls(a),z(c[0]),z(c[1]),n)
    except Panic: r='Panic'; k='panic'
    except ValueError as e:
        k,n=e.args[0]; r='(Ok (DErr %s))'%{'ParseNumber':'(ParseNumberError %d)'%n,'EndOfInput':'UnexpectedEndOfInput','EndClump':'(UnexpectedEndClump %d)'%n}[k]
    T[k]=T.get(k,0)+1
    G.append('(%s,%s,%d,%s)'%(b2(dbg),ls(L),at,r))
while len(P)<N:
    B=text(random.randint(0,12)); A=mutate(B) if R()<.85 else text(random.randint(0,9)); k=random.randint(0,3)
    try:
        p=printed(B,A,k); r='(Ok [%s])'%';'.join('UText %s %s'%(by(h),ls(x)) for h,x in p)
        T['printed' if p else 'empty']=T.get('printed' if p else 'empty',0)+1
    except Panic: r='Panic'; T['ppanic']=T.get('ppanic',0)+1
    P.append('(%d,%s,%s,%s)'%(k,ls(B),ls(A),r))
STAMP=['2024-01-02 03:04:05 +0000','2024-01-02 03:04:05.123456789 -1200','Mon Jan 02 03:04:05 2024 +0000','2024-1-02 03:04:05 +0000','2024-01-02 03:04:05 0000','Mon Jan 2 03:04:05 2024 +0000','2024-01-02 03:04:05.12345678 -1200','mon Jan 02 03:04:05 2024 +0000']
while len(H)<N:
    l=C(['---','+++','--','***'] if R()<.2 else ['---','+++'])+C([' ']*9+['\t','','  '])
    l+=C(['a','a/b','"a b"','"a"b"','"','""','"a','a b','','"a\nb"','--- x'])+C(['\t',' ','  ','\n','','\x1c',' \r'])
    l+=C(STAMP+['','','note'])+C(['','','x',' tail',' 2024-01-02 03:04:05 +0000','\r'])+C(['\n','\n','','\n\n'])
    if R()<.05: l=C(['x',' ','\n'])+l
    o=[]
    for r in (BP,AP):
        p=path(r,l)
        o.append('None' if p is None else '(Some (PathStamp %s %s))'%(by(p[0]),'None' if p[1] is None else '(Some %s)'%by(p[1])))
        kk='path' if p and p[1] is None else 'stamp' if p else 'nopath'; T[kk]=T.get(kk,0)+1
    H.append('(%s,%s,%s)'%(by(l),*o))
print(T,file=sys.stderr)
print('''From Verif Require Import Base Model_Seq Model_Changes Model_IO Model_Text Model_Regex Model_Unified.
Fixpoint leq {T} (e:T->T->bool) (x y:list T) := match x,y with [],[] => true | a::x,b::y => e a b && leq e x y | _,_ => false end.
Definition beq := leq Byte.eqb.
Definition slq (a b:start_length) := (Z.eqb (sl_start a) (sl_start b) && Z.eqb (sl_length a) (sl_length b))%bool.
Definition hq (a b:starts_lengths) := (slq (sls_before a) (sls_before b) && slq (sls_after a) (sls_after b))%bool.
Definition uq (a b:unified_clump) := (hq (uc_header a) (uc_header b) && leq beq (uc_before a) (uc_before b) && leq beq (uc_after a) (uc_after b) && Z.eqb (fst (uc_context a)) (fst (uc_context b)) && Z.eqb (snd (uc_context a)) (snd (uc_context b)) && Nat.eqb (uc_consumed a) (uc_consumed b))%bool.
Definition oq {A} (e:A->A->bool) (x y:option A) := match x,y with Some a,Some b => e a b | None,None => true | _,_ => false end.
Definition eq_ (a b:parse_error) := match a,b with ParseNumberError x,ParseNumberError y | UnexpectedEndClump x,UnexpectedEndClump y | SyntaxError x,SyntaxError y => Nat.eqb x y | UnexpectedEndOfInput,UnexpectedEndOfInput => true | _,_ => false end.
Definition dq {A} (e:A->A->bool) (x y:dres A) := match x,y with DOk a,DOk b => e a b | DErr a,DErr b => eq_ a b | _,_ => false end.
Definition rq {A} (e:A->A->bool) (x y:res A) := match x,y with Ok a,Ok b => e a b | Panic,Panic => true | _,_ => false end.
Definition tq (a b:unified_text) := (beq (ut_header a) (ut_header b) && leq beq (ut_lines a) (ut_lines b))%bool.
Definition pq (a b:path_stamp) := (beq (ps_path a) (ps_path b) && oq beq (ps_stamp a) (ps_stamp b))%bool.
Definition number {A} (f:A->bool) (l:list A) := map fst (filter (fun x => negb (snd x)) (combine (seq 0 (length l)) (map f l))).
Definition nd (c:char) := false.
''')
print('Definition G : list (bool*list line*nat*res (dres (option unified_clump))) := [%s].'%';\n'.join(G))
print('Definition P : list (nat*list line*list line*res (list unified_text)) := [%s].'%';\n'.join(P))
print('Definition HH : list (line*option path_stamp*option path_stamp) := [%s].'%';\n'.join(H))
print('''
Eval vm_compute in number (fun '(dbg,l,at_,r) => rq (dq (oq uq)) (get_from_at nd dbg l at_) r) G.
Eval vm_compute in number (fun '(k,b,a,r) => rq (leq tq) (unified_diff k b a) r) P.
Eval vm_compute in number (fun '(l,b,a) => rq (oq pq) (before_path_and_time_stamp nd l) (Ok b) && rq (oq pq) (after_path_and_time_stamp nd l) (Ok a))%bool HH.
''')
