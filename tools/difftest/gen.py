import random,sys
sys.path.insert(0,__import__('os').path.dirname(__import__('os').path.abspath(__file__)))
from port import *
seed=int(sys.argv[1]); N=int(sys.argv[2]); random.seed(seed)
LS='abcd'
def rl(n,k): return [random.choice(LS[:k]) for _ in range(n)]
def mutate(x,k):
    x=list(x)
    for _ in range(random.randint(0,4)):
        op=random.random(); p=random.randint(0,len(x))
        if op<.35: x.insert(p,random.choice(LS[:k]))
        elif op<.65 and x: del x[min(p,len(x)-1)]
        elif op<.85 and x: x[min(p,len(x)-1)]=random.choice(LS[:k])
        else:
            q=random.randint(p,min(len(x),p+3)); x[p:q]=rl(random.randint(0,3),k)
    return x
def coq_lines(x): return '['+';'.join('l'+c for c in x)+']'
def coq_bytes(x): return '['+';'.join('b'+c for c in x)+']'
def z(n): return '(%d)%%Z'%n
def coq_clump(c,K,f): return '(%s (%s,%s) (Snippet %s %s) (Snippet %s %s))'%(K,z(c[0][0]),z(c[0][1]),z(c[1][0]),f(c[1][1]),z(c[2][0]),f(c[2][1]))
def coq_clumps(cs,K,f): return '['+';'.join(coq_clump(c,K,f) for c in cs)+']'
def rstart():
    r=random.random()
    if r<.85: return random.randint(0,9)
    if r<.93: return random.choice([W-1,W-2,W-3,H-1,H,H+1,H-2])
    return random.randint(0,30)
def rclump(k):
    a=rl(random.randint(0,4),k); b=mutate(a,k) if random.random()<.7 else rl(random.randint(0,4),k)
    return ((random.randint(0,3),random.randint(0,3)),(rstart(),a),(rstart(),b))
def b2(x): return 'true' if x else 'false'
HU=[];D=[];A=[];BA=[];Q=[];BQ=[]
while len(D)<N:
    k=random.randint(1,4); B=rl(random.randint(0,14),k); X=mutate(B,k) if random.random()<.8 else rl(random.randint(0,14),k); c=random.randint(0,3)
    D.append('(%s,%s,%d,%s)'%(coq_lines(B),coq_lines(X),c,coq_clumps(diff(B,X,c),'TextClump',coq_lines)))
tally={}
while len(A)<N:
    k=random.randint(1,4)
    if random.random()<.6:
        B=rl(random.randint(0,14),k); X=mutate(B,k); cs=diff(B,X,random.randint(0,3)); T=mutate(random.choice([B,X]),k)
        if random.random()<.2: random.shuffle(cs)
    else:
        cs=[rclump(k) for _ in range(random.randint(0,3))]; T=rl(random.randint(0,8),k)
    dbg=random.random()<.5; rev=random.random()<.5
    t=Text(dbg,T)
    try:
        try: st=t.run(cs,rev); r='Done (Stats %s)'%' '.join(map(str,st))
        except Panic: r='Panicked'
    except TooLong: continue
    key=(r.split()[0],dbg) if r=='Panicked' else tuple(min(1,x) for x in st); tally[key]=tally.get(key,0)+1
    (HU if t.huge else A).append('(%s,%s,%s,%s,%s,%s)'%(b2(dbg),coq_clumps(cs,'TextClump',coq_lines),coq_lines(T),b2(rev),r if r=='Panicked' else '('+r+')','['+';'.join({'<':'m1','=':'m2','>':'m3'}.get(x,'l'+x) for x in t.out)+']'))
    t=Text(dbg,T)
    try:
        try: r='Ok '+b2(t.query(cs,rev))
        except Panic: r='Panic'
        if not t.huge: Q.append('(%s,%s,%s,%s,%s)'%(b2(dbg),coq_clumps(cs,'TextClump',coq_lines),coq_lines(T),b2(rev),r))
    except TooLong: pass
while len(BA)<N:
    k=random.randint(1,4)
    if random.random()<.6:
        B=rl(random.randint(0,14),k); X=mutate(B,k); cs=diff(B,X,random.randint(0,3)); T=mutate(random.choice([B,X]),k)
        if random.random()<.2: random.shuffle(cs)
    else:
        cs=[rclump(k) for _ in range(random.randint(0,3))]; T=rl(random.randint(0,8),k)
    dbg=random.random()<.5; rev=random.random()<.5
    t=Bytes(dbg,T)
    try: t.run(cs,rev); r='(Done tt)'
    except Panic: r='Panicked'
    BA.append('(%s,%s,%s,%s,%s,%s,%s)'%(b2(dbg),coq_clumps(cs,'ByteClump',coq_bytes),coq_bytes(T),b2(rev),r,coq_bytes(t.t.out),b2(Bytes(dbg,T).query(cs,rev))))
print(len(HU),'huge',tally,file=sys.stderr)
print('''From Verif Require Import Base Model_Seq Model_Changes Model_IO Model_Text Model_Bytes.
Definition ba:=x61. Definition bb:=x62. Definition bc:=x63. Definition bd:=x64.
Definition la:=[x61;x0a]. Definition lb:=[x62;x0a]. Definition lc:=[x63;x0a]. Definition ld:=[x64;x0a].
Definition m1:=repeat x3c 7++[x0a]. Definition m2:=repeat x3d 7++[x0a]. Definition m3:=repeat x3e 7++[x0a].
Fixpoint leq {T} (e:T->T->bool) (x y:list T) := match x,y with [],[] => true | a::x,b::y => e a b && leq e x y | _,_ => false end.
Definition beq := leq Byte.eqb.
Definition ceq (c d:text_clump) := (Z.eqb (fst (tc_context c)) (fst (tc_context d)) && Z.eqb (snd (tc_context c)) (snd (tc_context d)) &&
 Z.eqb (sn_start (tc_before c)) (sn_start (tc_before d)) && Z.eqb (sn_start (tc_after c)) (sn_start (tc_after d)) && leq beq (sn_items (tc_before c)) (sn_items (tc_before d)) && leq beq (sn_items (tc_after c)) (sn_items (tc_after d)))%bool.
Definition nums (l:list (nat*bool)) := map fst (filter (fun x => negb (snd x)) l).
Definition number {A} (f:A->bool) (l:list A) := nums (combine (seq 0 (length l)) (map f l)).
Definition seq_stats a b := (Nat.eqb (st_clean a) (st_clean b) && Nat.eqb (st_fuzzy a) (st_fuzzy b) && Nat.eqb (st_already a) (st_already b) && Nat.eqb (st_already_fuzzy a) (st_already_fuzzy b) && Nat.eqb (st_failed a) (st_failed b))%bool.
Definition oeq {A} (e:A->A->bool) (x y:ores A) := match x,y with Done a,Done b => e a b | Panicked,Panicked => true | _,_ => false end.
''')
print('Definition D : list (list line*list line*nat*list text_clump) := [%s].'%';\n'.join(D))
print('Definition A : list (bool*list text_clump*list line*bool*ores statistics*list line) := [%s].'%';\n'.join(A))
print('Definition HU : list (bool*list text_clump*list line*bool*ores statistics*list line) := [%s].'%';\n'.join(HU))
print('Definition Q : list (bool*list text_clump*list line*bool*res bool) := [%s].'%';\n'.join(Q))
print('Definition BA : list (bool*list byte_clump*list byte*bool*ores unit*list byte*bool) := [%s].'%';\n'.join(BA))
print('''
Eval vm_compute in number (fun '(b,a,k,c) => match text_diff_clumps b a k with Ok l => leq ceq l c | _ => false end) D.
Eval vm_compute in number (fun '(dbg,cs,t,rev,r,o) => let x := text_apply_into dbg cs t rev (Writer [] None) in (oeq seq_stats (fst x) r && beq (w_out (snd x)) (concat o))%bool) A.
Eval lazy in number (fun '(dbg,cs,t,rev,r,o) => let x := text_apply_into dbg cs t rev (Writer [] None) in (oeq seq_stats (fst x) r && beq (w_out (snd x)) (concat o))%bool) HU.
Eval vm_compute in number (fun '(dbg,cs,t,rev,r) => match text_is_already_applied dbg cs t rev,r with Ok a,Ok b => Bool.eqb a b | Panic,Panic => true | _,_ => false end) Q.
Eval vm_compute in number (fun '(dbg,cs,t,rev,r,o,q) => let x := byte_apply_into dbg cs t rev (Writer [] None) in (oeq (fun _ _ => true) (fst x) r && beq (w_out (snd x)) o && Bool.eqb q (byte_already_applied cs t rev))%bool) BA.
''')
