# compares the model's JSON, UTF-8, white space and line splitting with Python's own json, codecs and
# unicode tables (not written for this project): python3 jgen.py SEED N > /tmp/j.v
import random,sys,json
seed=int(sys.argv[1]); N=int(sys.argv[2]); random.seed(seed)
R=random.random; C=random.choice; I=random.randint
U64=(1<<64)-1
def by(s): return '['+';'.join('x%02x'%c for c in s)+']'
def z(n): return '(%d)%%Z'%n
def b2(x): return 'true' if x else 'false'
SNIP=lambda it:('S',[('start',('N',U64)),('items',('L',it))])
CL=lambda it:('S',[('context_lengths',('P',('N',255),('N',255))),('before',SNIP(it)),('after',SNIP(it))])
TD=('S',[('before_path','s'),('after_path','s'),('clumps',('L',CL('s')))])
PL=('S',[('path','s'),('lines',('L','s'))])
BD=('S',[('before_path','s'),('after_path','s'),('compressed','b'),('clumps',('L',CL(('N',255))))])
PB=('S',[('path','s'),('compressed','b'),('bytes',('L',('N',255)))])
VARS=[('TextChange',TD),('TextAdd',PL),('TextRemove',PL),('ByteChange',BD),('ByteAdd',PB),('ByteRemove',PB)]
CH=['a','b','/','"','\\','\n','\t','\b','\f','\r','\x00','\x1f','\x7f','\x80','\u00e9','\u20ac','\ud7ff','\uffff','\U0001f600','\U0010ffff']
def rs(): return ''.join(C(CH) for _ in range(I(0,4)))
def rv(t):
    if t=='s': return rs()
    if t=='b': return R()<.5
    if t[0]=='N': return C([0,1,I(0,t[1]),t[1]])
    if t[0]=='L': return [rv(t[1]) for _ in range(C([0,0,1,1,2,3]))]
    if t[0]=='P': return [rv(t[1]),rv(t[2])]
    return {n:rv(u) for n,u in t[1]}
# a value, but written with liberties; returns text
def ws(): return C(['']*6+[' ','\n','\t','\r',' \n ','\x0b','\u00a0']) if R()<WSP else ''
def wstr(s):
    o='"'
    for c in s:
        r=R()
        if c in '"\\' or ord(c)<32 or r<.3:
            n=ord(c)
            if c in '"\\/' and R()<.6: o+='\\'+c
            elif c in '\b\f\n\r\t' and R()<.6: o+='\\'+{'\b':'b','\f':'f','\n':'n','\r':'r','\t':'t'}[c]
            elif n>0xffff: n-=0x10000; o+='\\u%04x\\u%04X'%(0xd800+(n>>10),0xdc00+(n&1023))
            else: o+=C(['\\u%04x','\\u%04X'])%n
        else: o+=c
    if R()<BAD: o+=C(['\\ud800','\\udc00','\\ud83d\\u0041','\\x41','\\u12','\\u00g0','\n','\x01','\\ud83dx','\\','\\a',"\\'"])
    return o+'"'
def junk(d=0):
    r=R()
    if d>2 or r<.5: return C(['null','true','false','0','-0','1.5','1e5','1E+5','0.0e-1','-12','18446744073709551616','""','"x"','"\\u00e9"','01','1.','.5','-','1e','+1','nul','NaN','Infinity','tru','"\\ud800"','"\\udc00 \\n"','1.5e','0e1','-01','"\\ud83d\\u0041"']) if R()<.5 else C(['null','true','0','1.5','"x"','-0'])
    if r<.75: return '['+ws()+(','+ws()).join(junk(d+1)+ws() for _ in range(I(0,3)))+C(['']*15+[','])+']'
    return '{'+ws()+(','+ws()).join(wstr(rs())+ws()+':'+ws()+junk(d+1)+ws() for _ in range(I(0,3)))+C(['']*15+[','])+'}'
def wv(t,v):
    if R()<BAD/3: return junk()
    if t=='s': return wstr(v)
    if t=='b': return 'true' if v else 'false'
    if t[0]=='N':
        if R()<BAD: return C([str(t[1]+1),'-0','-1','1.0','1e0','00','01','"1"','99999999999999999999999','0.','0x1'])
        return str(v)
    if t[0] in 'LP':
        it=[wv(t[1],x) for x in v] if t[0]=='L' else [wv(t[1],v[0]),wv(t[2],v[1])]
        if R()<BAD/3: it=it+[junk()] if R()<.5 else it[:-1]
        return '['+ws()+(','+ws()).join(x+ws() for x in it)+(',' if R()<BAD/3 else '')+']'
    fs=[(n,wv(u,v[n])) for n,u in t[1]]
    if R()<.12:
        it=[x for _,x in fs]
        if R()<BAD: it=it+[junk()] if R()<.5 else it[:-1]
        return '['+(','+ws()).join(it)+']'
    if R()<.4: random.shuffle(fs)
    if R()<EXTRA/4: return '{'+wstr('k')[:-1]+C(['\\ud800','\\udc00','\\ud83d\\u0041'])+'":'+junk()+','+(',').join(wstr(n)+':'+x for n,x in fs)+'}'
    if R()<EXTRA: fs.insert(I(0,len(fs)),(C(['extra','Path','','start ','\u00e9']),junk()))
    if R()<BAD: 
        if R()<.5: fs.insert(I(0,len(fs)),C(fs))
        else: del fs[I(0,len(fs)-1)]
    return '{'+ws()+(','+ws()).join(wstr(n)+ws()+':'+ws()+x+ws() for n,x in fs)+'}'
class Bad(Exception): pass
def good(s):
    if any(0xd800<=ord(c)<=0xdfff for c in s): raise Bad
    return s
def nocon(x): raise Bad
def load(text):
    """what serde's derived readers accept, on top of Python's parser"""
    try: x=json.loads(text,object_pairs_hook=lambda ps:('O',ps),parse_constant=nocon,parse_float=lambda s:('F',s),parse_int=lambda s:('I',s))
    except (ValueError,RecursionError): raise Bad
    def get(t,x):
        if t=='s':
            if not isinstance(x,str): raise Bad
            return good(x)
        if t=='b':
            if not isinstance(x,bool): raise Bad
            return x
        if t[0]=='N':
            if not(isinstance(x,tuple) and x[0]=='I') or x[1][0]=='-' or int(x[1])>t[1]: raise Bad
            return int(x[1])
        if t[0]=='L':
            if not isinstance(x,list): raise Bad
            return [get(t[1],y) for y in x]
        if t[0]=='P':
            if not isinstance(x,list) or len(x)!=2: raise Bad
            return [get(t[1],x[0]),get(t[2],x[1])]
        if isinstance(x,list):
            if len(x)!=len(t[1]): raise Bad
            return {n:get(u,y) for (n,u),y in zip(t[1],x)}
        if not(isinstance(x,tuple) and x[0]=='O'): raise Bad
        d={}; T=dict(t[1])
        for k,y in x[1]:
            good(k)
            if k in T:
                if k in d: raise Bad
                d[k]=get(T[k],y)
        if len(d)!=len(T): raise Bad
        return d
    if not(isinstance(x,tuple) and x[0]=='O' and len(x[1])==1): raise Bad
    k,y=x[1][0]
    if k not in dict(VARS): raise Bad
    return k,get(dict(VARS)[k],y)
def bs(s): return by(s.encode())
def cl(c,f,K): 
    sn=lambda s:'(Snippet %s [%s])'%(z(s['start']),';'.join(f(i) for i in s['items']))
    return '(%s (%s,%s) %s %s)'%(K,z(c['context_lengths'][0]),z(c['context_lengths'][1]),sn(c['before']),sn(c['after']))
def b1(n): return 'x%02x'%n
def coq(k,v):
    if k=='TextChange': return '(TextChange (TextDiff %s %s [%s]))'%(bs(v['before_path']),bs(v['after_path']),';'.join(cl(c,bs,'TextClump') for c in v['clumps']))
    if k=='ByteChange': return '(ByteChange (ByteDiff %s %s %s [%s]))'%(bs(v['before_path']),bs(v['after_path']),b2(v['compressed']),';'.join(cl(c,b1,'ByteClump') for c in v['clumps']))
    if k in('TextAdd','TextRemove'): return '(%s (PathAndLines %s [%s]))'%(k,bs(v['path']),';'.join(map(bs,v['lines'])))
    return '(%s (PathAndBytes %s %s [%s]))'%(k,bs(v['path']),b2(v['compressed']),';'.join(map(b1,v['bytes'])))
Wr=[];Rd=[];U=[];T={'ok':0,'bad':0,'utf8':0,'not':0}
while len(Wr)<N:
    k,t=C(VARS); v=rv(t)
    Wr.append('(%s,%s)'%(coq(k,v),bs(json.dumps({k:v},indent=2,ensure_ascii=False,separators=(',',': ')))))
while len(Rd)<N:
    k,t=C(VARS); v=rv(t); BAD=C([0,0,.03,.1]); WSP=C([0,.1,.3]); EXTRA=C([0,.2])
    s=ws()+'{'+ws()+wstr(k)+ws()+':'+ws()+wv(t,v)+ws()+(','+C(['"x":1','"TextAdd":["",[]]','']) if R()<BAD else '')+'}'+ws()
    if R()<.3:
        s=list(s)
        for _ in range(I(1,2)):
            p=I(0,len(s)-1); r=R()
            if r<.4: del s[p]
            elif r<.7: s.insert(p,C('{}[]",:\\019 \nentf-.'))
            else: s[p]=C('{}[]",:\\019 \nentf-.')
            if not s: s=[' ']
        s=''.join(s)
    try: s.encode()
    except UnicodeEncodeError: continue
    try: g=load(s); r='(Some %s)'%coq(*g); T['ok']+=1
    except Bad: r='None'; T['bad']+=1
    Rd.append('(%s,%s)'%(bs(s),r))
EDGE=[0,0x41,0x7f,0x80,0x8f,0x90,0x9f,0xa0,0xbf,0xc0,0xc1,0xc2,0xdf,0xe0,0xe1,0xec,0xed,0xee,0xef,0xf0,0xf1,0xf3,0xf4,0xf5,0xff,0x0a]
while len(U)<3*N:
    if R()<.5: s=bytes(C(EDGE) for _ in range(I(0,6)))
    else:
        s=bytearray(rs().encode())
        if s and R()<.5: s[I(0,len(s)-1)]=C(EDGE)
        if s and R()<.2: s=s[:-1]
        s=bytes(s)
    try: s.decode('utf-8'); ok=True; T['utf8']+=1
    except UnicodeDecodeError: ok=False; T['not']+=1
    L=s.split(b'\n'); L=[x+b'\n' for x in L[:-1]]+([L[-1]] if L[-1] else [])
    U.append('(%s,%s,[%s])'%(by(s),b2(ok),';'.join(map(by,L))))
print(T,file=sys.stderr)
white=[chr(i) for i in range(0x110000) if chr(i).isspace() and not 0x1c<=i<=0x1f]
print('''From Verif Require Import Base Model_Seq Model_Changes Model_IO Model_Text Model_Bytes Model_Json Model_Regex.
Fixpoint leq {T} (e:T->T->bool) (x y:list T) := match x,y with [],[] => true | a::x,b::y => e a b && leq e x y | _,_ => false end.
Definition beq := leq Byte.eqb.
Definition sneq {T} (e:T->T->bool) (a b:snippet T) := (Z.eqb (sn_start a) (sn_start b) && leq e (sn_items a) (sn_items b))%bool.
Definition ceq (c d:text_clump) := (Z.eqb (fst (tc_context c)) (fst (tc_context d)) && Z.eqb (snd (tc_context c)) (snd (tc_context d)) && sneq beq (tc_before c) (tc_before d) && sneq beq (tc_after c) (tc_after d))%bool.
Definition bceq (c d:byte_clump) := (Z.eqb (fst (bc_context c)) (fst (bc_context d)) && Z.eqb (snd (bc_context c)) (snd (bc_context d)) && sneq Byte.eqb (bc_before c) (bc_before d) && sneq Byte.eqb (bc_after c) (bc_after d))%bool.
Definition pleq a b := (beq (pl_path a) (pl_path b) && leq beq (pl_lines a) (pl_lines b))%bool.
Definition pbeq a b := (beq (pb_path a) (pb_path b) && Bool.eqb (pb_compressed a) (pb_compressed b) && beq (pb_bytes a) (pb_bytes b))%bool.
Definition deq (a b:diff) := match a,b with
 | TextChange a,TextChange b => (beq (td_before a) (td_before b) && beq (td_after a) (td_after b) && leq ceq (td_clumps a) (td_clumps b))%bool
 | ByteChange a,ByteChange b => (beq (bd_before a) (bd_before b) && beq (bd_after a) (bd_after b) && Bool.eqb (bd_compressed a) (bd_compressed b) && leq bceq (bd_clumps a) (bd_clumps b))%bool
 | TextAdd a,TextAdd b | TextRemove a,TextRemove b => pleq a b | ByteAdd a,ByteAdd b | ByteRemove a,ByteRemove b => pbeq a b | _,_ => false end.
Definition number {A} (f:A->bool) (l:list A) := map fst (filter (fun x => negb (snd x)) (combine (seq 0 (length l)) (map f l))).
''')
print('Definition W : list (diff*list byte) := [%s].'%';\n'.join(Wr))
print('Definition RD : list (list byte*option diff) := [%s].'%';\n'.join(Rd))
print('Definition U : list (list byte*bool*list line) := [%s].'%';\n'.join(U))
print('Definition WH : list (list byte) := [%s].'%';'.join(map(bs,white)))
print('''
Eval vm_compute in number (fun '(d,s) => let o := diff_to_json d in (beq (fst o) s && snd o)%bool) W.
Eval vm_compute in number (fun '(s,r) => match diff_from_json s,r with Ok (Some a),Some b => deq a b | Ok None,None => true | _,_ => false end) RD.
Eval vm_compute in number (fun '(s,v,l) => (Bool.eqb (utf8_valid s) v && leq beq (split_lines s) l && match read_lines s with Ok (Some x) => v && leq beq x l | Ok None => negb v | _ => false end)%bool) U.
Eval vm_compute in (leq beq white_list WH, number (fun s => white s) WH).
''')
