# compares the file operations of Model_Links.v and Model_Files.v with the operating system, as an
# ordinary user in an empty directory: python3 fgen.py SEED N > /tmp/f.v
import random,sys,os,tempfile,stat,shutil
seed=int(sys.argv[1]); N=int(sys.argv[2]); random.seed(seed)
R=random.random; C=random.choice; I=random.randint
top=tempfile.mkdtemp(); os.chmod(top,0o777)
pid=os.fork()
if pid: os.waitpid(pid,0); os.rmdir(top); sys.exit()
if os.getuid()==0: os.setgid(65534); os.setuid(65534)
os.umask(0o022)
NM=['a','b','c','d','e']
def by(s): return '['+';'.join('x%02x'%c for c in s)+']'
def nm(p): return by(p.encode())
def setup(links):
    d=tempfile.mkdtemp(dir=top); os.chdir(d); ents={}; files=[]
    for p in NM:
        r=R()
        if r<.25: continue
        if r<.55 or not links and r<.85:
            mode=C([0o644,0o644,0o600,0o200]); data=bytes(C(b'xyz\n') for _ in range(I(0,4)))
            with open(p,'wb') as f: f.write(data)
            os.chmod(p,mode); ents[p]='(EFile %d)'%len(files); files.append((mode,data,p))
        elif r<.65 and files: k=I(0,len(files)-1); os.link(files[k][2],p); ents[p]='(EFile %d)'%k
        elif r<.75 or not links: os.mkdir(p); ents[p]='EDir'
        else: t=C(NM); os.symlink(t,p); ents[p]='(ELink %s)'%nm(t)
    return ents,files
def state():
    out=[]; seen={}
    for p in NM:
        try: s=os.lstat(p)
        except OSError: out.append('Gone'); continue
        if stat.S_ISLNK(s.st_mode): out.append('(Link %s)'%nm(os.readlink(p)))
        elif stat.S_ISDIR(s.st_mode): out.append('Direc')
        else:
            k=seen.setdefault(s.st_ino,NM.index(p))
            m=stat.S_IMODE(s.st_mode)
            if not m&0o400: os.chmod(p,m|0o400)
            d=open(p,'rb').read()
            if not m&0o400: os.chmod(p,m)
            out.append('(Regular %d %d %s)'%(k,m,by(d)))
    return '['+';'.join(out)+']'
def attempt(f):
    try: return f()
    except OSError: return None
def script(links):
    ents,files=setup(links); ops=[]; res=[]; hs=[]; ws=[]
    for _ in range(I(1,7)):
        p=C(NM); k=C(['open','read','new','create','write','rename','remove'] if links else ['exists','openread','newwrite','createwrite','rename','remove'])
        if k=='open':
            h=attempt(lambda:os.open(p,os.O_RDONLY)); ops.append('(OOpen %s)'%nm(p)); res.append('(RB %s)'%('true' if h is not None else 'false'))
            hs.append(h)
        elif k=='read':
            if not hs: continue
            i=I(0,len(hs)-1)
            if hs[i] is None: continue
            def rd():
                os.lseek(hs[i],0,0); return os.read(hs[i],1000)
            d=attempt(rd); ops.append('(ORead %d)'%i); res.append('(RD %s)'%('None' if d is None else '(Some %s)'%by(d)))
        elif k in('new','create'):
            h=attempt(lambda:os.open(p,os.O_WRONLY|os.O_CREAT|(os.O_EXCL if k=='new' else os.O_TRUNC),0o666))
            ops.append('(%s %s)'%('ONew' if k=='new' else 'OCreate',nm(p))); res.append('(RB %s)'%('true' if h is not None else 'false')); ws.append(h)
        elif k=='write':
            # through the handle made last, whose position is the end of its file
            if not ws or ws[-1] is None or os.fstat(ws[-1]).st_size!=os.lseek(ws[-1],0,1): continue
            d=bytes(C(b'pq\n') for _ in range(I(0,3))); os.write(ws[-1],d); ops.append('(OWrite %s)'%by(d)); res.append('(RB true)')
        elif k=='rename':
            q=C(NM)
            if os.path.isdir(p) and not os.path.islink(p): continue   # the programs never rename a directory
            r=attempt(lambda:os.rename(p,q) or 1); ops.append('(ORename %s %s)'%(nm(p),nm(q))); res.append('(RB %s)'%('true' if r else 'false'))
        elif k=='remove':
            r=attempt(lambda:os.unlink(p) or 1); ops.append('(ORemove %s)'%nm(p)); res.append('(RB %s)'%('true' if r else 'false'))
        elif k=='exists': ops.append('(OExists %s)'%nm(p)); res.append('(RB %s)'%('true' if os.path.exists(p) else 'false'))
        elif k=='openread':
            def orr():
                h=os.open(p,os.O_RDONLY)
                try: return (1,attempt(lambda:os.read(h,1000)))
                finally: os.close(h)
            r=attempt(orr); ops.append('(OOpen %s)'%nm(p)); res.append('(RB %s)'%('true' if r else 'false'))
            if r: ops.append('(OReadP %s)'%nm(p)); res.append('(RD %s)'%('None' if r[1] is None else '(Some %s)'%by(r[1])))
        else:
            h=attempt(lambda:os.open(p,os.O_WRONLY|os.O_CREAT|(os.O_EXCL if k=='newwrite' else os.O_TRUNC),0o666))
            ops.append('(%s %s)'%('ONew' if k=='newwrite' else 'OCreate',nm(p))); res.append('(RB %s)'%('true' if h is not None else 'false'))
            if h is not None:
                d=bytes(C(b'pq\n') for _ in range(I(0,3))); os.write(h,d); os.close(h); ops.append('(OWriteP %s %s)'%(nm(p),by(d))); res.append('(RB true)')
    for h in hs+ws:
        if h is not None: os.close(h)
    fin=state(); d=os.getcwd(); os.chdir(top); shutil.rmtree(d)
    nodes='['+';'.join('(%d%%N,%s)'%(m,by(x)) for m,x,_ in files)+']'
    return '([%s],%s,[%s],[%s],%s)'%(';'.join('(%s,%s)'%(nm(p),e) for p,e in ents.items()),nodes,';'.join(ops),';'.join(res),fin)
A=[script(True) for _ in range(N)]; B=[script(False) for _ in range(N)]
os.chdir('/')
print('''From Coq Require Import NArith.
From Verif Require Import Base Model_Seq Model_Changes Model_IO Model_Text Model_Bytes Model_Json Model_Files Model_Links.
Inductive o := OOpen (p:path) | ORead (i:nat) | OReadP (p:path) | ONew (p:path) | OCreate (p:path) | OWrite (d:list byte) | OWriteP (p:path) (d:list byte) | ORename (p q:path) | ORemove (p:path) | OExists (p:path).
Inductive r := RB (b:bool) | RD (d:option (list byte)).
Inductive fin := Gone | Link (p:path) | Direc | Regular (k m:nat) (d:list byte).
Fixpoint leq {T} (e:T->T->bool) (x y:list T) := match x,y with [],[] => true | a::x,b::y => e a b && leq e x y | _,_ => false end.
Definition beq := leq Byte.eqb.
Definition req a b := match a,b with RB a,RB b => Bool.eqb a b | RD (Some a),RD (Some b) => beq a b | RD None,RD None => true | _,_ => false end.
Definition feq a b := match a,b with Gone,Gone | Direc,Direc => true | Link p,Link q => beq p q | Regular k m d,Regular k' m' d' => (Nat.eqb k k' && Nat.eqb m m' && beq d d')%bool | _,_ => false end.
Definition number {A} (f:A->bool) (l:list A) := map fst (filter (fun x => negb (snd x)) (combine (seq 0 (length l)) (map f l))).
Definition NM : list path := [[x61];[x62];[x63];[x64];[x65]].
Definition E := Env false [x74] 420 (fun _ => NoFault) None.
Fixpoint look {T} (l:list (path*T)) p := match l with [] => None | (q,e)::l => if beq p q then Some e else look l p end.
Definition some {T} (x:option T) := match x with Some _ => true | None => false end.
(* links *)
Definition put (d:list byte) : io unit := write_all d.
Fixpoint go (ops:list o) (I:ifs) (hs:list (option (option nat))) (w:option nat) : list r * ifs := match ops with [] => ([],I) | op::ops =>
 let k := fun res J hs w => let (rs,F) := go ops J hs w in (res::rs,F) in
 match op with
 | OOpen p => let (h,ss) := i_open_read p NoFault I in k (RB (some h)) (last ss I) (hs++[h]) w
 | ORead i => match nth i hs None with Some h => let (d,ss) := i_read_all h NoFault I in k (RD d) (last ss I) hs w | None => ([],I) end
 | ONew p => let (h,ss) := i_create_new E p NoFault I in k (RB (some h)) (last ss I) hs h
 | OCreate p => let (h,ss) := i_create E p NoFault I in k (RB (some h)) (last ss I) hs h
 | OWrite d => match w with Some n => let (x,ss) := i_write n (put d) NoFault I in k (RB match x with Done _ => true | _ => false end) (last ss I) hs w | None => ([],I) end
 | ORename p q => let (b,ss) := i_rename p q NoFault I in k (RB b) (last ss I) hs w
 | ORemove p => let (b,ss) := i_remove p NoFault I in k (RB b) (last ss I) hs w
 | _ => ([],I) end end.
Fixpoint index (n:nat) (I:ifs) (l:list path) (k:nat) : nat := match l with [] => k | p::l => match names I p with Some (EFile m) => if Nat.eqb m n then k else index n I l (S k) | _ => index n I l (S k) end end.
Definition final (I:ifs) := map (fun p => match names I p with None => Gone | Some EDir => Direc | Some (ELink q) => Link q | Some (EFile n) => Regular (index n I NM 0) (N.to_nat (fst (nodes I n))) (snd (nodes I n)) end) NM.
Definition mk (e:list (path*entry)) (n:list (N*list byte)) := Ifs (look e) (fun i => nth i n (0%N,[])) (length n).
(* no links *)
Definition val {T} (f:T->r) (x:outcome T*world) (d:r) := match fst x with Val a => f a | _ => d end.
Fixpoint gof (ops:list o) (W:world) : list r * world := match ops with [] => ([],W) | op::ops =>
 let k := fun {T} (f:T->r) (x:outcome T*world) => let (rs,F) := gof ops (snd x) in (match fst x with Val a => f a | _ => RD None end::rs,F) in
 match op with
 | OExists p => k RB (path_exists E p W)
 | OOpen p => k RB (open_read E p W)
 | OReadP p => k RD (read_all E p W)
 | ONew p => k RB (create_new E p W)
 | OCreate p => k RB (create E p W)
 | OWriteP p d => k (fun x => RB match x with Done _ => true | _ => false end) (write_file E p (put d) W)
 | ORename p q => k RB (rename E p q W)
 | ORemove p => k RB (remove_file E p W)
 | _ => ([],W) end end.
Definition mkf (e:list (path*entry)) (n:list (N*list byte)) : fs := fun p => match look e p with Some (EFile k) => let x := nth k n (0%N,[]) in Some (File (fst x) (snd x)) | Some EDir => Some Dir | _ => None end.
Fixpoint finalf (f:fs) (l:list path) (k:nat) := match l with [] => [] | p::l => match f p with None => Gone | Some Dir => Direc | Some (File m d) => Regular k (N.to_nat m) d end :: finalf f l (S k) end.
Definition T : Type := list (path*entry)*list (N*list byte)*list o*list r*list fin.
''')
print('Definition A : list T := [%s].'%';\n'.join(A))
print('Definition B : list T := [%s].'%';\n'.join(B))
print('''
Eval vm_compute in number (fun '(e,n,ops,rs,f) => let x := go ops (mk e n) [] None in (leq req (fst x) rs && leq feq (final (snd x)) f)%bool) A.
Eval vm_compute in number (fun '(e,n,ops,rs,f) => let x := gof ops (start (mkf e n)) in (leq req (fst x) rs && leq feq (finalf (w_fs (snd x)) NM 0) f)%bool) B.
''')
