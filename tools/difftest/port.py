# independent port of /repo/pw_diff_lib (read as text), for differential testing of the Coq model
W=1<<64; H=1<<63
class Panic(Exception): pass
class TooLong(Exception): pass
class M:
    def __init__(s,dbg): s.dbg=dbg
    def u(s,z):
        if 0<=z<W: return z
        if s.dbg: raise Panic
        return z%W
    def i(s,z):
        if -H<=z<H: return z
        if s.dbg: raise Panic
        return (z+H)%W-H
def as_i(z): return (z+H)%W-H if not -H<=z<H else z
def as_u(z): return z%W
def sl(x,a,b):
    if a>b or b>len(x): raise Panic
    return x[a:b]
# ---- changes
def lcs(B,A,idx,br,ar):
    best=(0,0,0); j2={}
    for i,item in enumerate(sl(A,*ar)):
        index=i+ar[0]; n={}
        for j in idx.get(item,()):
            if j<br[0]: continue
            if j>=br[1]: break
            k=j2[j-1]+1 if j-1 in j2 else 1
            n[j]=k
            if k>best[2]: best=(j+1-k,index+1-k,k)
        j2=n
    if best[2]==0: return None
    c=0
    for x,y in zip(sl(B,br[0],best[0])[::-1],sl(A,ar[0],best[1])[::-1]):
        if x==y: c+=1
        else: break
    c=min(c,best[0],best[1])
    best=(best[0]-c,best[1]-c,best[2]+c)
    be=best[0]+best[2]; ae=best[1]+best[2]
    if be+1<br[1] and ae+1<ar[1]:
        c=0
        for x,y in zip(sl(B,be+1,br[1]),sl(A,ae+1,ar[1])):
            if x==y: c+=1
            else: break
        best=(best[0],best[1],best[2]+c)
    return best
def changes(B,A):
    idx={}
    for i,x in enumerate(B): idx.setdefault(x,[]).append(i)
    st=[((0,len(B)),(0,len(A)))]; raw=[]
    while st:
        br,ar=st.pop()
        l=lcs(B,A,idx,br,ar)
        if l:
            b,a,n=l
            if br[0]<b and ar[0]<a: st.append(((br[0],b),(ar[0],a)))
            if b+n<br[1] and a+n<ar[1]: st.append(((b+n,br[1]),(a+n,ar[1])))
            raw.append(l)
    raw.sort(); out=[]; i=0
    while i<len(raw):
        b,a,n=raw[i]; i+=1
        while i<len(raw) and b+n==raw[i][0] and a+n==raw[i][1]: n+=raw[i][2]; i+=1
        out.append((b,a,n))
    ch=[];i=j=0
    for (b,a,n) in out:
        if i<b and j<a: ch.append(('R',(i,b),(j,a)))
        elif i<b: ch.append(('D',(i,b),a))
        elif j<a: ch.append(('I',b,(j,a)))
        ch.append(('N',b,a,n)); i=b+n;j=a+n
    if i<len(B) and j<len(A): ch.append(('R',(i,len(B)),(j,len(A))))
    elif i<len(B): ch.append(('D',(i,len(B)),len(A)))
    elif j<len(A): ch.append(('I',len(B),(j,len(A))))
    return ch
def st_tr(c,k): n=min(c[2],k); return (c[0]+c[2]-n,c[1]+c[2]-n,n)
def en_tr(c,k): return (c[0],c[1],min(c[2],k))
def clumps(ch,k):
    res=[]; pos=0; stash=None
    while True:
        cur=[]
        if stash: cur.append(('N',)+stash); stash=None
        while pos<len(ch):
            c=ch[pos]; pos+=1
            if c[0]=='N':
                cs=c[1:]
                if not cur:
                    if pos<len(ch): cur.append(('N',)+st_tr(cs,k))
                elif pos==len(ch): cur.append(('N',)+en_tr(cs,k)); break
                elif cs[2]>=2*k:
                    stash=st_tr(cs,k); cur.append(('N',)+en_tr(cs,k)); break
                else: cur.append(c)
            else: cur.append(c)
        if not cur: return res
        res.append(cur)
def starts(c):
    f=c[0]
    return {'D':lambda:(f[1][0],f[2]),'N':lambda:(f[1],f[2]),'I':lambda:(f[1],f[2][0]),'R':lambda:(f[1][0],f[2][0])}[f[0]]()
def ends(c):
    f=c[-1]
    return {'D':lambda:(f[1][1],f[2]),'N':lambda:(f[1]+f[3],f[2]+f[3]),'I':lambda:(f[1],f[2][1]),'R':lambda:(f[1][1],f[2][1])}[f[0]]()
def diff(B,A,k):
    r=[]
    for c in clumps(changes(B,A),k):
        s=starts(c);e=ends(c)
        cl=(c[0][3]%256 if c[0][0]=='N' else 0, c[-1][3]%256 if c[-1][0]=='N' else 0)
        r.append((cl,(s[0],sl(B,s[0],e[0])),(s[1],sl(A,s[1],e[1]))))
    return r
# ---- apply text
class Text:
    def __init__(s,dbg,P): s.m=M(dbg); s.P=P; s.cons=0; s.out=[]; s.rounds=0; s.huge=False
    def side(s,c,rev): return c[2] if rev else c[1]
    def bstart(s,c,rev): return s.side(c,rev)[0]
    def bend(s,c,rev): x=s.side(c,rev); return s.m.u(x[0]+len(x[1]))
    def blen(s,c,rev): return s.m.u(s.bend(c,rev)-s.bstart(c,rev))
    def brange(s,c,red,rev):
        if red: return (s.m.u(s.bstart(c,rev)+red[0]), s.m.u(s.bend(c,rev)-red[1]))
        return (s.bstart(c,rev),s.bend(c,rev))
    def mybrange(s,c,red,rev):
        l=s.blen(c,rev)
        return (red[0],s.m.u(l-red[1])) if red else (0,l)
    def blines(s,c,r,rev):
        x=s.side(c,rev)
        if r is None: return x[1]
        if s.m.dbg:
            mx=s.m.u(len(x[1])+x[0])
            if not (r[0]<=r[1] and r[1]<=mx): raise Panic
        return sl(x[1],r[0],r[1])
    def adjstart(s,c,off,red,rev):
        z=s.m.i(as_i(s.bstart(c,rev))+off)
        return s.m.i(z+red[0]) if red else z
    def adjlen(s,c,red,rev):
        if red: return s.m.u(s.m.u(s.blen(c,rev)-red[0])-red[1])
        return s.blen(c,rev)
    def subat(s,c,at,red,rev):
        r=s.mybrange(c,red,rev); n=r[1]-r[0] if r[1]>r[0] else 0
        end=s.m.u(at+n)
        if end>len(s.P): return False
        ls=s.blines(c,r,rev)
        return all(x==y for x,y in zip(ls,sl(s.P,at,end)))
    def bwrite(s,c,red,rev):
        if red is not None: ls=s.blines(c,s.brange(c,red,rev),rev)
        else: ls=s.blines(c,None,rev)
        s.out+=ls
    def will(s,c,off,rev):
        st=s.adjstart(c,off,None,rev)
        if st>=0 and s.subat(c,st,None,rev): return ('C',)
        a,b=c[0]
        for k in range(1,max(a,b)):
            x=min(k,a);y=min(k,b); z=s.m.i(st+x)
            if z>=0 and s.subat(c,z,(x,y),rev): return ('W',(x,y))
        return None
    def upto(s,u):
        if s.m.dbg and u>len(s.P): raise Panic
        if s.cons<u:
            r=(s.cons,u); s.cons=u; s.swrite(r)
    def swrite(s,r):
        if s.m.dbg and not (r[0]<=r[1]<=len(s.P)): raise Panic
        s.out+=sl(s.P,*r)
    def apply1(s,c,off,red,rev):
        e=as_u(s.adjstart(c,off,red,rev)); s.upto(e); s.bwrite(c,red,not rev)
        s.cons=s.m.u(s.cons+s.adjlen(c,red,rev))
    def near(s,c,nx,off,rev,cons=None):
        cons=s.cons if cons is None else cons
        if nx: na=s.m.u(as_u(s.adjstart(nx,off,c[0],rev))-s.adjlen(c,c[0],rev))
        else: na=s.m.u(len(s.P)-s.adjlen(c,c[0],rev))
        b0=as_i(s.bstart(c,rev))+off; wr=lambda z:(z+H)%W-H
        if max(wr(b0-1)-as_i(cons),as_i(na)-wr(b0+1))>20000: s.huge=True
        bd=fd=False; i=0
        while True:
            i+=1; s.rounds+=1
            if s.rounds>20000: raise TooLong
            if not bd:
                ao=s.m.i(off-i)
                if s.adjstart(c,ao,None,rev)<as_i(cons): bd=True
                else:
                    w=s.will(c,ao,rev)
                    if w: return (-i,w)
            if not fd:
                ao=s.m.i(off+i)
                if s.adjstart(c,ao,None,rev)<as_i(na):
                    w=s.will(c,ao,rev)
                    if w: return (i,w)
                else: fd=True
            if fd and bd: return None
    def seen1(s,c,off,red,rev):
        e=s.m.u(as_u(s.adjstart(c,off,red,not rev))+s.adjlen(c,red,not rev)); s.upto(e)
    def run(s,cs,rev):
        st=[0]*5; off=0
        for n,c in enumerate(cs):
            nx=cs[n+1] if n+1<len(cs) else None
            w=s.will(c,off,rev)
            if w:
                if w[0]=='C': s.apply1(c,off,None,rev); st[0]+=1
                else: s.apply1(c,off,w[1],rev); st[1]+=1
                continue
            q=s.near(c,nx,off,rev)
            if q:
                off=s.m.i(off+q[0]); s.apply1(c,off,None if q[1][0]=='C' else q[1][1],rev); st[1]+=1; continue
            w=s.will(c,off,not rev)
            if w:
                if w[0]=='C': s.seen1(c,off,None,rev); st[2]+=1
                else: s.seen1(c,off,w[1],rev); st[3]+=1
                continue
            q=s.near(c,nx,off,not rev)
            if q:
                off=s.m.i(off+q[0]); s.seen1(c,off,None if q[1][0]=='C' else q[1][1],rev); st[3]+=1; continue
            st[4]+=1
            s.out.append('<');s.bwrite(c,None,rev);s.out.append('=');s.bwrite(c,None,not rev);s.out.append('>')
        s.swrite((s.cons,len(s.P)))
        return st
    def query(s,cs,rev):
        off=0
        for n,c in enumerate(cs):
            nx=cs[n+1] if n+1<len(cs) else None
            if s.will(c,off,not rev): continue
            q=s.near(c,nx,off,not rev,0)
            if q: off=s.m.i(off+q[0]); continue
            return False
        return True
# ---- bytes
def has(P,x,at): return at<len(P) and len(P)-at>=len(x) and all(a==b for a,b in zip(x,P[at:]))
class Bytes:
    def __init__(s,dbg,P): s.t=Text(dbg,P)
    def run(s,cs,rev):
        t=s.t
        for c in cs:
            b=c[2] if rev else c[1]; a=c[1] if rev else c[2]
            if has(t.P,b[1],b[0]):
                t.upto(b[0]); t.out+=a[1]; t.cons=t.m.u(t.cons+len(b[1]))
            elif has(t.P,a[1],a[0]): t.upto(t.m.u(a[0]+len(a[1])))
        t.swrite((t.cons,len(t.P)))
    def query(s,cs,rev):
        return all(has(s.t.P,(c[1] if rev else c[2])[1],(c[1] if rev else c[2])[0]) for c in cs)
