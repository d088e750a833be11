# port of pw_cub_diff_lib/src/unified_diff.rs (clump parsing and printing), ASCII input only
import re
from port import Panic, W, clumps, changes, starts, ends, sl
S='[\\t-\\r ]'
HDR=re.compile('^@@'+S+'+-([0-9]+)(,([0-9]+))?'+S+'+\\+([0-9]+)(,([0-9]+))?'+S+'+@@'+S+'*([^\\n]*)(\\n)?\\Z')
def trim_end(x): return x.rstrip('\t\n\x0b\x0c\r ')
def number(s,at):
    n=int(s)
    if n>=W: raise ValueError(('ParseNumber',at))
    return n
def header(line,at):
    m=HDR.search(line)
    if not m: return None
    b=(number(m.group(1),at), number(m.group(3),at) if m.group(3) is not None else 1)
    a=(number(m.group(4),at), number(m.group(6),at) if m.group(6) is not None else 1)
    return b,a
def u8inc(n,dbg):
    if n<255: return n+1
    if dbg: raise Panic
    return 0
def get_from_at(lines,start,dbg):
    """None | (header,before,after,context,consumed); raises ValueError((kind,number)) or Panic"""
    if start>len(lines): raise Panic
    it=iter(lines[start:])
    l=next(it,None)
    if l is None: return None
    h=header(l,start)
    if h is None: return None
    s=e=0; front=True; B=[];A=[];index=0; last='X'
    while len(B)<h[0][1] or len(A)<h[1][1]:
        l=next(it,None)
        if l is None: raise ValueError(('EndOfInput',0))
        if l.startswith('-'): B.append(l); e=0; front=False; last='-'
        elif l.startswith('+'): A.append(l); e=0; front=False; last='+'
        elif l.startswith(' '):
            B.append(l);A.append(l)
            if front: s=u8inc(s,dbg)
            else: e=u8inc(e,dbg)
            last='-'
        else: raise ValueError(('EndClump',start+index+1))
        index+=1
    used=index+1
    l=next(it,None)
    if l is not None and l.startswith('\\'):
        used+=1
        def cut(x):
            if not x: raise Panic
            x[-1]=trim_end(x[-1])
        if last=='-': cut(B)
        elif last=='+': cut(A)
        else: cut(B);cut(A)
    return h,B,A,(s,e),used
def show(h):
    (bs,bl),(as_,al)=h
    return '@@ -%d%s +%d%s @@'%(bs,'' if bl==1 else ',%d'%bl,as_,'' if al==1 else ',%d'%al)
def printed(B,A,k):
    out=[]
    for c in clumps(changes(B,A),k):
        s=starts(c);e=ends(c)
        ls=[]
        for x in c:
            if x[0]=='N': ls+=[' '+l for l in sl(B,x[1],x[1]+x[3])]
            elif x[0]=='D': ls+=['-'+l for l in sl(B,*x[1])]
            elif x[0]=='I': ls+=['+'+l for l in sl(A,*x[2])]
            else:
                b=['-'+l for l in sl(B,*x[1])]; a=['+'+l for l in sl(A,*x[2])]
                ls+= b+a if len(b)<len(a) else a+b
        if not ls: raise Panic
        if not ls[-1].endswith('\n'): ls.append('\n\\\n')
        out.append((show(((s[0],e[0]-s[0]),(s[1],e[1]-s[1]))),ls))
    return out
def cls(r): return r.replace('\\s','[\\t-\\r ]').replace('\\d','[0-9]').replace('\\S','[^\\t-\\r ]')
def path_re(mark): return re.compile(cls('^'+mark+' ('+PATH+')\\s+('+TS+'|'+ALT+')?([^\\n]*)(\\n)?\\Z'))
TS=r'\d{4}-\d{2}-\d{2} \d{2}:\d{2}:\d{2}(\.\d{9})? [-+]{1}\d{4}'
ALT=r'[A-Z][a-z]{2} [A-Z][a-z]{2} \d{2} \d{2}:\d{2}:\d{2} \d{4} [-+]{1}\d{4}'
PATH=r'"([^"]+)"|(\S+)'
BP=path_re('---'); AP=path_re(r'\+\+\+')
def path(r,line):
    m=r.search(line)
    if not m: return None
    p=m.group(2) if m.group(2) is not None else m.group(3)
    if p is None: raise Panic
    return p,m.group(4)
