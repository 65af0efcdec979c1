"""Reads a printed Coq value."""
import re
from fractions import Fraction
def parse(f):
    t=open(f).read()
    i=re.search(r'Some\s+\(',t).end()-1; 
    # tokenise
    tok=re.compile(r'\s*("(?:[^"]|"")*"|[()\[\];,]|[^\s()\[\];,]+)')
    pos=i; toks=[]
    while True:
        m=tok.match(t,pos)
        if not m: break
        toks.append(m.group(1)); pos=m.end()
    k=0
    def val():
        nonlocal k
        x=toks[k]; 
        if x=='[':
            k+=1; L=[]
            while toks[k]!=']':
                L.append(val())
                if toks[k]==';': k+=1
            k+=1; return L
        if x=='(':
            k+=1; L=[val()]
            while toks[k]==',':
                k+=1; L.append(val())
            # application / fraction
            while toks[k] not in (')',','):
                # e.g. "5 # 2" or applications
                L.append(val())
                while toks[k]==',':
                    k+=1; L.append(val())
            k+=1; return tuple(L)
        k+=1
        if x[0]=='"': return x[1:-1]
        if x in('PInt','PStr'):
            return (x,val())
        if x=='Some': return val()
        if x=='None': return None
        if re.match(r'^-?\d+$',x):
            v=Fraction(int(x))
            if k<len(toks) and toks[k]=='#':
                k+=1; v=v/int(toks[k]); k+=1
            return v
        return x
    return val()
def fr(x):
    if isinstance(x,tuple): x=x[0] if len(x)==1 else Fraction(x[0])/Fraction(x[2])
    return Fraction(x)
