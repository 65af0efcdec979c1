"""Reads the recorded results of the repository without its dependencies."""
import pickle,glob,struct,datetime
class D:
    def __init__(s,*a,**k): s.a=a
    def __setstate__(s,st): s.st=st
    def __repr__(s): return f'D({s.a},{getattr(s,"st",None)})'[:300]
def scalar(dt,b):
    k=dt.a[0]
    return struct.unpack({'f8':'<d','i8':'<q','i4':'<i','i1':'<b','b1':'?','f4':'<f'}[k],b)[0]
class U(pickle.Unpickler):
    def find_class(self,m,n):
        if m=='datetime': return getattr(datetime,n)
        if n=='scalar': return scalar
        return type(n,(D,),{})
def load(f): return U(open(f,'rb')).load()
