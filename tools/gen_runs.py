"""Writes RecordedRuns.v: gen_runs.py OUT"""
import sys
from fractions import Fraction as F
import pickles as pk,model
from model import name as nm
def pvs(i):
    return 'PInt %d'%int(i[1]) if i[0]=='PInt' else 'PStr "%s"'%i[1]
out='''(** * RecordedRuns: two solutions kept in the repository

    Samples of the hybrid solver for cases 0 and 3 of solve_real_problem.py, copied by a script from
    solutions_quantum/cqm5_case0_Integer.pkl and cqm5_case3_Integer.pkl (first run of each): the
    variables that are not zero, with their values. *)

From Coq Require Import List String ZArith QArith.
From Verif Require Import Base Pulp.
Import ListNotations.
Open Scope string_scope.
Open Scope list_scope.
'''
for c in (0,3):
    cons,obj=model.real(c)
    vid={}
    for k in cons:
        for t in k[1]: vid[nm((t[0],t[1]))]=(t[0],t[1])
    for t in obj: vid[nm((t[0],t[1]))]=(t[0],t[1])
    x=pk.load('/repo/solutions_quantum/cqm5_case%d_Integer.pkl'%c)
    s=x[list(x)[0]]['sample']
    L=[]
    for n in sorted(s):
        v=F(s[n]).limit_denominator(1000)
        if v:
            assert v.denominator==1
            pre,idx=vid[n]
            L.append('(("%s", [%s]), %d)'%(pre,'; '.join(pvs(i) for i in idx),v))
    out+='\nDefinition run%d : list (vid * Q) :=\n  ['%c+';\n   '.join(L)+'].\n'
open(sys.argv[1],'w').write(out)
