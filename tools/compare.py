"""Compares the problems of the model with the results recorded in /repo: names of constraints and
variables, which constraints each recorded sample satisfies, and the objective; for the runs of ILP
solvers, of which no sample is recorded, the numbers of variables and constraints."""
import glob
from fractions import Fraction as F
import pickles,model
DELAYS={}
DELAYS[0]={}
DELAYS[1] = dict({2:18})
DELAYS[2] = dict({2:36, 4602: 20})
DELAYS[3] = dict({101:18, 1:29, 3:25})
DELAYS[4] = dict({101:18, 1:29, 3:25, 5:15, 2:18})
DELAYS[5] = dict({101:18, 1:29, 3:25, 5:15, 2:36, 4602: 20, 9:12})
DELAYS[6] = dict({101:18, 1:29, 3:25, 5:15, 2:36, 4602: 20, 9:12, 103:15, 10:50, 4606:30})
DELAYS[7] = dict({2:50, 4602: 32, 4:10, 102:5, 1:12, 101:10 })
DELAYS[8] = dict({2:90, 4602: 72, 4:72, 102:45, 4604:10, 101:47,  6401: 35, 3:20})
DELAYS[9] = dict({2:90, 4602:72, 4:72, 102:45, 4604:10, 101:47, 6401: 35, 6403:20, 5:25, 103:30, 3:60, 10:25})
DELAYS[10] = dict({1:29, 2:36, 4602: 20, 9:12, 4606:30, 102:45, 101:47, 6401: 35, 6403:20, 5:25, 103:30, 3:60, 4604:10, 10:25})
DELAYS[11] = dict({2:92, 4602:70, 4:72, 102:46, 101:45, 6401:33, 6403:20, 5:25, 103:28, 3:59, 4604:12, 10:25})

def compare(problem,label,run,r):
    rec=r['feas_constraints']; rec=rec if isinstance(rec,dict) else rec[0]
    sample={k:F(v).limit_denominator(10**6) for k,v in r['sample'].items()}
    held,obj=model.evaluate(problem,sample)
    names=[c[0] for c in problem[0]]
    ok=(names==list(rec), model.variables(problem)==set(sample), all(rec[n]==held[n] for n in names),
        abs(float(obj)-r['objective'])<1e-6)
    print(label,run,'constraints',ok[0],'variables',ok[1],'satisfied',ok[2],'objective',ok[3],flush=True)
    return all(ok)
n=bad=0
for c in range(10):
    p=model.real(c)
    for f in sorted(glob.glob('/repo/solutions_quantum/cqm*_case%d_Integer.pkl'%c)):
        for run,r in pickles.load(f).items():
            n+=1; bad+=not compare(p,f.split('/')[-1],run,r)
for k,d in DELAYS.items():
    p=model.glc(k,d)
    for f in ['results20__cqm_3_Integer','results5__cqm_3_Integer','results__sim_3_Integer']:
        r=pickles.load('/repo/results_KO_GLC/%s.pkl'%f).get(k)
        if r and r.get('feas_constraints'): n+=1; bad+=not compare(p,f,k,r)
OTHER={0:{},1:{4602:2},2:{6401:3, 4604:13},3:{1:2, 3:2, 5:7},4:{2:2, 4:2, 6405:3, 6407:3},
 5:{1:5, 2:3, 3:7, 4:2, 5:1, 6401:2},6:{3:7, 4:2, 5:1, 23: 6, 1:6, 6407:2, 101: 4, 4602: 7},
 7:{1:5, 11:3, 21:3, 25:2, 2:4, 4:6, 6:6, 8:3, 10:3, 22:6, 24:1},
 8:{1:3, 2:5, 3:7, 4:25, 5:8, 6:12, 7:17, 23:4, 25:3, 24:8, 10:4, 6401:3, 6403:7, 101:8},
 9:{2:3, 4602:1, 4:10, 102:2, 6:15, 8:7, 4604:4, 10:1, 12:7, 1:10, 101:8, 3:2, 6401:6, 5:15, 7:1, 103:30, 9:7, 6403:8}}
for case in (1,2,3):
    for k in range(12):
        trains=model.trains(model.glc(0,{},case))
        d=DELAYS[k] if case==3 else OTHER[k] if k<10 else {i:i%(3 if k==10 else 10) for i in sorted(trains)}
        p=model.glc(k,d,case)
        v=model.variables(p); order=sum(1 for x in v if 'y_' in x or 'z_' in x)
        for f in ['PULP_CBC_CMD_','CPLEX_CMD_','CPLEX_CMD_ilp_t_lim5.0_']:
            r=pickles.load('/repo/results_KO_GLC/results_%s_%d_Integer.pkl'%(f,case)).get(k)
            if r is None: continue
            n+=1; ok=(order,len(v)-order,len(p[0]))==(r['order_vars'],r['int_vars'],r['constraints']); bad+=not ok
            print('KO_GLC case',case,k,f,'numbers',ok,flush=True)
print(n,'runs,',bad,'differ')
