"""Compares the printed schedules of the model with those kept in /repo (data4diagrams).  For the hybrid solver the
values are the recorded samples; of the ILP solver only the schedule is kept, so the delays are taken from it."""
import os,sys,subprocess,datetime
from fractions import Fraction as F
import pickles,model,coqterm
from coqterm import fr
SRC='''From Coq Require Import List String ZArith QArith Bool.
From Verif Require Import Base Pulp Helpers LinearSolver DataTables DataSets DataTimes Pipeline RealData FastSwitch WislaData.
Import ListNotations. Open Scope string_scope. Open Scope list_scope.
Definition samples : list (dict string Q) := %s.
Definition value (l : dict string Q) (v : lpvar) : option Q := dget (v_name v) l.
Definition show (r : res (dict pv (dict pv stop_entry))) := match r with
  | Ok d => map (fun e => (fst e, map (fun f => (fst f, k_arrive (snd f), k_conflicted_arrive (snd f), k_departure (snd f),
      k_secondary_delay (snd f), k_conflicted_departure (snd f),
      match k_impact (snd f) with Some q => Some (Qnum (Qred q), Zpos (Qden (Qred q))) | None => None end)) (snd e))) d
  | Err _ => [] end.
Definition printed (r : res (train_sets * timetable * lpproblem)) := match r with
  | Ok (ts, ttb, p) =>
      (* only the delay variables are looked up: keep them, in their order *)
      let p := MkProb [] (MkAff (map (fun v => (v, 1)) (filter (fun v => eqb (v_prefix v) "Delays") (variables p))) 0) in
      map (fun l => show (print_optimisation_results p ttb ts (tt_pass ttb)
      (match ts_skip ts with Some sk => sk | None => [] end) %s %s (value l))) samples
  | Err _ => [] end.
%s
Set Printing Depth 1000000. Set Printing Width 1000000.
Eval vm_compute in Some (printed problem, tt).
'''
REAL='''Definition tdm := match build_timetables schedule_%s stations_%s network with Ok td => td | Err _ => [] end.
Definition problem := fast_problem tdm stations_%s network "16:00" (real_delays %d) 40 Integer.'''
WISLA='''Definition problem := match create_linear_problem wisla_ts wisla_tt wisla_d_max Integer with
  | Ok p => Ok (wisla_ts, wisla_tt, p) | Err e => Err e end.'''
def number(x): f=F(x).limit_denominator(10**6); return '(%d # %d)'%(f.numerator,f.denominator)
def run(name,samples,d_max,t_ref,problem):
    v=os.path.join(model.OUT,name+'.v'); o=v[:-2]+'.out'
    lit='['+';\n'.join('['+'; '.join('("%s", %s)'%(k,number(x)) for k,x in s.items() if k.startswith('Delays'))+']' for s in samples)+']'
    open(v,'w').write(SRC%(lit,d_max,t_ref,problem))
    t=subprocess.run(['coqc','-Q',model.ROCQ,'Verif',v],capture_output=True,text=True)
    assert t.returncode==0,t.stderr[-2000:]
    open(o,"w").write(t.stdout.replace("%Z",""))
    return coqterm.parse(o)[0]
def atom(p): return int(p[1]) if p[0]=='PInt' else p[1]
def minutes(t): d=t-datetime.datetime(2020,1,1); return F(d.total_seconds())/60
KEYS=['arrive','conflicted_arrive','departure','secondary delay','conflicted_departure','impact_to_objective']
def compare(label,mod,rec):
    m={atom(j):{atom(e[0]):e[1:] for e in d} for j,d in mod}
    same=list(m)==list(rec) and all(list(m[j])==list(rec[j]) for j in rec)
    bad=[]; present={k.replace(' ','_') for d in rec.values() for e in d.values() for k in e}
    for j in rec:
        for s in rec[j]:
            for k,x in zip(KEYS,m[j][s]):
                if k.replace(' ','_') not in present: continue  # records of older versions lack arrivals without conflicts
                if isinstance(x,tuple): x=F(x[0])/F(x[1])
                y=rec[j][s].get(k,rec[j][s].get(k.replace('_',' ')))
                if isinstance(y,datetime.datetime): y=minutes(y)
                ok=(x is None)==(y is None) and (x is None or abs(float(fr(x))-float(y))<1e-6)
                if not ok: bad.append((j,s,k,x,y))
    print(label,'trains and stations',same,'entries',sum(len(e) for d in rec.values() for e in d.values()),'differ',len(bad),bad[:3],flush=True)
    return same and not bad
def delays(rec): return {'Delays_%s_%s'%(j,s):e['secondary delay'] for j in rec for s,e in rec[j].items() if 'secondary delay' in e}
n=wrong=0
D='/repo/solutions_quantum/data4diagrams/'
for c in [int(a) for a in sys.argv[1:] if a!='wisla'] if len(sys.argv)>1 else range(10):
    recs=[(r,pickles.load('/repo/solutions_quantum/cqm5_case%d_Integer.pkl'%c)[i]['sample']) for i,r in pickles.load(D+'cqm5_case%d_Integer.pkl'%c).items()]
    r=pickles.load(D+'PULP_CBC_CMD_case%d_Integer.pkl'%c); recs.append((r,delays(r)))
    t=model.TABLES[c]; s=model.STATIONS[t]
    out=run('printed%d'%c,[x for _,x in recs],40,960,REAL%(t,s,s,c))
    for i,((r,_),m) in enumerate(zip(recs,out)): n+=1; wrong+=not compare('case %d schedule %d'%(c,i+1),m,r)
W='/repo/solutions_quantum/wisla/'
recs=[(pickles.load(W+'data4diagrams/sim_wisla_case1.pkl'),pickles.load(W+'sim_wisla_case1.pkl')['sample'])]
r=pickles.load(W+'data4diagrams/PULP_CBC_CMD_wisla_case1.pkl'); recs.append((r,delays(r)))
for (r,_),m in zip(recs,run('printedw',[x for _,x in recs],10,480,WISLA)): n+=1; wrong+=not compare('wisla',m,r)
print(n,'schedules,',wrong,'differ')
