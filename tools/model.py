"""The problems of the model: makes Coq compute them from RealData.v and reads the printed result."""
import os,subprocess,tempfile
import coqterm
from coqterm import fr
ROCQ=os.path.join(os.path.dirname(os.path.dirname(os.path.abspath(__file__))),'rocq','theories')
OUT=os.environ.get('MODEL_OUT') or tempfile.gettempdir()
SRC='''From Coq Require Import List String ZArith QArith Bool.
From Verif Require Import Base Pulp Helpers LinearSolver DataTables DataSets DataTimes Pipeline RealData FastSwitch.
Import ListNotations.
Definition tdm := match build_timetables schedule_%s stations_%s network with Ok td => td | Err _ => [] end.
Definition out := match fast_problem tdm stations_%s network "%s" %s 40 Integer with Ok (_,tab,p) => Some (map (fun c => (fst c, map (fun t => (v_id (fst t), v_lo (fst t), v_up (fst t), Qred (snd t))) (a_terms (c_aff (snd c))), Qred (a_const (c_aff (snd c))), c_sense (snd c))) (p_constraints p), map (fun t => (v_id (fst t), v_up (fst t), Qred (snd t))) (a_terms (p_objective p))) | Err e => None end.
Set Printing Depth 1000000. Set Printing Width 1000000.
Eval vm_compute in out.
'''
def problem(name,schedule,stations,time,delays):
    f=os.path.join(OUT,name+'.out')
    if not os.path.exists(f):
        v=os.path.join(OUT,name+'.v')
        open(v,'w').write(SRC%(schedule,stations,stations,time,delays))
        t=subprocess.run(['coqc','-Q',ROCQ,'Verif',v],capture_output=True,text=True,check=True).stdout
        open(f,'w').write(t)
    return coqterm.parse(f)
TABLES={0:'main',1:'main',2:'main',3:'main',4:'gt',5:'gt',6:'1track',7:'1track_gt',8:'1track_gt',9:'1track_gt'}
STATIONS={'main':'main','gt':'gt','1track':'main','1track_gt':'gt'}
def real(c):
    """Case c of solve_real_problem.py"""
    return problem('case%d'%c,TABLES[c],STATIONS[TABLES[c]],'16:00','(real_delays %d)'%c)
GLC={1:('glc','glc'),2:('glc_r','glc_r'),3:('glc_v2','glc_r')}
def glc(k,delays,case=3):
    """Scenario k of a case of solve_KO_GLC_problems.py"""
    return problem('glc%d_%d'%(case,k),*GLC[case],'14:00','['+'; '.join('(%d%%Z, %d)'%e for e in delays.items())+']')
def trains(problem):
    """The trains of a problem (each has a delay at its first station)"""
    return {int(t[1][0][1]) for c in problem[0] for t in c[1] if t[0]=='Delays'}
def name(v):
    pre,idx=v
    return pre+'_'+'_'.join(str(int(i[1])) if i[0]=='PInt' else str(i[1]) for i in idx) if idx else pre
def evaluate(problem,sample):
    """Which constraints hold, and the objective"""
    cons,obj=problem
    held={}
    for n,terms,const,sense in cons:
        v=sum(fr(t[4])*sample[name((t[0],t[1]))] for t in terms)+fr(const)
        held[n]= v<=0 if 'LE' in str(sense) else v>=0 if 'GE' in str(sense) else v==0
    return held,sum(fr(t[3])*sample[name((t[0],t[1]))] for t in obj)
def variables(problem):
    cons,obj=problem
    return {name((t[0],t[1])) for c in cons for t in c[1]}|{name((t[0],t[1])) for t in obj}
