"""Writes RealData.v from the tables of the repository: gen_real.py OUT"""
import csv,ast,sys
sys.path.insert(0,__import__('os').path.dirname(__import__('os').path.abspath(__file__)))
from ods import sheet
def s(x): return '"'+x.replace('"','""')+'"'
def o(x): return 'None' if x is None or x=='' else '(Some '+s(x)+')'
from fractions import Fraction
def qq(x):
    f=Fraction(x); return f'{f.numerator}' if f.denominator==1 else f'({f.numerator} # {f.denominator})'
def stations(f):
    t=ast.parse(open(f,encoding='utf8').read())
    for n in t.body:
        if isinstance(n,ast.Assign) and n.targets[0].id=='important_stations': return ast.literal_eval(n.value)
def table(f):
    return [r for r in csv.reader(open(f,encoding='utf8'),delimiter=';')]
def gen(out):
    L=[]
    names={}
    def blk(x):
        if x not in names: names[x]='b%03d'%(len(names)+1)
        return names[x]
    net,_=sheet('/repo/data/network_paths.ods'); net=[r for r in net[1:] if r]
    def cell(c):
        if c is None: return 'SwEmpty'
        k,v=c[0],c[1]
        if k=='str':
            if v in ('N/A',''): return 'SwEmpty'
            z=ast.literal_eval(v)
            return f'(SwOne {z})' if isinstance(z,int) else '(SwMany ['+'; '.join(map(str,z))+']%Z)'
        f=float(v)
        if f==int(f): return f'(SwInt {int(f)})'
        a,b=str(f).split('.'); return f'(SwFloat {a} {s(b)})'
    def time(c):
        try: Fraction(c[1])
        except ValueError: return 'None'
        return f'(Some {qq(c[1])})'
    rows=[f'MkNet {blk(r[0][1])} {blk(r[1][1])} {cell(r[5])} '+' '.join(time(c) for c in r[6:10]) for r in net]
    D=[]
    D.append('Definition network : list netrow :=\n  ['+';\n   '.join(rows)+'].\n')
    for nm,f in [('stations_main','/repo/data/important_stations.py'),('stations_gt','/repo/data/important_stations_Gt.py'),('stations_glc','/repo/data/KO_GLC/important_stations_KO_GLC.py'),('stations_glc_r','/repo/data/KO_GLC/important_stations_KO_GLC_R.py')]:
        d=stations(f)
        D.append((nm,f.replace('/repo/',''),f'Definition {nm} : station_blocks :=\n  ['+';\n   '.join(f'({s(k)}, ['+'; '.join(blk(b) for b in v)+'])' for k,v in d.items())+'].\n'))
    for nm,f in [('schedule_main','trains_schedules.csv'),('schedule_gt','trains_schedules_Gt.csv'),('schedule_1track','trains_schedules_1track.csv'),('schedule_1track_gt','trains_schedules_1track_Gt.csv'),('schedule_glc','KO_GLC/trains_schedules_KO_GLC.csv'),('schedule_glc_r','KO_GLC/trains_schedules_KO_RCB_ZZ_GLC.csv'),('schedule_glc_v2','KO_GLC/trains_schedules_KO_RCB_ZZ_GLC_v2.csv')]:
        t=table('/repo/data/'+f); assert t[0][1:]==['speed','Arr','Dep','Approx_enter','Label','Shunting','Turnaround_time_minutes'],t[0]
        R=[]
        for r in t[1:]:
            assert len(r)==8,(f,r)
            if r[0]=='' : h='None'
            elif r[0].startswith('"'): h=f'(Some {blk(r[0])})'
            else: h=o(r[0])
            if r[1:]==['']*7: R.append(f'head {h}')
            else: R.append(f'MkLine {h} '+' '.join(o(x) for x in r[1:7])+' '+('None' if r[7]=='' else f'(Some {qq(r[7])})'))
        D.append((nm,'data/'+f,f'Definition {nm} : list line :=\n  ['+';\n   '.join(R)+'].\n'))
    w=open(out,'w')
    w.write('''(** * RealData: the tables of the repository, copied from /repo/data

    Written by a script from the files named below, without changes, so that claims about all tables
    can be applied to these.  Cells of the schedules and of the network table are as pandas reads
    them: empty cells are missing values, cells of the column "switches" that the file stores as
    numbers are numbers.  The entry "X" of the columns of times (no train may run that way), at which
    [float] would fail, is written [None]; PropsReal shows that no train uses such an entry.  "N/A" in
    the column "switches" is a missing value for pandas.  The stations, which the program reads from
    the .npz files, are the same in the .py files.  Names of blocks are given once, below. *)

From Coq Require Import List String ZArith QArith.
From Verif Require Import Base DataTables.
Import ListNotations.
Open Scope string_scope.
Open Scope list_scope.
Open Scope Q_scope.

Definition head (x : option string) : line := MkLine x None None None None None None None.

(** ** Names of blocks *)

''')
    for k,v in names.items(): w.write(f'Definition {v} : string := {s(k)}.\n')
    w.write('\n(** data/network_paths.ods, columns previous_block, next_block, switches and the four columns of times *)\n'+D[0])
    for nm,f,d in D[1:]: w.write(f'\n(** {f} *)\n'+d)
    w.close(); print(len(names))
if len(sys.argv)>1: gen(sys.argv[1])
