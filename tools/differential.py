# Compares the model with the text of the source on random sums and differences of a moment and an amount.
# The fields and errors of add_to_moment and sub_from_moment are read from /repo/src/timetype.rs by pattern;
# adjust_times_add and adjust_times_sub (/repo/src/util.rs) are written out by hand below.
# Usage, after the Coq files are built: python3 tools/differential.py SEED ROWS
# Rows that try a month beyond 12 as an unsigned number are left out: computing them in Coq takes too much memory.
import os,tempfile
import re,random,subprocess,sys
R=open('/repo/src/timetype.rs').read()
THEORIES=os.path.join(os.path.dirname(os.path.abspath(__file__)),'..','rocq','theories')
D=tempfile.mkdtemp()
def fn(src,name):
    i=src.index('fn '+name); j=k=src.index('{',i); d=0
    while True:
        d+={'{':1,'}':-1}.get(src[k],0)
        if d==0: return src[j:k+1]
        k+=1
class Panic(Exception): pass
def arms(name):
    b=fn(R,name); out={}
    for m in re.finditer(r'TT::(Seconds|Minutes|Hours|Days|Months|Years)\(a\)\s*=>\s*\{(.*?)\n        \},',b,re.S):
        lets=re.findall(r'let (y|mo|d|h|mi|s)\s*=\s*(.*?);',m.group(2))
        err=re.search(r'OutOfBounds\((.*?)\)\)',m.group(2),re.S).group(1)
        adj=re.search(r'(adjust_times_\w+)\((.*?)\)',m.group(2)).groups()
        ymd=re.search(r'from_ymd_opt\((.*?)\)',m.group(2)).group(1); hms=re.search(r'and_hms_opt\((.*?)\)',m.group(2)).group(1)
        out[m.group(1)]=(lets,err,adj,ymd,hms)
    return out
ADD,SUB=arms('add_to_moment'),arms('sub_from_moment')
assert len(ADD)==6 and len(SUB)==6,(ADD.keys(),SUB.keys())
def i64(x):
    if not -2**63<=x<2**63: raise Panic
    return x
def tdiv(a,b): q=abs(a)//abs(b); return q if (a<0)==(b<0) else -q
def trem(a,b): return a-b*tdiv(a,b)
def leap(y):
    y=((y+2**31)%2**32)-2**31
    return trem(y,4)==0 and (trem(y,100)!=0 or trem(y,400)==0)
def ndays(y,m): return 31 if m in(1,3,5,7,8,10,12) else (29 if leap(y) else 28) if m==2 else 30
def adjust_times_add(y,mo,d,h,mi,s):
    mi=i64(mi+tdiv(s-trem(s,60),60)); s=trem(s,60)
    h=i64(h+tdiv(mi-trem(mi,60),60)); mi=trem(mi,60)
    d=i64(d+tdiv(h-trem(h,24),24)); h=trem(h,24)
    while d>ndays(y,mo):
        d-=ndays(y,mo); mo+=1
    while mo>12: y+=1; mo-=12
    return y,mo,d,h,mi,s
def adjust_times_sub(y,mo,d,h,mi,s):
    if s<0: mi-=tdiv(abs(s),60)+1; s=60-abs(0-s)
    if mi<0: h-=tdiv(abs(mi),60)+1; mi=60-abs(0-mi)
    if h<0: d-=tdiv(abs(h),24)+1; h=24-abs(0-h)
    if d<1: mo-=tdiv(abs(d),32)+1; d=31-abs(0-d)
    if mo<1: y-=tdiv(abs(mo),13)+1; mo=12-abs(0-mo)
    return y,mo,d,h,mi,s
def cast(e,env):
    m=re.match(r'\s*(\w+) as (i32|u32)\s*$',e); v=env[m.group(1)]
    return ((v+2**31)%2**32)-2**31 if m.group(2)=='i32' else v%2**32
def ml(y,m): return [31,29 if (y%4==0 and (y%100!=0 or y%400==0)) else 28,31,30,31,30,31,31,30,31,30,31][m-1]
def run(T,unit,m,a):
    lets,err,adj,ymd,hms=T[unit]; env={}
    names=dict(zip(['year','month','day','hour','minute','second'],m))
    for n,e in lets:
        e2=re.sub(r'mom\.(\w+)\(\) as i64',lambda q:str(names[q.group(1)]),e); env[n]=i64(eval(e2,{'a':a}))
    args=[env[x.strip()] for x in adj[1].split(',')]
    env=dict(zip(['y','mo','d','h','mi','s'],globals()[adj[0]](*args)))
    Y,M,D=[cast(x,env) for x in ymd.split(',')]; H,I,S=[cast(x,env) for x in hms.split(',')]
    if -262144<=Y<=262143 and 1<=M<=12 and 1<=D<=ml(Y,M) and H<24 and I<60 and S<60:
        return f"Ok (Moment (mkdt {Z(Y)} {M} {D} {H} {I} {S} 0))"
    return "Err (OutOfBounds "+" ".join(Z(cast(x,env)) for x in err.split(','))+")"
def Z(v): return str(v) if v>=0 else f"({v})"
random.seed(int(sys.argv[1])); N=int(sys.argv[2])
rows=[]
units=['Seconds','Minutes','Hours','Days','Months','Years']
for _ in range(N):
    y=random.choice([random.randint(1,3000),random.randint(-262143,262142),2020,2019,2100,2000,0,-1,-4,262142,-262143]); mo=random.choice([1,2,12,random.randint(1,12)]); d=random.choice([1,28,ml(y,mo),random.randint(1,ml(y,mo))])
    m=(y,mo,d,random.choice([0,23,random.randint(0,23)]),random.choice([0,59,random.randint(0,59)]),random.choice([0,59,random.randint(0,59)]))
    u=random.choice(units); big={'Seconds':4000000,'Minutes':90000,'Hours':3000,'Days':2000,'Months':120,'Years':600000}[u]
    a=random.choice([random.randint(-100,100),random.randint(0,big),random.randint(0,70)])
    op=random.choice(['Addition','Subtraction'])
    r=run(ADD if op=='Addition' else SUB,u,m,a)
    q=re.match(r"Err \(OutOfBounds (\(-\d+\)|\d+) (\d+) ",r)
    if q and int(q.group(2))>1000: continue
    mm="(mkdt %s %d %d %d %d %d %d)"%(Z(m[0]),*m[1:],random.choice([0,5]))
    rows.append(f"(calculate Checked ({op} (Moment {mm}) ({u} {Z(a)})), {r})")
open(D+'/T.v','w').write('''Require Import ZArith Bool List. From Verif Require Import Prelude Spec Chrono TimeType.
Import ListNotations. Local Open Scope Z_scope.
Definition rows : list (outcome kek timetype * outcome kek timetype) := ['''+';\n'.join(rows)+'''].
Definition dteq (a b : datetime) := (year a =? year b) && (month a =? month b) && (day a =? day b) && (hour a =? hour b) && (minute a =? minute b) && (second a =? second b) && (nano a =? nano b).
Definition same (p : outcome kek timetype * outcome kek timetype) : bool := match p with
 | (Ok (Moment a), Ok (Moment b)) => dteq a b
 | (Err (OutOfBounds a b c d e f), Err (OutOfBounds a' b' c' d' e' f')) => (a =? a') && (b =? b') && (c =? c') && (d =? d') && (e =? e') && (f =? f')
 | _ => false end.
Eval vm_compute in (length rows, length (filter same rows), map fst (firstn 3 (filter (fun p => negb (same p)) rows)), length (filter (fun p => match fst p with Ok _ => true | _ => false end) rows)).
''')
r=subprocess.run(f'cd {D} && timeout 600 coqc -Q {THEORIES} Verif T.v',shell=True,capture_output=True,text=True)
print(r.stdout[-1500:],r.stderr[-1500:])
