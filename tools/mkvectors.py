#!/usr/bin/env python3
"""Writes rocq/theories/Vec*.v: the model evaluated on the inputs of the repository's own unit tests and
compared with the results those tests expect (with the tests' tolerances).  Reads the data files of
/repo/reliabilityassessment/*/tests as text; the small literal inputs are transcribed below.
Nothing of the repository is executed."""
import os, re, sys
from fractions import Fraction
R='/repo/reliabilityassessment/'; OUT=sys.argv[1] if len(sys.argv)>1 else '/verif/rocq/theories/'
MC=R+'monte_carlo/tests/'; DP=R+'data_processing/tests/'

def load(p):
    rows=[]
    for l in open(p):
        l=l.split('#')[0].split()
        if l: rows.append([Fraction(x) for x in l])
    return rows
def vec(p):
    r=load(p)
    if len(r)==1: return r[0]
    assert all(len(x)==1 for x in r),p
    return [x[0] for x in r]
def den(xs):
    d=1
    while any((x*d).denominator!=1 for x in xs): d*=10
    return d
F=Fraction
def fr(l): return [fr(x) if isinstance(l,list) and isinstance(x,list) else F(str(x)) for x in l]
def z(x):
    x=F(x); assert x.denominator==1,x
    return str(x.numerator) if x>=0 else f'(-{-x.numerator})'
def qv(l):
    l=fr(l); d=den(l)
    return f'(qs {d} [{"; ".join(z(x*d) for x in l)}])'
def qm(m):
    m=[fr(r) for r in m]; d=den([x for r in m for x in r])
    return f'(qm {d} [' + ';\n    '.join('['+'; '.join(z(x*d) for x in r)+']' for r in m)+'])'
def zv(l): return '['+'; '.join(z(F(str(x))) for x in l)+']'
def zm(m): return '['+';\n    '.join(zv(r) for r in m)+']'
def nv(l): return '(map Z.to_nat '+zv(l)+')'
def lp(m): return '['+'; '.join(f'({int(r[1])}, {int(r[2])})' for r in m)+']%nat'
def q(x):
    x=F(str(x)); return f'(qq {z(x.numerator)} {x.denominator})'
def minus1(m,cols=None):
    return [[x-1 if cols is None or j in cols else x for j,x in enumerate(r)] for r in m]

class File:
    def __init__(s,name,imports,doc):
        s.name=name; s.o=[f'(** {doc}\n    Generated by tools/mkvectors.py; do not edit. *)',f'From Verif Require Import {imports}.','Open Scope Z_scope.','']
    def d(s,name,body): s.o.append(f'Definition {name} := {body}.')
    def ex(s,name,stmt,doc=''):
        if doc: s.o.append(f'(** {doc} *)')
        if s.name in ('VecData','VecSmall'):   # too slow for coqchk, which has no virtual machine
            s.o.append(f'Example {name} : True.\nProof. agrees ({stmt}). exact I. Qed.')
        else:
            s.o.append(f'Example {name} : {stmt} = true.\nProof. vm_compute; reflexivity. Qed.')
    def raw(s,t): s.o.append(t)
    def write(s): open(OUT.rstrip('/')+'/'+s.name+'.v','w').write('\n'.join(s.o)+'\n')

# ---------------------------------------------------------------- calendar, sampling, statistics (small)
def events_file():
    f=File('VecEvents','Base Vec EventModel ControlModel','The tests of filem, remove, initl, week: monte_carlo/tests/test_filem.py, test_filem_new.py, test_remove.py, test_remove_new.py, test_initl.py, test_week.py.')
    f.raw('Definition cal_is (c : cal) (m n i : Z) (ev : list Qc) : bool := (MFA c =? m) && (NUMINQ c =? n) && (IPOINT c =? i) && vnear 6 (EVNTS c) ev.')
    f.raw('Definition filem_is (m n i : Z) (ev : list Qc) (a : Qc * Qc) (m\' n\' i\' : Z) (ev\' : list Qc) : bool := okd (filem (mkCal m n i ev) a) (fun c => cal_is c m\' n\' i\' ev\').')
    f.raw('Definition remove_is (m n i : Z) (ev : list Qc) (a : list Qc) (m\' n\' i\' : Z) (ev\' : list Qc) : bool := okd (remove (mkCal m n i ev)) (fun o => match o with Some ((t, ty), c) => vnear 6 [t; ty] a && cal_is c m\' n\' i\' ev\' | None => false end).')
    e1=[4,0,0,0,8,0,0,0,12,0,0,0,0,0,0,0]
    e2=[-1,1.5,3,0,8,0,0,0,12,0,0,0,0,0,0,0]
    e3=[-1,1.5,3,0,0,.5,2,0,12,0,0,0,0,0,0,0]
    def fi(k,a,b,c,ev,at,d,e,g,ev2): f.ex(k,f'filem_is {z(a)} {z(b)} {z(c)} {qv(ev)} ({q(at[0])}, {q(at[1])}) {z(d)} {z(e)} {z(g)} {qv(ev2)}')
    fi('filem_1',0,0,-1,e1,(1.5,3),4,1,0,e2)
    fi('filem_2',4,1,0,e2,(.5,2),8,2,4,e3)
    fi('filem_3',8,2,4,e3,(2.5,1),12,3,4,[8,1.5,3,0,0,.5,2,0,-1,2.5,1,0,0,0,0,0])
    fi('filem_4',8,2,4,e3,(1,1),12,3,4,[-1,1.5,3,0,8,.5,2,0,0,1,1,0,0,0,0,0])
    def ev(p):
        e=vec(p); e=e[:-3]; e[-4]=F(0)
        for i in range(0,96,4): e[i]-=1
        return e
    ip=[0,1,1,1,1,1,21,21]
    for c in range(1,8):
        p=MC+f'testdata_filem/case{c}/'
        fi(f'filem_new_{c}',4*c-4,c-1,ip[c-1]-1,ev(p+'EVNTS'),vec(p+'ATRIB'),4*c,c,ip[c]-1,ev(p+'EVNTS_mod'))
    f.ex('remove_0','remove_is 0 1 0 '+qv([4,61.5,2,0,0,0,0,0])+' '+qv([61.5,2])+' 0 0 4 '+qv([4,0,0,0,0,0,0,0]))
    for c,(i0,i1) in enumerate([(21,1),(1,25),(25,21)],1):
        p=MC+f'testdata_remove/case{c}/'
        f.ex(f'remove_new_{c}',f'remove_is 0 7 {i0-1} {qv(ev(p+"EVNTS"))} {qv(vec(p+"ATRIB_mod"))} {i0-1} 6 {i1-1} {qv(ev(p+"EVNTS_mod"))}')
    start=[0]*32
    for i in range(0,28,4): start[i]=i+4
    truth=[24,.5,3,0,8,2184.5,3,0,12,4368.5,3,0,16,6552.5,3,0,-1,8760,4,0,0,.5,2,0,4,1,1,0,0,0,0,0]
    f.ex('initl_1',f'okd (initl_alt 1 (mkCal 0 0 (-1) {qv(start)}) ({q("2184.5")}, {q("4368.5")}, {q("6552.5")})) (fun c => cal_is c 28 7 20 {qv(truth)})')
    f.ex('initl_2',f'cal_is (initl 1 {qv(start)}) 28 7 20 {qv(truth)}')
    f.raw('Definition jplout : list (list Z) := [[2; 2; 1; 0]; [1; 2; 0; 0]; [2; 1; 0; 0]] ++ repeat [0; 0; 0; 0] 49.')
    for k,(h,r) in enumerate([(12,[1,0,0]),(1234,[1,1,1]),(8760,[1,1,1])],1):
        f.ex(f'week_{k}',f'okd (week_status {h} jplout {qv([1,1,1])}) (fun v => vnear 6 v {qv(r)})')
    f.write()

def net_file():
    f=File('VecNet','Base Vec NetModel LinpackModel','The tests of admitb, admitr, theta, thetac, ximpa, ximpar, flo, assign, tm1: monte_carlo/tests/test_*.py.')
    LP3='[(0, 1); (1, 2); (2, 0)]%nat'; B3=[[-120,300,300],[-60,150,150],[-80,100,100]]
    f.ex('admitb_1',f'okd (admitb {LP3} {qm(B3)}) (fun B => mnear 6 B {qm([[-200,120,80],[120,-180,60],[80,60,-140]])})')
    f.ex('theta_1',f'veq (theta {qm([[1,2],[3,4]])} {qv([.2,.5])}) {qv([1.2,2.6])}')
    f.ex('thetac_1',f'veq (thetac {qv([.3,.5,.7])} {nv([2,0,1])}) {qv([.5,0,.3])}')
    BB=[[1.5,-.5,-.5],[-.5,2.5,-1],[-.5,-1,3]]; BN=[[0,50,100,100],[1,50,100,100],[2,50,100,100]]; T=[[1.5,-.5,0],[-.5,3,0],[0,0,0]]
    for g in ['admitr','admitr_loop']:
        f.ex(g+'_1',f'let r := {g} {qm(BB)} {qm(BN)} 1 in meq (fst r) {qm(T)} && neq (snd r) {nv([0,2,1])}')
    ZB=[[-0.011111,-0.008333,-0.005556,-0.002778,0],[-0.008333,-0.0125,-0.008333,-0.004167,0],[-0.005556,-0.008333,-0.011111,-0.005556,0],[-0.002778,-0.004167,-0.005556,-0.006944,0],[0]*5]
    ZT=[[-0.010784,-0.007843,-0.005882,-0.002941,0],[-0.007843,-0.011765,-0.008824,-0.004412,0],[-0.005882,-0.008824,-0.010784,-0.005392,0],[-0.002941,-0.004412,-0.005392,-0.006863,0],[0]*5]
    f.ex('ximpa_1',f'mnear 6 (ximpa {qm(ZB)} {q(0.016667)} 1 2) {qm(ZT)}')
    ZB=[[-0.006667,-0.005,-0.003333,-0.001667,0],[-0.005,-0.01,-0.006667,-0.003333,0],[-0.003333,-0.006667,-0.01,-0.005,0],[-0.001667,-0.003333,-0.005,-0.006667,0],[0]*5]
    ZT=[[-0.004762,-0.003571,-0.002381,-0.00119,0],[-0.003571,-0.008929,-0.005952,-0.002976,0],[-0.002381,-0.005952,-0.009524,-0.004762,0],[-0.00119,-0.002976,-0.004762,-0.006548,0],[0]*5]
    f.ex('ximpar_1',f'mnear 6 (ximpar {qm(ZB)} {q(0.016667)} 0) {qm(ZT)}')
    def flo(k,lps,blp,th,fl,sf,d): f.ex(k,f'let r := flo {lps} {qm(blp)} {qv(th)} in vnear {d} (snd r) {qv(fl)} && vnear {d} (fst r) {qv(sf)}')
    flo('flo_1',LP3,B3,[.1,.2,.3],[12,6,-16],[-28,6,22],6)
    flo('flo_2','[(0, 1); (2, 0)]%nat',[B3[0],B3[2]],[.1,.2,.3],[12,-16],[-28,12,16],6)
    for c in range(1,6):
        p=MC+f'testdata_flo/case{c}/'
        flo(f'flo_case{c}',lp(minus1(load(p+'LP'))),load(p+'BLP'),vec(p+'THET'),vec(p+'FLOW'),vec(p+'SFLOW'),6 if c==1 else 4)
    for k,(I,L,T) in enumerate([([0]*5,[0]*5,[0]*5),([-162,814,414,314,432],[2591]*5,[-162.000000,66.802429,33.975685,25.768997,35.452888]),([620,-40,668,495,845],[2540]*5,[9.436834,-40,10.167428,7.534246,12.861491])],1):
        for g in ['assign','assign_loop']:
            f.ex(f'{g}_{k}',f'let r := {g} {qv(I)} {qv(L)} {nv([1,2,3,4,0])} true in vnear 5 (fst r) {qv(T)} && vnear 5 (snd r) {qv([0]*5)}')
    f.raw('(** [np.linalg.inv], an argument of the model, is instantiated with the LU inverse of LinpackModel *)\nDefinition the_inv (M : list (list Qc)) : option (list (list Qc)) := Some (linpack_inv M (length M)).')
    BN=[[0,50,100,100,0],[1,50,100,100,0],[2,50,100,100,0]]
    def tm1(k,bn,lps,blp,b0,bb,lt,zb): f.ex(k,f'okd (tm1 the_inv {qm(bn)} {lps} {qm(blp)} 0) (fun r => let \'(b, B, L, Z) := r in vnear 6 b {qv(b0)} && mnear 6 B {qm(bb)} && neq L {nv(lt)} && mnear 6 Z {qm(zb)})')
    tm1('tm1_1',BN,LP3,B3,[-120,-60,-80],[[-180,60,0],[60,-140,0],[0,0,0]],[1,2,0],[[-0.006481,-0.002778,0],[-0.002778,-0.008333,0],[0]*3])
    p=MC+'testdata_tm1/'
    tm1('tm1_2',minus1(load(p+'BN'),[0]),lp(minus1(load(p+'LP'))),load(p+'BLP'),vec(p+'BLP0'),load(p+'BB'),[x-1 for x in vec(p+'LT')],load(p+'ZB'))
    f.write()

def linpack_file():
    f=File('VecLinpack','Base Vec LinpackModel','The tests of dgefa, dgeco, dgedi: monte_carlo/tests/test_dgefa.py, test_dgeco.py, test_dgedi.py (30 x 30 matrices of actual runs).')
    for k,(a,b,c) in enumerate([('A','A_modified','IPVT'),('A2','A_modified2','IPVT2'),('A3','A_modified3','IPVT3')],1):
        p=MC+'testdata_dgefa/'
        ip=[x-1 for x in vec(p+c)]
        f.ex(f'dgefa_{k}',f'let \'(A, INFO, IPVT) := dgefa {qm(load(p+a))} 30 in Nat.eqb INFO 0 && neq IPVT {nv(ip)} && mnear 6 A {qm(load(p+b))}')
    for k in (1,2,3):
        p=MC+'testdata_dgeco/'
        ip=[x-1 for x in vec(p+f'IPVT{k}')]
        f.ex(f'dgeco_{k}',f'let \'(A, IPVT) := dgeco {qm(load(p+f"A{k}"))} 30 in neq IPVT {nv(ip)} && mnear 6 A {qm(load(p+f"A{k}_modified"))}')
        p=MC+'testdata_dgedi/'
        ip=[x-1 for x in vec(p+f'IPVT{k}')]
        f.ex(f'dgedi_{k}',f'mnear 4 (dgedi {qm(load(p+f"A{k}"))} 30 {nv(ip)}) {qm(load(p+f"A{k}_modified"))}')
    f.write()

def sub(m,r,c):
    assert all(x==0 for i,row in enumerate(m) for j,x in enumerate(row) if i>=r or j>=c)
    return [row[:c] for row in m[:r]]
def subv(v,r):
    assert all(x==0 for x in v[r:]); return v[:r]
def ones(p): return [x-1 for x in vec(p)]

def lp_file():
    f=File('VecLp','Base Vec NetModel LinpackModel LpModel VecNet','The tests of rm, rc, mc, connls, linp, net, tm2 and transm: monte_carlo/tests/test_*.py.  linp gets fuel for 200 passes.')
    f.raw('Definition arr (m : list (list Qc)) : arr2 := fun i j => mget m i j.\nDefinition arrv (v : list Qc) : arr1 := fun i => vget v i.\nDefinition mat (r c : nat) (A : arr2) : list (list Qc) := mtab r c A.\nDefinition row (c : nat) (A : arr1) : list Qc := vtab c A.')
    p=MC+'testdata_rm/'
    f.ex('rm_1',f'vnear 6 (rm 30 {qv(subv(vec(p+"CB"),30))} {qm(sub(load(p+"TAB"),30,30))}) {qv([0]*25+[1]*5)}')
    p=MC+'testdata_rc/'
    f.ex('rc_1',f'qeqb (rc 30 {qv(subv(vec(p+"PY"),30))} (arr {qm(sub(load(p+"A"),30,43))}) 0) {q(-1)}')
    p=MC+'testdata_mc/'
    CO=[0]*6+[.5,-120,0,0,0,-.5,120,0,0,.5,-120.5,120,0,0,-.5,120.5,-120,0,0,.5,120.5,120,0,0]
    f.ex('mc_1',f'vnear 6 (mc 30 2 {qm(sub(load(p+"TAB"),30,30))} (arr {qm(sub(load(p+"A"),30,43))})) {qv(CO)}')
    for c in (1,2,3):
        p=MC+f'testdata_connls/case{c}/'
        X=load(p+'XOBI'); xob=vec(p+'XOB')
        assert subv(xob,38)==subv(X[1],38)
        f.ex(f'connls_{c}',f'okd (connls {qm(load(p+"BC"))} {qv(vec(p+"INJB"))} 4 0 {nv(ones(p+"LT"))} {qm(load(p+"BLP"))} {lp(minus1(load(p+"LP")))} {qm(minus1(load(p+"BN"),[0]))}) (fun d =>\n'
          f'  Nat.eqb (d_M d) 30 && Nat.eqb (d_N d) 43 && Nat.eqb (d_N1 d) 38 && mnear 5 (mat 30 43 (d_A d)) {qm(sub(load(p+"A"),30,43))} &&\n'
          f'  vnear 5 (row 43 (d_XOBI0 d)) {qv(subv(X[0],43))} && vnear 5 (row 43 (d_XOBI1 d)) {qv(subv(X[1],43))} && neq (d_IBAS d) {nv(ones(p+"IBAS")[:30])} &&\n'
          f'  vnear 5 (d_BS d) {qv(subv(vec(p+"BS"),30))} && vnear 5 (row 30 (d_B d)) {qv(subv(vec(p+"B"),30))} && vnear 5 (row 30 (d_B1 d)) {qv(vec(p+"B1")[:30])})',
          f'test_connls.py case {c}; the test\'s XOB is the second row of XOBI and its TAB the block of A')
    for c in (1,2,3):
        p=MC+f'testdata_linp/case{c}/'
        X=load(p+'XOBI')
        f.ex(f'linp_{c}',f'okd (linp 200 (mkLp 30 43 38 (arr {qm(load(p+"A"))}) (arrv {qv(X[0])}) (arrv {qv(X[1])}) {nv(ones(p+"IBAS"))} {qv(vec(p+"BS"))} (fun _ => q0) (fun _ => q0))) (fun s =>\n'
          f'  neq (s_IBAS s) {nv(ones(p+"IBAS_mod"))} && vnear 6 (row 43 (s_XOB s)) {qv(vec(p+"XOB_mod"))} && vnear 6 (s_BS s) {qv(vec(p+"BS_mod"))} && mnear 6 (s_TAB s) {qm(load(p+"TAB"))})')
    src=open(MC+'test_net.py').read()
    def arrs(name,k=0):
        m=re.findall(name+r' = (?:-1 \+ )?np\.array\(\s*\[(.*?)\]\s*(?:,\s*dtype=int,?)?\s*\)\n',src,re.S)[k]
        return m
    def lit(name): return [F(x) for x in re.findall(r'-?\d+\.?\d*',arrs(name))]
    B,B1,BS,IB=lit('    B'),lit('    B1'),lit('    BS'),[x-1 for x in lit('    IBAS')]
    RT=[F(x) for x in re.findall(r'-?\d+\.?\d*',re.search(r'RES_true = np\.array\((.*?)\n    \)\n',src,re.S).group(1))]
    RT=[RT[i:i+3] for i in range(0,len(RT),3)]
    assert (len(B),len(B1),len(BS),len(IB),len(RT))==(30,30,30,30,38)
    for g in ('net','net_loop'):
        f.ex(f'{g}_1',f'mnear 6 (mat 38 3 ({g} (arrv {qv(B)}) (arrv {qv(B1)}) (fun _ _ => q0) {nv(IB)} {qv(BS)} 30 38)) {qm(RT)}')
    for c,(df,db) in enumerate([(6,6),(3,5),(6,6),(4,6),(5,6)],1):
        p=MC+f'testdata_tm2/case{c}/'
        lps=lp(minus1(load(p+"LP"))); lt=nv(ones(p+'LT'))
        f.ex(f'tm2_{c}',f'okd (tm2 (lp_nls 200 {lps} {lt} 0) {qm(minus1(load(p+"BN"),[0]))} {lps} {qm(load(p+"BLP"))} {qv(vec(p+"BLP0"))} {qm(load(p+"BB"))} {qm(load(p+"ZB"))} {lt} 0 true) (fun o =>\n'
          f'  t_accepted o && vnear {df} (t_flow o) {qv(vec(p+"FLOW"))} && mnear 6 (t_ZB o) {qm(load(p+"ZB_mod"))} && mnear 6 (t_BB o) {qm(load(p+"BB_mod"))} && mnear {db} (t_BN o) {qm(minus1(load(p+"BN_mod"),[0]))})')
    f.write()

def share_file():
    f=File('VecShare','Base Vec NetModel LinpackModel LpModel LpShareModel VecNet VecLp','The three cases of monte_carlo/tests/test_conls.py.')
    for c in (1,2,3):
        p=MC+f'testdata_conls/case{c}/'
        X=load(p+'XOBI'); xob=vec(p+'XOB')
        assert subv(xob,48)==subv(X[1],48)
        f.ex(f'conls_{c}',f'okd (conls {qm(load(p+"BC"))} {qv(vec(p+"INJ"))} 4 0 {nv(ones(p+"LT"))} {qm(load(p+"BLP"))} {lp(minus1(load(p+"LP")))} {qm(minus1(load(p+"BN"),[0]))} {qv(vec(p+"LOD"))}) (fun d =>\n'
          f'  Nat.eqb (d_M d) 35 && Nat.eqb (d_N d) 53 && Nat.eqb (d_N1 d) 48 && mnear 5 (mat 35 53 (d_A d)) {qm(sub(load(p+"A"),35,53))} &&\n'
          f'  vnear 5 (row 53 (d_XOBI0 d)) {qv(subv(X[0],53))} && vnear 5 (row 53 (d_XOBI1 d)) {qv(subv(X[1],53))} && neq (d_IBAS d) {nv(ones(p+"IBAS")[:35])} &&\n'
          f'  vnear 5 (d_BS d) {qv(subv(vec(p+"BS"),35))} && vnear 5 (row 35 (d_B d)) {qv(subv(vec(p+"B"),35))} && vnear 5 (row 35 (d_B1 d)) {qv(vec(p+"B1")[:35])})',
          f'test_conls.py case {c}; the test\'s XOB is the second row of XOBI and its TAB the block of A')
    f.write()

def transm_file():
    f=File('VecTransm','Base Vec NetModel LinpackModel LpModel VecNet','The ten cases of monte_carlo/tests/test_transm.py; linp gets fuel for 200 passes.')
    dflow=[5,4,5,5,5,3,4,5,4,4]
    for c in range(1,11):
        p=MC+f'testdata_transm/case{c}/'
        bn=minus1(load(p+'BN'),[0]); lps=lp(minus1(load(p+'LP'))); lt=nv(ones(p+'LT'))
        ltm=nv(ones(p+'LT_mod'))
        db=5 if c in (1,6,7) else 6
        f.ex(f'transm_{c}',f'okd (transm the_inv (lp_nls 200 {lps} {ltm} 0) {"false" if c==1 else "true"} (mkNet {qm(bn)} {qv(vec(p+"BLP0"))} {qm(load(p+"BB"))} {lt} {qm(load(p+"ZB"))})\n'
          f'  {qm(load(p+"BLPA"))} {lps} 0 {qm(load(p+"STMULT"))} {zv(vec(p+"LNSTAT"))} true {qv(vec(p+"TRNSFR"))} {qv(vec(p+"TRNSFJ"))} {qv(vec(p+"SYSCON"))} {qv(vec(p+"CAPREQ"))}) (fun r =>\n'
          f'  let \'(J, FLOW, SADJ, s) := r in J && vnear {dflow[c-1]} FLOW {qv(vec(p+"FLOW"))} && vnear {5 if c==1 else 4} SADJ {qv(vec(p+"SADJ"))} && vnear 6 (n_BLP0 s) {qv(vec(p+"BLP0_mod"))} &&\n'
          f'  mnear 6 (n_BB s) {qm(load(p+"BB_mod"))} && neq (n_LT s) {ltm} && mnear 6 (n_ZB s) {qm(load(p+"ZB_mod"))} && mnear {db} (n_BN s) {qm(minus1(load(p+"BN_mod"),[0]))})')
    f.write()

def mat(p):
    r=load(p); return r
def stat_rec(p,k,m=''):
    g=lambda n: zm(load(p+n+m)) if n.endswith('A') else zv(vec(p+n+m))
    return '(mkStat '+' '.join(g(n) for n in [f'LOLG{k}A',f'LOLT{k}A',f'MGNG{k}A',f'MGNT{k}A',f'LOLG{k}P',f'LOLT{k}P',f'MGNG{k}P',f'MGNT{k}P'])+')'
STAT_EQ='''Definition stat_eq (a b : stat) : bool := zmeq (lolG a) (lolG b) && zmeq (lolT a) (lolT b) && zmeq (mgnG a) (mgnG b) && zmeq (mgnT a) (mgnT b) &&
  zeq (plolG a) (plolG b) && zeq (plolT a) (plolT b) && zeq (pmgnG a) (pmgnG b) && zeq (pmgnT a) (pmgnT b).'''
def stat_file():
    f=File('VecStat','Base Vec LoadModel StatModel','The tests of hrstat and pkstat on data of actual runs: monte_carlo/tests/test_hrstat_new.py, test_pkstat_new.py.')
    f.raw(STAT_EQ)
    for c in (1,2,3):
        p=MC+f'testdata_hrstat/case{c}/'
        for g in ('hrstat','hrstat_vec'):
            f.ex(f'{g}_{c}',f'let r := {g} 0 {qv(vec(p+"MARGIN"))} {zv(vec(p+"LSFLG"))} {stat_rec(p,"H")} in zeq (fst r) {zv(vec(p+"LSFLG_mod"))} && stat_eq (snd r) {stat_rec(p,"H","_mod")}')
        p=MC+f'testdata_pkstat/case{c}/'
        for g in ('pkstat','pkstat_loop'):
            f.ex(f'{g}_{c}',f'stat_eq ({g} 0 {qv(vec(p+"MARGIN"))} {stat_rec(p,"P")}) {stat_rec(p,"P","_mod")}')
    f.write()

def acc_rec(p,L,W,k,m=''):
    return f'(mkAcc {zm(load(p+f"{L}G{k}A"+m))} {zm(load(p+f"{L}T{k}A"+m))} {zm(load(p+f"{L}S{k}A"+m))} {qv(vec(p+f"{W}G{k}A"+m))} {qv(vec(p+f"{W}T{k}A"+m))} {qv(vec(p+f"{W}S{k}A"+m))})'
def pacc_rec(p,L,W,k,m=''):
    s=lambda n: q(load(p+n+m)[0][0])
    return f'(mkPacc {zv(vec(p+f"{L}G{k}P"+m))} {zv(vec(p+f"{L}T{k}P"+m))} {zv(vec(p+f"{L}S{k}P"+m))} {s(f"{W}G{k}P")} {s(f"{W}T{k}P")} {s(f"{W}S{k}P")})'
def cumul_rec(p,k,m=''):
    return f'(mkCumul {acc_rec(p,"SOL","SWL",k,m)} {acc_rec(p,"SGN","SWN",k,m)}\n    {pacc_rec(p,"SOL","SWL",k,m)} {pacc_rec(p,"SGN","SWN",k,m)})'
CUMUL_EQ='''Definition acc_eq (a b : acc) : bool := zmeq (aG a) (aG b) && zmeq (aT a) (aT b) && zmeq (aS a) (aS b) && vnear 6 (wG a) (wG b) && vnear 6 (wT a) (wT b) && vnear 6 (wS a) (wS b).
Definition pacc_eq (a b : pacc) : bool := zeq (pG a) (pG b) && zeq (pT a) (pT b) && zeq (pS a) (pS b) && near 6 (vG a) (vG b) && near 6 (vT a) (vT b) && near 6 (vS a) (vS b).
Definition cumul_eq (a b : cumul) : bool := acc_eq (c_lol a) (c_lol b) && acc_eq (c_mgn a) (c_mgn b) && pacc_eq (c_plol a) (c_plol b) && pacc_eq (c_pmgn a) (c_pmgn b).'''
def year_file():
    f=File('VecYear','Base Vec LoadModel StatModel YearModel ReportModel VecStat','The tests of cvchk, year and report: monte_carlo/tests/test_cvchk.py, test_year.py, test_report.py.')
    f.raw(CUMUL_EQ)
    f.raw('Definition cf : ycfg := mkYcfg 1 0 50 (qq 25 1000) (qz 87591240) 5 0 0 1 1 1 2 0.')
    data=[(8760,0,0,0,0,5),(17520,0,0,1,1,5),(26280,1,1,1,1,5),(35040,1,1,1,1,5),(122640,7,9,7,9,15),(31325760,1617,2367,1618,2368,3580)]
    for c,(clk,xl,ssq,xl2,ssq2,intvt) in enumerate(data,1):
        p=MC+f'testdata_year/case{c}/'
        def st(m): return (f'(mkYst {stat_rec(p,"H",m)}\n   {stat_rec(p,"P",m)}\n   {cumul_rec(p,"H",m)}\n   {cumul_rec(p,"P",m)}\n   '
            f'{zm(load(p+"HLOLE"+m))} {zm(load(p+"DPLOLE"+m))} {zm(load(p+"EUES"+m))}\n   {qm(load(p+"XNEWA"+m))} {qv(vec(p+"XNEWP"+m))} ')
        f.d(f'before{c}',st('')+f'(qz {ssq}) (qz {xl}) {intvt} 11)')
        f.d(f'after{c}',st('_mod')+f'(qz {ssq2}) (qz {xl2}) {intvt} {18 if c==6 else 11})')
        f.d(f'table{c}',qm(load(p+'SUSTAT'))); f.d(f'table{c}_after',qm(load(p+'SUSTAT_mod')))
        rf=1 if c==6 else 0
        f.ex(f'year_{c}',f'okd (year cf 5 (qz {clk}) before{c}) (fun r => let (s, o) := r in let t := after{c} in\n'
          f'  cumul_eq (o_h o) (y_ch t) && cumul_eq (o_p o) (y_cp t) &&\n'
          f'  zmeq (y_HL s) (y_HL t) && zmeq (y_DP s) (y_DP t) && zmeq (y_EU s) (y_EU t) && mnear 6 (y_XA s) (y_XA t) && vnear 6 (y_XP s) (y_XP t) &&\n'
          f'  qeqb (y_SSQ s) (y_SSQ t) && qeqb (y_XLAST s) (y_XLAST t) && (y_INTVT s =? y_INTVT t)%Z && (y_ITAB s =? y_ITAB t)%Z && (o_rflag o =? {rf})%Z &&\n'
          f'  match year_report cf 5 table{c} before{c} s o with None => mnear 5 table{c} table{c}_after | Some (Ok rep) => mnear 5 (r_sustat rep) table{c}_after && (r_ITAB rep =? y_ITAB t)%Z | _ => false end)',
          'the pool\'s weighted values are 0-d arrays in the test, so it sees them updated; compared with what [year] uses' if c==1 else '')
    f.raw("""(** The data files hold what the original program left in the counters of the year (all zero); the unit
    test does not compare them.  The Python code, hence the model, leaves the count of the third area in place
    (year.py 637-644 have the indices the wrong way round). *)
Example year_1_reset : okd (year cf 5 (qz 8760) before1) (fun r => negb (stat_eq (y_h (fst r)) (y_h after1)) && zmeq (lolT (y_h after1)) (repeat (repeat 0 5) 5) && (zmget (lolT (y_h (fst r))) 2 0 =? 1)) = true.
Proof. vm_compute; reflexivity. Qed.""")
    f.write()

def small_file():
    f=File('VecSmall','Base Vec LoadModel YearModel OutageModel','The tests of cvchk, sumcap, findtn, wpeakf, dpeak, gsm and pmlolp: monte_carlo/tests/test_cvchk.py, test_sumcap.py, test_findtn.py, data_processing/tests/test_wpeakf.py, test_dpeak.py, test_gsm.py, test_pmlolp.py.')
    fin=9999*8760
    for k,(clk,S,xl,ssq,iy,cv,rf,ssq2,xl2) in enumerate([('12.5',3,2,3,4,'0.05',0,4,3),(fin+1,3,2,3,4,'0.05',1,4,3),('12.5',3,2,3,5,'0.05',0,4,3),('12.5',1,1,'0.3',5,'0.5',1,'0.3',1)],1):
        for g in ('cvchk','cvchk_loop'):
            f.ex(f'{g}_{k}',f'let \'(r, s, x) := {g} {q(clk)} {q(fin)} {iy} {q(cv)} {q(S)} {q(xl)} {q(ssq)} in (r =? {rf})%Z && qeqb s {q(ssq2)} && qeqb x {q(xl2)}')
    f.ex('sumcap_1',f'okd (sumcap {qv([100,50,150])} {qm([[1,.5,0],[0,.5,1]])} [0; 0; 1]) (fun r => let \'(a, b, c, d) := r in meq a {qm([[100,25,0],[0,25,150]])} && veq b {qv([125,175])} && veq c {qv([150,150])} && veq d {qv([25,-25])})')
    f.raw('Definition jent : list (list Z) := [[-1; -1; -1]; [0; -1; -1]; [-1; 1; -1]].\nDefinition intchg : list (list Qc) := [repeat (qq 1105 10) 30 ++ repeat q0 335; repeat q0 20 ++ repeat (qq 1205 10) 60 ++ repeat q0 285].')
    for d,t in [(5,[-110.5,110.5,0]),(25,[-110.5,-10,120.5]),(50,[0,-120.5,120.5]),(100,[0,0,0])]:
        f.ex(f'findtn_{d}',f'okd (findtn jent intchg {d}) (fun v => vnear 6 v {qv(t)})')
    f.raw(f'Definition wk1 := {qv([1,.85,.7,.55,.4,.25,.1])}.\nDefinition dyload := [concat (repeat wk1 52) ++ [qz 101]; concat (repeat (rev wk1) 52) ++ [qz 101]].')
    for g in ('wpeakf','wpeakf_loop'): f.ex(g+'_1',f'meq ({g} dyload) (repeat (repeat q1 51 ++ [qz 101]) 2)')
    H=[[1.5,2.5,3.5,3.6,2.6,1.6],[4.5,5.5,6.5,6.6,5.6,4.6],[7.5,8.5,9.5,9.6,8.6,7.6],[10.5,11.5,12.5,12.6,11.6,10.6]]
    for g in ('dpeak','dpeak_loop'):
        f.ex(g+'_1',f'let \'(h, d, m) := {g} 3 {qm(H)} in all2 neq h (repeat [2; 3]%nat 4) && meq d {qm([[3.5,3.6],[6.5,6.6],[9.5,9.6],[12.5,12.6]])} && neq m [1; 1; 1; 1]%nat')
    f.ex('gsm_1',f'let t := gsm 10 0 {q("0.98")} q0 {q("0.02")} (mkCtab 1 (repeat 0 5000) (q1 :: repeat q0 4999)) in Nat.eqb (ct_N t) 2 && zeq (firstn 2 (ct_KA t)) [0; 10] && vnear 6 (firstn 2 (ct_PA t)) {qv([1,.02])}')
    caps=[12]*5+[20]*4+[50]*6+[76]*4+[100]*3+[155]*4+[197]*3+[350,400,400]
    RD=load(DP+'testdata_pmlolp/RD')
    us='['+'; '.join(f'mkOunit {q(c)} {q(r[0])} {q(r[1])} {q(r[2])}' for c,r in zip(caps,RD))+']'
    KA=vec(DP+'testdata_pmlolp/KA_modified'); PA=vec(DP+'testdata_pmlolp/PA_modified')
    last=max(i for i in range(5000) if KA[i]!=0 or PA[i]!=0)
    f.d('outages','pmlolp '+us)
    f.ex('pmlolp_1',f'Nat.eqb (ct_N outages) 213 && zeq (firstn 213 (ct_KA outages)) {zv(KA[:213])} && vnear 4 (firstn 213 (ct_PA outages)) {qv(PA[:213])}')
    f.write()

def s(x): return '"'+x.replace('"','""')+'"'
def table(p):
    import csv
    rows=[r for r in csv.reader(open(p)) if r]
    def cell(x):
        try: return f'Num {q(F(x))}'
        except ValueError: return f'Txt {s(x)}'
    return '(mkTable ['+'; '.join(s(x) for x in rows[0])+'] ['+';\n   '.join('['+'; '.join(cell(x) for x in r)+']' for r in rows[1:])+'])'
def files(d,leei='EmptyString'):
    return '(mkFiles '+'\n '.join(table(d+n) for n in ['ZZMC.csv','ZZLD.csv','ZZUD.csv','ZZTD.csv','ZZFC.csv','ZZOD.csv','ZZDD.csv'])+f' {leei})'
def datax_ex(f,name,fs,d):
    f.ex(name,f'okd (do c <- read_cards {fs}; do c\' <- pind c; datax c\') (fun d =>\n'
      f'  veq (dx_QTR d) {qv(d["QTR"])} && Nat.eqb (dx_NORR d) 0 && Nat.eqb (dx_NFCST d) 1 && mnear 6 (dx_BN d) {qm(d["BN"])} && mnear 6 (dx_FCTERR d) {qm(d["FCTERR"])} &&\n'
      f'  zeq (dx_CAPCON d) {zv(d["CAPCON"])} && mnear 6 (dx_CAPOWN d) {qm(d["CAPOWN"])} && mnear 6 (dx_PROBG d) {qm(d["PROBG"])} && vnear 6 (dx_DERATE d) {qv(d["DERATE"])} &&\n'
      f'  zmeq (dx_JENT d) {zm(d["JENT"])} && meq (dx_INTCH d) (repeat (repeat q0 365) 60) && all2 (fun a b => Nat.eqb (fst a) (fst b) && Nat.eqb (snd a) (snd b)) (dx_LP d) {lp(d["LP"])} &&\n'
      f'  zmeq (dx_LINENO d) {zm(d["LINENO"])} && mnear 6 (dx_PROBL d) {qm(d["PROBL"])} && mnear 6 (dx_BLPA d) {qm(d["BLPA"])} && zmeq (dx_ID d) {zm(d["ID"])})')
def data_file():
    f=File('VecData','Base Vec LoadModel HourModel ProgramModel DataModel MaintModel PrepModel ReadModel','The tests of readInputB, pind, datax, xldnew, dpeak, wpeakf, resca, dataf1 on files: data_processing/tests/test_datax.py, test_pind.py, test_dataf1_new.py.')
    f.o.insert(1,'From Coq Require Import String.'); f.raw('Open Scope string_scope.\nOpen Scope list_scope.\nOpen Scope Z_scope.')
    two=dict(QTR=[13*168+.5,26*168+.5,39*168+.5],BN=[[0,0,0,30000,30000],[1,0,0,30000,30000]],FCTERR=[[1]*5]*2,CAPCON=[0,1],CAPOWN=[[1,0],[0,1]],PROBG=[[.98,.98]]*2,DERATE=[1,1],
      JENT=[[-1,-1]]*2,LP=[[0,0,1]],LINENO=[[-1,0],[-1,-1]],PROBL=[[.9216,.9984,1,1,1,1]],BLPA=[[-120,300,300,-60,150,150,-.5,1,1,-80,150,150,-40,100,100,-20,50,50]],
      ID=[[0,0,0,-1,0,-1,0,0],[1,1,1,-1,0,-1,0,0]])
    f.d('files2',files(DP)); datax_ex(f,'datax_2','files2',two)
    D=DP+'testdata_input_processing/'
    f.ex('misc_2','okd (read_cards files2) (fun c => let m := c_misc c in (m_NLS m =? 1) && (m_IOJ m =? 0) && (m_KVL m =? 1) && (m_KVSTAT m =? 1) && (m_KVTYPE m =? 2) && (m_KVWHEN m =? 1) && (m_KWHERE m =? 1) && qeqb (m_CVTEST m) (qq 25 1000) && qeqb (m_MAXEUE m) (qz 1000) && (m_JSTEP m =? 1) && (m_JFREQ m =? 1) && (m_FINISH m =? 9999) && (m_INTV m =? 5))')
    L=lambda n: load(D+n)
    probl=L('PROBL'); idm=minus1(L('ID_modified'),[0,1,2,3,5])
    five=dict(QTR=vec(D+'QTR'),BN=minus1(L('BN'),[0]),FCTERR=L('FCTERR'),CAPCON=ones(D+'CAPCON'),CAPOWN=L('CAPOWN'),PROBG=L('PROBG'),DERATE=vec(D+'DERATE'),JENT=minus1(L('JENT')),LP=minus1(L('LP')),
      LINENO=minus1(L('LINENO')),PROBL=[list(c) for c in zip(*probl)],BLPA=L('BLPA'),ID=None)
    import csv
    ud=list(csv.reader(open(D+'ZZUD.csv')))[1:]
    # the ID that datax delivers is ID_modified before the maintenance scheduling
    five['ID']=[[i,i,idm[i][2],int(r[11])-1,int(r[12]),int(r[13])-1,int(r[14]),int(r[10])] for i,r in enumerate(x for x in ud if x)]
    f.d('files5',files(D)); datax_ex(f,'datax_5','files5',five)
    lines=open(D+'LEEI').read().split('\n')
    if lines[-1]=='': lines.pop()
    blocks=[]
    for l in lines:
        if l[:4]=='AREA': blocks.append((l,[]))
        else: blocks[-1][1].append(l)
    raw=[[F(x) for l in b for x in l.split()[-12:]] for _,b in blocks]; assert all(len(r)==8760 for r in raw)
    txt='\n'.join([blocks[0][0]]+blocks[0][1][:4]+[blocks[1][0]]+blocks[1][1][:4])+'\n'
    f.ex('read_loads_5','okd (read_loads (leei_lines '+s(txt)+f') None (mzeros 5 48)) (fun H => meq H [{qv(raw[0][:48])}; {qv(raw[1][:48])}; vzeros 48; vzeros 48; vzeros 48])','the text of the first two days of the areas 1 and 2')
    H=L('HRLOAD_XPOS'); hr=H[0]; assert all(r==hr for r in H) and all(r==raw[0] for r in raw)
    f.d('raw1',qv(raw[0])); f.d('loads1',f'rescale raw1 (qz 3000)')
    f.ex('rescale_5',f'vnear 4 loads1 {qv(hr)}','one area: the five are alike in the test data; HRLOAD_XPOS without fixed contracts is the rescaled load')
    f.ex('dpeak_5',f'let \'(h, d, m) := dpeak 24 [loads1] in neq (hd [] h) {nv([x-1 for x in L("MAXHR")[0]])} && vnear 4 (hd [] d) {qv(L("DYLOAD")[0])} && neq m {nv(ones(D+"MAXDAY")[:1])} && mnear 6 (wpeakf d) {qm(L("WPEAK")[:1])}')
    f.ex('plhr_5',f'neq (plhr [loads1]) {nv(ones(D+"MXPLHR"))}')
    f.ex('resca_5',f'okd (do c <- read_cards files5; do c\' <- pind c; do x <- datax c\'; Ok (sustat {qv(vec(D+"PKLOAD"))} {nv(ones(D+"MAXDAY"))} x (map u_cap (c_units c\')))) (fun t => mnear 6 t {qm(L("SUSTAT_RESCA"))})')
    f.write()

def maint_file():
    f=File('VecMaint','Base Vec MaintModel','The tests of pmsc and smaint: data_processing/tests/test_pmsc.py, test_smaint_new.py.  The scheduling heuristics, arguments of the model, are replaced by failure where they would change anything: they are not reached.')
    f.raw('Definition pmsc0 IA ID ITAB RATES := pmsc unit (fun c => c) (fun _ _ => Err ValueError) (fun _ _ _ _ => Err ValueError) IA ID ITAB RATES tt.')
    for c in range(1,6):
        p=DP+f'testdata_pmsc/case{c}/'
        cols=[0,1,2,3,5]
        f.ex(f'pmsc_{c}',f'okd (pmsc0 {c-1} {zm(minus1(load(p+"ID"),cols))} {c+5} {qm(load(p+"RATES"))}) (fun r => zmeq (fst r) {zm(minus1(load(p+"ID_modified"),cols))} && (snd r =? {c+6}))')
    p=DP+'testdata_smaint/'
    J=[[r[0]]+[x-1 for x in r[1:]] for r in load(p+'JPLOUT')]
    n=len(load(p+'ID')); assert all(all(x==-1 for x in r[1:]) or True for r in J)
    J=[r+[F(-1)]*(n+1-120) for r in J]
    f.ex('smaint_1',f'okd (smaint (fun c => c) (fun _ _ => Err ValueError) (fun _ _ _ _ => Err ValueError) tt 5 {zm(minus1(load(p+"ID"),[0,1,2,3,5]))} 6 {qm(load(p+"RATES"))}) (fun r => zmeq (fst r) {zm(J)} && (snd r =? 11))')
    f.write()

if __name__=='__main__':
    for g in [events_file,net_file,linpack_file,lp_file,share_file,transm_file,stat_file,year_file,small_file,data_file,maint_file]: g()
