# writes rocq/theories/PDicts.v: interval bounds of the canonical matrices of the shipped bicycles
import sys
sys.path.insert(0,__file__.rsplit('/',1)[0] if '/' in __file__ else '.')
from dicts_data import dicts,q,Fr
from decimal import Decimal,getcontext
getcontext().prec=50
from math import comb
# polynomials in s,k : dict (i,j)->Fr
class P:
    def __init__(s,d=None): s.d={m:c for m,c in (d or {}).items() if c!=0}
    def __add__(a,b):
        b=b if isinstance(b,P) else P({(0,0):Fr(b)}); d=dict(a.d)
        for m,c in b.d.items(): d[m]=d.get(m,Fr(0))+c
        return P(d)
    __radd__=__add__
    def __neg__(a): return P({m:-c for m,c in a.d.items()})
    def __sub__(a,b): return a+(-b if isinstance(b,P) else -Fr(b))
    def __rsub__(a,b): return -a+b
    def __mul__(a,b):
        b=b if isinstance(b,P) else P({(0,0):Fr(b)}); d={}
        for m,c in a.d.items():
            for n,e in b.d.items():
                t=(m[0]+n[0],m[1]+n[1]); d[t]=d.get(t,Fr(0))+c*e
        return P(d)
    __rmul__=__mul__
    def __truediv__(a,b): return a*(Fr(1)/Fr(b))
    def ev(a,s,k): return sum(Decimal(c.numerator)/Decimal(c.denominator)*s**m[0]*k**m[1] for m,c in a.d.items())
    def coq(a):
        if not a.d: return '0'
        mon={(0,0):'',(1,0):' * s',(0,1):' * k',(2,0):' * (s * s)',(1,1):' * (s * k)',(0,2):' * (k * k)'}
        return ' + '.join('(%s)%s'%(q(c),mon[m]) for m,c in sorted(a.d.items()))
def can(p):
    s=P({(1,0):Fr(1)});C=P({(0,1):Fr(1)})
    mR,mB,mH,mF=[p['m'+x] for x in 'RBHF'];xB,xH,zB,zH,w,c,rR,rF=[p[k] for k in 'xB xH zB zH w c rR rF'.split()]
    IRzz=p['IRxx'];IFzz=p['IFxx']
    mT=mR+mB+mH+mF;xT=(xB*mB+xH*mH+w*mF)/mT;zT=(-rR*mR+zB*mB+zH*mH-rF*mF)/mT
    ITxx=p['IRxx']+p['IBxx']+p['IHxx']+p['IFxx']+mR*rR**2+mB*zB**2+mH*zH**2+mF*rF**2
    ITxz=p['IBxz']+p['IHxz']-mB*xB*zB-mH*xH*zH+mF*w*rF
    ITzz=IRzz+p['IBzz']+p['IHzz']+IFzz+mB*xB**2+mH*xH**2+mF*w**2
    mA=mH+mF;xA=(xH*mH+w*mF)/mA;zA=(zH*mH-rF*mF)/mA
    IAxx=p['IHxx']+p['IFxx']+mH*(zH-zA)**2+mF*(rF+zA)**2
    IAxz=p['IHxz']-mH*(xH-xA)*(zH-zA)+mF*(w-xA)*(rF+zA)
    IAzz=p['IHzz']+IFzz+mH*(xH-xA)**2+mF*(w-xA)**2
    uA=(xA-w-c)*C-zA*s
    IAll=mA*(uA*uA)+IAxx*s*s+2*IAxz*s*C+IAzz*C*C
    IAlx=-mA*zA*uA+IAxx*s+IAxz*C
    IAlz=mA*xA*uA+IAxz*s+IAzz*C
    mu=c/w*C;SR=p['IRyy']/rR;SF=p['IFyy']/rF;ST=SR+SF;SA=mA*uA+mu*mT*xT
    Z=P()
    M=[P({(0,0):ITxx}),IAlx+mu*ITxz,IAlx+mu*ITxz,IAll+2*mu*IAlz+mu*mu*ITzz]
    K0=[P({(0,0):mT*zT}),-SA,-SA,-SA*s]
    K2=[Z,(ST-mT*zT)/w*C,Z,(SA+SF*s)/w*C]
    C1=[Z,mu*ST+SF*C+ITxz/w*C-mu*mT*zT,-(mu*ST+SF*C),IAlz/w*C+mu*(SA+ITzz/w*C)]
    return M,C1,K0,K2
bench={k:Fr(v) for k,v in dict(w='1.02',c='0.08',g='9.81',rR='0.3',mR='2',IRxx='0.0603',IRyy='0.12',xB='0.3',zB='-0.9',mB='85',IBxx='9.2',IByy='11',IBzz='2.8',IBxz='2.4',xH='0.9',zH='-0.7',mH='4',IHxx='0.05892',IHyy='0.06',IHzz='0.00708',IHxz='-0.00756',rF='0.35',mF='3',IFxx='0.1405',IFyy='0.28').items()}
def sincos(lam):
    lam=Decimal(lam.numerator)/Decimal(lam.denominator)
    s=Decimal(0);c=Decimal(0);t=Decimal(1)
    for i in range(40):
        if i%2==0: c+=t*(1 if i%4==0 else -1)
        else: s+=t*(1 if i%4==1 else -1)
        t=t*lam/(i+1)
    return s,c
bikes=[]
for short,n in (('jason','meijaard2007_browser_jason'),('legs','meijaard2007_browser_jasonlegs')):
    p={k:v[0] for k,v in dicts[n].items()}
    bikes.append((short,n,p,sincos(p['lam']),dict(jason=('4.9978','4.9979','7.11','7.1101'),legs=('4.639','4.6392','5.8806','5.8807'))[short]))
s18=(Decimal(5).sqrt()-1)/4
bikes.append(('bench','bench07',bench,(s18,(1-s18*s18).sqrt()),('4.292','4.293','6.024','6.025')))
def dq(x,n=14): # decimal rounding as fraction
    r=int((x*10**n).to_integral_value()); return Fr(r,10**n)
out=[]
W=out.append
W('''(* PDicts.v -- the bicycles of parameter_dicts.py: generated by tools/dicts_gen.py *)
From Coq Require Import Lra Lia.
From Verif Require Import Base MVec MInertia MBicycle MDicts SBicycle PBicycle PBicycle2 SRouth SSpeeds PSpeeds PNum TBicycle.
Local Open Scope string_scope.
Local Open Scope R_scope.
Lemma mk2_eq a b c d a' b' c' d' : a = a' -> b = b' -> c = c' -> d = d' -> mk2 a b c d = mk2 a' b' c' d'.
Proof. intros; subst; reflexivity. Qed.
Lemma mkcanon_eq a b c d a' b' c' d' : a = a' -> b = b' -> c = c' -> d = d' -> mkcanon a b c d = mkcanon a' b' c' d'.
Proof. intros; subst; reflexivity. Qed.
Ltac near_prod HX HY := eapply (near_mul _ _ _ _ _ _ _ _ _ _ HX HY).
''')
for short,n,p,(sv,kv),br in bikes:
    M,C1,K0,K2=can(p)
    lamtxt='PI / 10' if short=='bench' else q(p['lam'])
    W('Definition %s_matrices (s k : R) : canon := mkcanon'%short)
    W('  (mk2 %s)'%' '.join('(%s)'%x.coq() for x in M))
    W('  (mk2 %s)'%' '.join('(%s)'%x.coq() for x in C1))
    W('  (mk2 %s)'%' '.join('(%s)'%x.coq() for x in K0))
    W('  (mk2 %s).'%' '.join('(%s)'%x.coq() for x in K2))
    W('Lemma %s_canon : F_canon (pv %s) = %s_matrices (sin (%s)) (cos (%s)).'%(short,n,short,lamtxt,lamtxt))
    W('''Proof.
  unfold F_canon, %s_matrices, F_mu, F_IAll, F_IAlx, F_IAlz, F_SA, F_uA, F_mu, F_ITxx, F_ITxz, F_ITzz, F_ST, F_SR, F_SF, F_zT, F_xT, F_mT, F_IAxx, F_IAxz, F_IAzz, F_xA, F_zA, F_mA.
  unfold pv, %s. cbn [dget String.eqb Ascii.eqb Bool.eqb]. set (s := sin _). set (k := cos _). clearbody s k.
  apply mkcanon_eq; apply mk2_eq; field.
Qed.'''%(short,n))
import math
def fq(x): return q(x) if Fr(x).denominator==1 else '(%s)'%q(x)
def up(x,n=16): # round up to a 2-digit decimal
    x=Fr(x)
    if x==0: return Fr(0)
    e=0
    while x*10**e<10: e+=1
    return Fr(math.ceil(x*10**e),10**e)
def rnd(x,n=14): return Fr(round(x*10**n),10**n)
class Ctx:
    def __init__(s): s.out=[]; s.n=0
def prod(W,name,A,B,expr):
    # A=(hyp,center,err,text)
    x0,e=A[1],A[2]; y0,f=B[1],B[2]
    z0=rnd(x0*y0); d=up(e*abs(y0)+f*abs(x0)+e*f+abs(z0-x0*y0))
    W('  assert (%s : near (%s) (%s * %s) (%s)) by (apply (near_mul (%s) (%s) _ (%s) (%s) _ (%s) _ (%s) _ %s %s); lra).'%(name,q(d),A[3],B[3],q(z0),q(e),q(f),q(abs(x0)),q(abs(y0)),q(x0),q(y0),A[0],B[0]))
    return (name,z0,d,'%s * %s'%(A[3],B[3]))
def lin(W,name,terms,text,newtext=None):
    # terms: list (coef, item)
    z=sum(c*t[1] for c,t in terms); z0=rnd(z); d=up(sum(abs(c)*t[2] for c,t in terms)+abs(z-z0))
    W('  assert (%s : near (%s) (%s) (%s)) by (clear - %s; unfold near in *; lra).'%(name,q(d),text,q(z0),' '.join(t[0] for c,t in terms)))
    return (name,z0,d,text)
out2=[]
W=out2.append
for short,n,p,(sv,kv),br in bikes:
    g=p['g']; lo,hi,lo2,hi2=[Fr(b) for b in br]
    M,C1,K0,K2=can(p)
    es=Fr(1,10**12)
    s0=dq(sv);k0=dq(kv)
    E=dict(a=M[0],b=M[1],d=M[3],p=C1[1],q=C1[2],r=C1[3],x=K0[0],y=K0[1],z=K0[3],h=K2[1],j=K2[3])
    W('(* ---- %s ---- *)'%n)
    if short=='bench':
        W('''Lemma bench_sine : near (%s) (sin (PI / 10)) (%s).
Proof.
  rewrite sin_18. assert (R5 : sqrt 5 * sqrt 5 = 5) by (apply sqrt_sqrt; lra). assert (P5 : 0 <= sqrt 5) by apply sqrt_pos. unfold near. split; apply Rnot_lt_le; intros L; set (q := sqrt 5) in *; clearbody q; nra.
Qed.'''%(q(es/10),q(s0)))
        W('''Lemma bench_cosine : near (%s) (cos (PI / 10)) (%s).
Proof.
  pose proof bench_sine as S. pose proof PI_RGT_0. assert (K : 0 < cos (PI / 10)) by (apply cos_gt_0; lra). pose proof (sin2_cos2 (PI / 10)) as X. unfold Rsqr in X. set (s := sin (PI / 10)) in *. set (k := cos (PI / 10)) in *. clearbody s k.'''%(q(es),q(k0)))
        A=('S',s0,es/10,'s'); t=prod(W,'SS',A,A,'')
        W('''  unfold near in SS |- *. clear S. split; apply Rnot_lt_le; intros L; nra.
Qed.''')
    else:
        lam=q(p['lam'])
        W('''Lemma %s_sine : near (%s) (sin (%s)) (%s).
Proof. pose proof (sin_bounds (%s) ltac:(lra)) as B. unfold sin_low in B. unfold near. lra. Qed.
Lemma %s_cosine : near (%s) (cos (%s)) (%s).
Proof. pose proof (cos_bounds (%s) ltac:(lra)) as B. unfold cos_low in B. unfold near. lra. Qed.'''%(short,q(es),lam,q(s0),lam,short,q(es),lam,q(k0),lam))
    # entries
    S=('HS',s0,es,'s');K=('HK',k0,es,'k')
    hyps='near (%s) s (%s) -> near (%s) k (%s)'%(q(es),q(s0),q(es),q(k0))
    ent={}
    stm=[];prf=[]
    PW=prf.append
    ss=prod(PW,'SS',S,S,'');sk=prod(PW,'SK',S,K,'');kk=prod(PW,'KK',K,K,'')
    at={(1,0):S,(0,1):K,(2,0):ss,(1,1):sk,(0,2):kk}
    for v in 'abdpqrxyzhj':
        poly=E[v]
        z=sum(c*(at[m][1] if m!=(0,0) else 1) for m,c in poly.d.items()); z0=rnd(z)
        d=up(sum(abs(c)*(at[m][2] if m!=(0,0) else 0) for m,c in poly.d.items())+abs(z-z0)); 
        if d==0: d=Fr(1,10**14)
        ent[v]=('H'+v,z0,d,v,poly.coq())
    W('Lemma %s_entries s k : %s ->'%(short,hyps))
    W('  '+' /\\\n  '.join('near (%s) (%s) (%s)'%(q(ent[v][2]),ent[v][4],q(ent[v][1])) for v in 'abdpqrxyzhj')+'.')
    W('Proof.\n  intros HS HK.')
    out2+=prf
    W('  unfold near in *. '+'split; [lra|]. '*10+'lra.\nQed.')
    # coefficients
    W('Lemma %s_coefs a b d p q r x y z h j : '%short+' -> '.join('near (%s) %s (%s)'%(q(ent[v][2]),v,q(ent[v][1])) for v in 'abdpqrxyzhj')+' ->')
    pp=[];PW=pp.append
    I={v:ent[v][:4] for v in ent}
    need=dict(ad='ad',bb='bb',ar='ar',bq='bq',bp='bp',az='az',dx='dx',by='by',aj='aj',bh='bh',pq='pq',rx='rx',py='py',qy='qy',qh='qh',xj='xj',yh='yh',xz='xz',yy='yy')
    pr={}
    for k_ in need: pr[k_]=prod(PW,'N'+k_,I[k_[0]],I[k_[1]],'')
    co={}
    def c(name,terms,text): co[name]=lin(PW,'C'+name,terms,text)
    c('a4',[(1,pr['ad']),(-1,pr['bb'])],'a * d - b * b')
    c('k3',[(1,pr['ar']),(-1,pr['bq']),(-1,pr['bp'])],'a * r + d * 0 - b * q - b * p')
    c('m1',[(1,pr['az']),(1,pr['dx']),(-2,pr['by'])],'a * z + d * x - b * y - b * y')
    c('m2',[(1,pr['aj']),(-1,pr['bh']),(-1,pr['pq'])],'a * j + d * 0 - b * 0 - b * h + (0 * r - p * q)')
    c('m3',[(1,pr['rx']),(-1,pr['py']),(-1,pr['qy'])],'0 * z + r * x - p * y - q * y')
    c('m4',[(-1,pr['qh'])],'0 * j + r * 0 - p * 0 - q * h')
    c('m5',[(1,pr['xj']),(-1,pr['yh'])],'x * j + z * 0 - y * 0 - y * h')
    c('dk',[(1,pr['xz']),(-1,pr['yy'])],'x * z - y * y')
    names=['a4','k3','m1','m2','m3','m4','m5','dk']
    W('  '+' /\\\n  '.join('near (%s) (%s) (%s)'%(q(co[v][2]),co[v][3],q(co[v][1])) for v in names)+'.')
    W('Proof.\n  intros '+' '.join('H'+v for v in 'abdpqrxyzhj')+'.')
    out2+=pp
    W('  repeat (split; [assumption|]). assumption.\nQed.')
    # signs
    W('Lemma %s_signs a4 k3 m1 m2 m3 m4 m5 dk : '%short+' -> '.join('near (%s) %s (%s)'%(q(co[v][2]),v,q(co[v][1])) for v in names)+' ->')
    def Q(V): 
        Vt='(%s)'%q(V)
        return '(%s * m3 + %s * m4) * (%s * m1 + %s * m2) * k3 - a4 * (%s * m3 + %s * m4) ^ 2 - %s * (%s * dk + %s * m5) * k3 ^ 2'%(fq(g),Vt,fq(g),Vt,fq(g),Vt,fq(g),fq(g),Vt)
    W('  0 < k3 /\\ 0 < m4 /\\ 0 < m2 /\\ m5 < 0 /\\ 0 < m2 * k3 - a4 * m4 /\\ 0 < %s * m3 + (%s) * m4 /\\ 0 < %s * m1 + (%s) * m2 /\\ 0 < %s * (%s * dk + (%s) * m5) /\\ %s * (%s * dk + (%s) * m5) < 0 /\\'%(fq(g),q(lo*lo),fq(g),q(lo*lo),fq(g),fq(g),q(lo2*lo2),fq(g),fq(g),q(hi2*hi2)))
    W('  %s < 0 /\\\n  %s <= 0 /\\\n  0 < %s.'%(Q(Fr(0)),Q(lo*lo),Q(hi*hi)))
    W('Proof.\n  intros '+' '.join('H'+v for v in names)+'.')
    J={v:('H'+v,co[v][1],co[v][2],v) for v in names}
    prod(W,'P1',J['m2'],J['k3'],'');prod(W,'P2',J['a4'],J['m4'],'')
    W('  split; [unfold near in *; lra|]. '+'split; [unfold near in *; lra|]. '*8)
    for V,rel in ((Fr(0),'<'),(lo*lo,'<='),(hi*hi,'>')):
        if rel!='>': W('  split.')
        W('  {' if True else '')
        b1=lin(W,'B1',[(g,J['m3']),(V,J['m4'])],'%s * m3 + (%s) * m4'%(fq(g),q(V)))
        b2=lin(W,'B2',[(g,J['m1']),(V,J['m2'])],'%s * m1 + (%s) * m2'%(fq(g),q(V)))
        b0=lin(W,'B0',[(g*g,J['dk']),(g*V,J['m5'])],'%s * (%s * dk + (%s) * m5)'%(fq(g),fq(g),q(V)))
        W('    set (b1 := _ + _ * m4) in *. set (b2 := _ + _ * m2) in *. set (b0 := _ * (_ + _ * m5)) in *. clearbody b1 b2 b0.')
        b1=('B1',b1[1],b1[2],'b1');b2=('B2',b2[1],b2[2],'b2');b0=('B0',b0[1],b0[2],'b0')
        t1=prod(W,'T1',b1,b2,'');t1=('T1',t1[1],t1[2],'(b1 * b2)')
        t2=prod(W,'T2',t1,J['k3'],'')
        t3=prod(W,'T3',b1,b1,'');t3=('T3',t3[1],t3[2],'(b1 * b1)')
        t4=prod(W,'T4',J['a4'],t3,'')
        t5=prod(W,'T5',J['k3'],J['k3'],'');t5=('T5',t5[1],t5[2],'(k3 * k3)')
        t6=prod(W,'T6',b0,t5,'')
        W('    clear - T2 T4 T6. unfold near in *. replace (b1 ^ 2) with (b1 * b1) by ring. replace (k3 ^ 2) with (k3 * k3) by ring. lra. }')
        val=t2[1]-t4[1]-t6[1]; er=t2[2]+t4[2]+t6[2]
        assert (val+er<0 if rel!='>' else val-er>0),(short,V,float(val),float(er))
    W('Qed.')
    # conclusion
    W('''Lemma %s_window : exists vw vc, %s <= vw < %s /\\ %s < vc < %s /\\
  forall v, (stable_conditions (F_canon (pv %s)) (%s) v <-> vw < v < vc) /\\ (v < vw \\/ vc < v -> violated (F_canon (pv %s)) (%s) v).'''%(short,q(lo),q(hi),q(lo2),q(hi2),n,q(g),n,q(g)))
    W('''Proof.
  rewrite %s_canon. pose proof (%s_entries _ _ %s %s_cosine) as HE. unfold %s_matrices. revert HE. set (s := sin _). set (k := cos _). clearbody s k.
  intros (Ha & Hb & Hd & Hp & Hq & Hr & Hx & Hy & Hz & Hh & Hj).
  repeat match goal with H : near _ ?e _ |- _ => is_var e; fail 1 | H : near ?d ?e ?v |- _ => let n := fresh "e" in set (n := e) in *; clearbody n end.
  match goal with |- context [mkcanon (mk2 ?a ?b ?b ?d) (mk2 0 ?p ?q ?r) (mk2 ?x ?y ?y ?z) (mk2 0 ?h 0 ?j)] => pose proof (%s_coefs a b d p q r x y z h j Ha Hb Hd Hp Hq Hr Hx Hy Hz Hh Hj) as (C1 & C2 & C3 & C4 & C5 & C6 & C7 & C8) end.
  pose proof (%s_signs _ _ _ _ _ _ _ _ C1 C2 C3 C4 C5 C6 C7 C8) as (S1 & S2 & S3 & S4 & S5 & S6 & S7 & S8 & S9 & S10 & S11 & S12). clear C1 C2 C4 C5 C6 C7 C8 Ha Hb Hd Hp Hq Hr Hx Hy Hz Hh Hj.
  unfold stable_conditions, violated. apply one_window; unfold weave_c, first_c, second_c, constant_c, damping_c, inertia_c, mixed, determinant; cbn [cM cC1 cK0 cK2 m11 m12 m21 m22].'''%(short,short,('(bench_sine\')' if short=='bench' else short+'_sine'),short,short,short,short))
    W('  all: idtac.')
    W('''  - clear; lra.
  - exact S1.
  - exact S2.
  - exact S3.
  - exact S4.
  - exact S5.
  - exact S10.
  - clear; lra.
  - replace ((%s) ^ 2) with (%s) by field. exact S6.
  - replace ((%s) ^ 2) with (%s) by field. exact S7.
  - replace ((%s) ^ 2) with (%s) by field. exact S11.
  - replace ((%s) ^ 2) with (%s) by field. exact S12.
  - clear; lra.
  - clear; lra.
  - replace ((%s) ^ 2) with (%s) by field. exact S8.
  - replace ((%s) ^ 2) with (%s) by field. exact S9.
  - clear - C3. unfold near in C3. lra.
Qed.'''%(q(lo),q(lo*lo),q(lo),q(lo*lo),q(lo),q(lo*lo),q(hi),q(hi*hi),q(lo2),q(lo2*lo2),q(hi2),q(hi2*hi2)))
    if short=='bench':
        i=max(i for i,l in enumerate(out2) if l.startswith('Lemma bench_entries'))
        out2.insert(i,"Lemma bench_sine' : near (%s) (sin (PI / 10)) (%s).\nProof. pose proof bench_sine as S. unfold near in *. lra. Qed."%(q(es),q(s0)))
open('/verif/rocq/theories/PDicts.v','w').write('\n'.join(out)+'\n'+'\n'.join(out2)+'\n')
