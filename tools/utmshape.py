#!/usr/bin/env python3
# Generates rocq/theories/UtmShape.v: the remainders of the UTM series, their Bernstein coefficients and the bounds proved from them.
from fractions import Fraction as Fr
from math import comb
class P:
    def __init__(s,d=None): s.d={k:v for k,v in (d or {}).items() if v!=0}
    def __add__(s,o):
        o=o if isinstance(o,P) else C(o); d=dict(s.d)
        for k,v in o.d.items(): d[k]=d.get(k,0)+v
        return P(d)
    __radd__=__add__
    def __neg__(s): return P({k:-v for k,v in s.d.items()})
    def __sub__(s,o): return s+(-(o if isinstance(o,P) else C(o)))
    def __rsub__(s,o): return C(o)-s
    def __mul__(s,o):
        o=o if isinstance(o,P) else C(o); d={}
        for k,v in s.d.items():
            for m,w in o.d.items():
                t=tuple(i+j for i,j in zip(k,m)); d[t]=d.get(t,0)+v*w
        return P(d)
    __rmul__=__mul__
    def __truediv__(s,n): return s*Fr(1,n)
    def __pow__(s,n):
        r=C(1)
        for _ in range(n): r=r*s
        return r
    def diff(s,i):
        d={}
        for k,v in s.d.items():
            if k[i]: 
                t=list(k); t[i]-=1; d[tuple(t)]=d.get(tuple(t),0)+v*k[i]
        return P(d)
def C(x): return P({(0,0,0):Fr(x)})
E=P({(1,0,0):Fr(1)});S=P({(0,1,0):Fr(1)});u=P({(0,0,1):Fr(1)})
q=1-S
f=1+u/6*(q-S+E*q**2)+u**2/120*(5*q**2-18*S*q+S**2+(72*E*q-58*E)*q**2)
xl=1+u/2*(q-S+E*q**2)+u**2/24*(5*q**2-18*S*q+S**2+(72*E*q-58*E)*q**2)
g=u/2+u**2/24*(5*q-S+9*E*q**2+4*E**2*q**3)+u**3/720*(61*q**2-58*S*q+S**2+600*E*q**3-330*E*q**2)
D1=xl-(E*S*q*g+(1+E*q)*((1-2*S)*g+2*S*q*g.diff(1)))
D2=2*g.diff(2)-f+2*q*(1+E*q)*f.diff(1)
K=1+(1+E*q)*u*q/2+(5*q**2-4*S*q+(42*E*q+13*E**2*q**2-28*E)*q**2)*u**2/24+(61*q**3-148*S*q**2+16*S**2*q)*u**3/720
Q3=K*K-xl*xl-S*u*(2*g.diff(2))**2
def show(p,name):
    by={}
    for (i,j,k),v in p.d.items(): by.setdefault((k,i),{})[j]=v
    print(name)
    for (k,i) in sorted(by):
        c=by[(k,i)]; n=max(c)
        bern=[sum(Fr(comb(j,m),comb(n,m))*c.get(m,0) for m in range(j+1)) for j in range(n+1)]
        mx=max(abs(sum(float(v)*(x/200)**j for j,v in c.items())) for x in range(201))
        print(' u^%d E^%d deg %d: bern %.4g abs %.4g true %.4g'%(k,i,n,max(map(abs,map(float,bern))),sum(abs(float(v)) for v in c.values()),mx), [str(c.get(j,0)) for j in range(n+1)] if n<5 else '')
def bern_of(c,n):
    return [sum(Fr(comb(j,m),comb(n,m))*c.get(m,0) for m in range(min(j,max(c))+1))*comb(n,j) for j in range(n+1)]
def rat(v):
    v=Fr(v)
    if v.denominator==1: return str(v.numerator) if v>=0 else '(%d)'%v.numerator
    return '(%d / %d)'%(v.numerator,v.denominator)
def groups(p):
    by={}
    for (i,j,k),v in p.d.items(): by.setdefault((k,i),{})[j]=v
    return by
def bound(c,n):
    b=bern_of(c,n); return max(abs(v)/comb(n,j) for j,v in enumerate(b))
# meridian
x=E
Cc=1-2*S
c1=1-x/4-3*x**2/64-5*x**3/256;c2=3*x/8+3*x**2/32+45*x**3/1024;c3=15*x**2/256+45*x**3/1024;c4=35*x**3/3072
PP=c1-2*c2*Cc+4*c3*(2*Cc**2-1)-6*c4*(4*Cc**3-3*Cc)
MU=PP*PP*(1-x*S)**3-(1-x)**2
from math import comb
import math
def poly(p,nm):  # expanded polynomial text in F S u
    out=[]
    for (i,j,k),v in sorted(p.d.items()):
        t=rat(v)
        for b,e in (('F',i),('S',j),('u',k)):
            if e==1: t+=' * '+b
            elif e: t+=' * %s ^ %d'%(b,e)
        out.append(t)
    return ' + '.join(out)
def fr_up(x,digits=3):
    # upper rational with short decimal
    if x==0: return Fr(0)
    e=math.floor(math.log10(x))-digits+1
    return Fr(math.ceil(x/10**e*1.0000001))*Fr(10)**e
def pick(c):
    d=max(c); best=None
    for n in range(d,d+6):
        b=bound(c,n)
        if best is None or b<best[1]*Fr(97,100): best=(n,b)
    return best
L=[]
degs=set()
def emit(name,p,const,cases,var='F',dofix=None):
    """lemma name_id: poly name = const + sum; name_bound for each case"""
    g=groups(p if const==0 else p-const)
    terms=[]
    for n,((k,i),c) in enumerate(sorted(g.items())):
        big=float(bound(c,max(c)))*0.011**k*0.0068**i
        if big<3e-12 and name!='mu': nn,b=max(c),bound(c,max(c))
        else: nn,b=pick(c)
        degs.add(nn)
        bl=bern_of(c,nn)
        terms.append((k,i,nn,b,bl))
        L.append('Definition %s_h%d : list R := [%s].'%(name,n,'; '.join(rat(v) for v in bl)))
    rhs=' + '.join('u ^ %d * %s ^ %d * hom %s_h%d S (1 - S)'%(k,var,i,name,n) for n,(k,i,nn,b,bl) in enumerate(terms))
    L.append('Lemma %s_sum F S u : %s F S u = %s + (%s).'%(name,name,const,rhs))
    L.append('Proof. unfold %s, %s. cbn [hom length pow]. field. Qed.'%(name+'_unf' if False else name,', '.join('%s_h%d'%(name,n) for n in range(len(terms)))))
    for (cn,U,V) in cases:
        tot=Fr(0); ws=[]
        for (k,i,nn,b,bl) in terms:
            w=fr_up(float(U**k*V**i*b)); ws.append(w); tot+=w
        tot=fr_up(float(tot))
        L.append('Lemma %s_%s F S u : 0 <= S <= 1 -> 0 <= u <= %s -> 0 <= F <= %s -> Rabs (%s F S u - %s) <= %s.'%(name,cn,rat(U),rat(V),name,const,rat(tot)))
        L.append('Proof.\n  intros HS Hu HF. rewrite %s_sum.'%name)
        for n,(k,i,nn,b,bl) in enumerate(terms):
            L.append('  assert (B%d : Rabs (hom %s_h%d S (1 - S)) <= %s) by (apply (bern_bound %s _ binom%d); [exact HS|lra|exact (binom%d_1 S)|unfold %s_h%d, binom%d; fa2]).'%(n,name,n,rat(b),rat(b),nn,nn,name,n,nn))
            L.append('  apply (term_bound u F %s %s _ _ %d %d %s Hu HF) in B%d; [|cbn [pow]; lra].'%(rat(U),rat(V),k,i,rat(ws[n]),n))
        L.append('  match goal with |- Rabs (?c + ?x - ?c) <= _ => replace (c + x - c) with x by ring end.')
        L.append('  repeat match goal with |- Rabs (_ + _) <= _ => eapply Rle_trans; [apply Rabs_triang|] end.' if False else '  repeat (rewrite abs_split).' if False else '  eapply Rle_trans; [repeat first [eapply Rle_trans; [apply Rabs_triang|]; apply Rplus_le_compat; [|%s] | %s]|lra].'%(' || '.join('exact B%d'%n for n in range(len(terms))),' || '.join('exact B%d'%n for n in range(len(terms)))))
        L.append('Qed.')
U3,U6,V=Fr(2742,1000000),Fr(10967,1000000),Fr(674,100000)
defs=[]
ff,gg,kk=f,g,K
defs.append('Definition ff (F S u : R) : R := 1 + u / 6 * ((1 - S) - S + F * (1 - S) ^ 2) + u ^ 2 / 120 * (5 * (1 - S) ^ 2 - 18 * S * (1 - S) + S ^ 2 + (72 * F * (1 - S) - 58 * F) * (1 - S) ^ 2).')
defs.append('Definition gg (F S u : R) : R := u / 2 + u ^ 2 / 24 * (5 * (1 - S) - S + 9 * F * (1 - S) ^ 2 + 4 * F ^ 2 * (1 - S) ^ 3) +\n  u ^ 3 / 720 * (61 * (1 - S) ^ 2 - 58 * S * (1 - S) + S ^ 2 + 600 * F * (1 - S) ^ 3 - 330 * F * (1 - S) ^ 2).')
defs.append('Definition kk (F S u : R) : R := 1 + (1 + F * (1 - S)) * u * (1 - S) / 2 + (5 * (1 - S) ^ 2 - 4 * S * (1 - S) + (42 * F * (1 - S) + 13 * F ^ 2 * (1 - S) ^ 2 - 28 * F) * (1 - S) ^ 2) * u ^ 2 / 24 +\n  (61 * (1 - S) ^ 3 - 148 * S * (1 - S) ^ 2 + 16 * S ^ 2 * (1 - S)) * u ^ 3 / 720.')
defs.append('(** their partial derivatives with respect to [S] and [u] *)')
for nm,p in (('ffS',f.diff(1)),('ffu',f.diff(2)),('ggS',g.diff(1)),('ggu',g.diff(2)),('kkS',K.diff(1)),('kku',K.diff(2))):
    defs.append('Definition %s (F S u : R) : R := %s.'%(nm,poly(p,nm)))
defs.append('''(** derivative of the easting to longitude and of the northing to latitude, without the meridian arc; what should vanish in the other two; the square of the scale *)
Definition xl F S u := ff F S u + 2 * u * ffu F S u.
Definition yp F S u := F * S * (1 - S) * gg F S u + (1 + F * (1 - S)) * ((1 - 2 * S) * gg F S u + 2 * S * (1 - S) * ggS F S u).
Definition d1 F S u := xl F S u - yp F S u.
Definition d2 F S u := 2 * ggu F S u - ff F S u + 2 * (1 - S) * (1 + F * (1 - S)) * ffS F S u.
Definition q3 F S u := kk F S u ^ 2 - xl F S u ^ 2 - S * u * (2 * ggu F S u) ^ 2.''')
unf={'ggu':'ggu','kkS':'kkS','kku':'kku','xl':'xl, ff, ffu','kk':'kk','d1':'d1, xl, yp, ff, gg, ffu, ggS','d2':'d2, ff, ffS, ggu','q3':'q3, kk, xl, ff, ffu, ggu','mu':'mu, mer'}
emit('d1',D1,1,[('3',U3,V),('6',U6,V)])
emit('d2',D2,0,[('3',U3,V),('6',U6,V)])
emit('q3',Q3,0,[('3',U3,V),('6',U6,V)])
emit('xl',xl,1,[('6',U6,V)])
emit('kk',K,1,[('6',U6,V)])
emit('ggu',g.diff(2),0,[('6',U6,V),('3',U3,V)])
emit('kkS',K.diff(1),0,[('6',U6,V)])
emit('kku',K.diff(2),0,[('6',U6,V)])
emit('mu',MU,0,[('1',Fr(1),Fr(66944,10000000))])
defs.append('''(** derivative of the meridian arc series, divided by the equatorial radius; the square of the quotient by the curvature radius, less 1, without denominator *)
Definition mer (E S : R) : R := (1 - E / 4 - 3 * E ^ 2 / 64 - 5 * E ^ 3 / 256) - 2 * (3 * E / 8 + 3 * E ^ 2 / 32 + 45 * E ^ 3 / 1024) * (1 - 2 * S) +
  4 * (15 * E ^ 2 / 256 + 45 * E ^ 3 / 1024) * (2 * (1 - 2 * S) ^ 2 - 1) - 6 * (35 * E ^ 3 / 3072) * (4 * (1 - 2 * S) ^ 3 - 3 * (1 - 2 * S)).
Definition mu (F S u : R) : R := mer F S ^ 2 * (1 - F * S) ^ 3 - (1 - F) ^ 2.''')
body='\n'.join(L)
for nm,u_ in unf.items():
    body=body.replace('Proof. unfold %s, %s_h'%(nm,nm),'Proof. unfold %s, %s_h'%(u_,nm))
pre='''(** How far the series of lla2utm (RangeCoordinates.py:332-400) are from a conformal map: polynomial bounds used by PropTm.v. No definition here models code by itself;
    [ff], [gg], [kk] are the easting, northing and scale series of [PropUtm.grid] with [S] = sin^2 of the latitude, [u] = square of the longitude offset, [F] = second eccentricity squared. *)
From Coq Require Import Reals Lra Lia List.
Import ListNotations.
Local Open Scope R_scope.

(** polynomials in Bernstein form, with the binomial coefficients multiplied in *)
Fixpoint hom (l : list R) (S q : R) : R := match l with [] => 0 | x :: r => x * q ^ length r + S * hom r S q end.
Lemma same_length (P : R -> R -> Prop) l cs : Forall2 P l cs -> length l = length cs.
Proof. induction 1; cbn; congruence. Qed.
Lemma hom_bound S q B : 0 <= S -> 0 <= q -> 0 <= B -> forall l cs, Forall2 (fun x c => Rabs x <= B * c) l cs -> Rabs (hom l S q) <= B * hom cs S q.
Proof.
  intros HS Hq HB l cs H. induction H as [|x c l cs Hx Hl IH]; cbn [hom]; [rewrite Rabs_R0; lra|].
  eapply Rle_trans; [apply Rabs_triang|]. rewrite Rmult_plus_distr_l. apply Rplus_le_compat.
  - rewrite Rabs_mult, <- Rmult_assoc. pose proof (pow_le q (length l) Hq) as P. rewrite (Rabs_pos_eq (q ^ _)) by exact P. rewrite (same_length _ _ _ Hl) in *. apply Rmult_le_compat_r; assumption.
  - rewrite Rabs_mult, (Rabs_pos_eq S) by exact HS. replace (B * (S * hom cs S q)) with (S * (B * hom cs S q)) by ring. apply Rmult_le_compat_l; assumption.
Qed.
Lemma bern_bound B l cs S : 0 <= S <= 1 -> 0 <= B -> hom cs S (1 - S) = 1 -> Forall2 (fun x c => Rabs x <= B * c) l cs -> Rabs (hom l S (1 - S)) <= B.
Proof. intros HS HB H1 H. pose proof (hom_bound S (1 - S) B ltac:(lra) ltac:(lra) HB l cs H) as X. rewrite H1 in X. lra. Qed.
Ltac fa2 := repeat (apply Forall2_cons; [apply Rabs_le; lra|]); apply Forall2_nil.
Lemma term_bound u F U V h b k i w : 0 <= u <= U -> 0 <= F <= V -> Rabs h <= b -> U ^ k * V ^ i * b <= w -> Rabs (u ^ k * F ^ i * h) <= w.
Proof.
  intros Hu HF Hh Hw. eapply Rle_trans; [|exact Hw]. pose proof (pow_le u k ltac:(lra)). pose proof (pow_le F i ltac:(lra)). pose proof (pow_incr u U k Hu). pose proof (pow_incr F V i HF).
  rewrite !Rabs_mult, (Rabs_pos_eq (u ^ k)), (Rabs_pos_eq (F ^ i)) by assumption. apply Rmult_le_compat; [apply Rmult_le_pos; assumption|apply Rabs_pos|apply Rmult_le_compat; assumption|exact Hh].
Qed.
'''
bins='\n'.join('Definition binom%d : list R := [%s].\nLemma binom%d_1 S : hom binom%d S (1 - S) = 1.\nProof. unfold binom%d. cbn [hom length pow]. ring. Qed.'%(n,'; '.join(str(comb(n,j)) for j in range(n+1)),n,n,n) for n in sorted(degs))
open(__import__('os').path.join(__import__('os').path.dirname(__import__('os').path.abspath(__file__)),'../rocq/theories/UtmShape.v'),'w').write(pre+'\n'+bins+'\n\n'+'\n'.join(defs)+'\n\n'+body+'\n')
