#!/usr/bin/env python3
"""Generates theories/Primes*.v from factorisations (JSON certificates {N: [[q,e,a],..]} in DIR)."""
import json,sys,math
H='''(** * %s: primality of curve parameters (generated by tools/mkprimes.py) *)
From Coq Require Import ZArith List Bool Lia Znumtheory.
From Verif Require Import Base Curves Pocklington.
Import ListNotations.
Open Scope Z_scope.

Ltac small_p := apply small_prime_sound; vm_compute; reflexivity.
Ltac primes := repeat match goal with |- _ /\\ _ => split end; first [assumption | small_p].
Ltac barrett n mu a t := match goal with |- prime ?N => apply (pock_sound (red_barrett n mu N) N a t) end;
  [apply red_barrett_ok; reflexivity|vm_cast_no_check (eq_refl true)|cbn [primes_t]; primes].
Ltac folding i n ones ts a t := match goal with |- prime ?N => apply (pock_sound (red_fold i n ones ts) N a t) end;
  [apply red_fold_ok; vm_compute; reflexivity|vm_cast_no_check (eq_refl true)|cbn [primes_t]; primes].

'''
FOLD={2**255-19:(3,255,[(1,4),(1,1),(1,0)]),2**521-1:(2,521,[(1,0)]),2**224-2**96+1:(3,224,[(1,96),(0,0)]),
 2**384-2**128-2**96+2**32-1:(3,384,[(1,128),(1,96),(0,32),(1,0)]),
 2**256-2**32-977:(3,256,[(1,32),(1,9),(1,8),(1,7),(1,6),(1,4),(1,0)]),
 2**256-2**224+2**192+2**96-1:(10,256,[(1,224),(0,192),(0,96),(1,0)]),
 2**256-2**224-2**96+2**64-1:(10,256,[(1,224),(1,96),(0,64),(1,0)])}
KNOWN={2**521-1:[173308343918874810521923841,145295143558111,108140989558681,65427463921,2400573761,308761441],
 2**224-2**96+1:[67280421310721,2]}
def trial(n,lim=10**6):
    f={};d=2
    while d*d<=n and d<lim:
        while n%d==0: f[d]=f.get(d,0)+1; n//=d
        d+=1
    return f,n
def isp(n):
    return all(pow(a,n-1,n)==1 for a in (2,3,5,7)) if n>10 else n in (2,3,5,7)
def rho(n):
    import random
    while 1:
        c=random.randrange(1,n);x=y=2;d=1
        while d==1:
            x=(x*x+c)%n;y=(y*y+c)%n;y=(y*y+c)%n;d=math.gcd(x-y,n)
        if d!=n: return d
def factor(n):
    f,r=trial(n,20000)
    st=[r]
    while st:
        m=st.pop()
        if m==1: continue
        if isp(m): f[m]=f.get(m,0)+1
        else:
            d=rho(m); st+=[d,m//d]
    return f
def facs(N,cert):
    if N in KNOWN: qs=KNOWN[N]
    elif N in cert: qs=[t[0] for t in cert[N]]
    else: qs=list(factor(N-1))
    out=[]
    for q in qs:
        e=0;m=N-1
        while m%q==0: m//=q;e+=1
        out.append((q,e))
    if N in cert or N in KNOWN:
        f,_=trial(N-1,20000)
        for q,e in f.items():
            if q not in qs: out.append((q,e))
    out.sort(key=lambda t:-t[0]**t[1])
    F=1;sel=[]
    for q,e in out:
        if F*F>N: break
        k=0
        while k<e and F*F<=N: F*=q;k+=1
        sel.append((q,k))
    assert F*F>N,N
    # drop superfluous
    for t in sorted(sel):
        if (F//t[0]**t[1])**2>N: sel.remove(t);F//=t[0]**t[1]
    for a in range(2,200):
        if pow(a,N-1,N)==1 and all(math.gcd(pow(a,(N-1)//q,N)-1,N)==1 for q,_ in sel): return a,sel
    raise Exception(N)
def tree(sel):
    if len(sel)==1: return '(Leaf %d %d)'%sel[0]
    # split balanced by bits
    sel=sorted(sel,key=lambda t:-t[0]**t[1]); L=[];R=[];l=r=1
    for t in sel:
        if l<=r: L.append(t);l*=t[0]**t[1]
        else: R.append(t);r*=t[0]**t[1]
    return '(Node %s %s)'%(tree(L),tree(R))
def chain(N,cert,acc):
    if N<40000 or N in acc: return
    a,sel=facs(N,cert)
    for q,_ in sel: chain(q,cert,acc)
    acc[N]=(a,sel)
NAMES={'2 ^ 255 - 19':'ed_p','2 ^ 252 + 27742317777372353535851937790883648493':'ed_L'}
def gen(fname,items):
    o=H%fname
    for field,cf in items:
        c={int(k):v for k,v in json.load(open(cf)).items()}
        top=max(c); acc={}; chain(top,c,acc)
        o+='(** %s *)\nTheorem prime_%s : prime (%s).\nProof.\n'%(field,NAMES.get(field,field.replace(' ','_')),field)
        for N in sorted(acc):
            a,sel=acc[N]; n=N.bit_length()
            if N in FOLD:
                i,nn,ts=FOLD[N]
                tac='folding %d%%nat %d %d [%s] %d %s'%(i,nn,2**nn-1,'; '.join('(%s, %d)'%('true' if s else 'false',k) for s,k in ts),a,tree(sel))
            else: tac='barrett %d %d %d %s'%(n,2**(2*n+16)//N,a,tree(sel))
            if N==top: o+='  assert (E : %s = %d) by reflexivity. rewrite E. clear E.\n  %s.\n'%(field,N,tac)
            else: o+='  assert (H%d : prime %d) by (%s).\n'%(N,N,tac)
        o+='Qed.\n\n'
    open(fname+'.v','w').write(o)
if __name__=='__main__':
    d=sys.argv[1]
    gen('Primes1',[('c_P P224',d+'/cert_p224p.json'),('c_P P256',d+'/cert_p256p.json'),('c_P S256',d+'/cert_k1p.json'),('c_P SM2P256V1',d+'/cert_sm2p.json')])
    gen('Primes2',[('c_P P384',d+'/cert_p384p.json'),('c_P P521',d+'/cert_p521p.json')])
    gen('Primes3',[('c_N P256',d+'/cert_p256n.json'),('c_N S256',d+'/cert_k1n.json'),('c_N SM2P256V1',d+'/cert_sm2n.json')])
    gen('Primes4',[('2 ^ 255 - 19',d+'/cert_edp.json'),('2 ^ 252 + 27742317777372353535851937790883648493',d+'/cert_edl.json')])
    gen('Primes5',[('c_N P224',d+'/cert_p224n.json')])
