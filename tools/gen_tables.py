#!/usr/bin/env python3
"""Generates rocq/theories/Tables.v from /repo/ed25519_const.go (the constants d, d2 and the two
tables of multiples of the base point, as ten-limb literals, in source order), and
rocq/theories/BaseCert.v (affine coordinates used as untrusted hints by the proofs)."""
import re
src=open('/repo/ed25519_const.go').read()
lines=src.split('\n')
def limbs(s): return [int(x) for x in s.replace('\n',' ').split(',') if x.strip()]
def fe(l): return "Fe "+" ".join(f"({x})" if x<0 else str(x) for x in l)
consts={}
for nm in ('d','d2'):
    m=re.search(r'\n\t'+nm+r' = FieldElements\{([^}]*)\}',src); consts[nm]=limbs(m.group(1))
iD=src.index('var basePrecDouble'); iS=src.index('var basePrecSingle')
def ln(i): return src.count('\n',0,i)+1
def entries(t):
    es=re.findall(r'PRECOMPUTED,\s*&Ed25519FieldElement\{FieldElements\{([^}]*)\}\},\s*&Ed25519FieldElement\{FieldElements\{([^}]*)\}\},\s*&Ed25519FieldElement\{FieldElements\{([^}]*)\}\},\s*nil,\s*nil,\s*nil,',t)
    return [tuple(limbs(x) for x in e) for e in es]
dbl=entries(src[iD:iS]); sg=entries(src[iS:])
assert len(dbl)==8 and len(sg)==256,(len(dbl),len(sg))
assert src[iD:].count('PRECOMPUTED')==264
for e in dbl+sg: assert all(len(x)==10 for x in e)
# grouping of the single table: 32 rows of 8
rows=[sg[8*i:8*i+8] for i in range(32)]
endS=len(lines)
o=[]
o.append('''(** GENERATED by tools/gen_tables.py from /repo/ed25519_const.go: constants as ten-limb literals.
    Each table entry is the triple (X, Y, Z) of a PRECOMPUTED group element whose T and tables
    are nil. *)
From Coq Require Import List ZArith.
From Verif Require Import GoBase FieldModel.
Import ListNotations.
Open Scope Z_scope.
''')
o.append(f"(** [d], ed25519_const.go:9-11. *)\nDefinition go_d : fe := {fe(consts['d'])}.")
o.append(f"(** [d2], ed25519_const.go:12-14. *)\nDefinition go_d2 : fe := {fe(consts['d2'])}.")
def ent(e): return "(%s, %s, %s)"%tuple(fe(x) for x in e)
o.append(f"(** [basePrecDouble], ed25519_const.go:{ln(iD)}-{ln(iS)-2}. *)\nDefinition base_prec_double : list (fe * fe * fe) := [\n  "+";\n  ".join(ent(e) for e in dbl)+" ].")
o.append(f"(** [basePrecSingle], ed25519_const.go:{ln(iS)}-{endS}. *)\nDefinition base_prec_single : list (list (fe * fe * fe)) := [\n"+";\n".join(" [ "+";\n   ".join(ent(e) for e in r)+" ]" for r in rows)+" ].")
open('/verif/rocq/theories/Tables.v','w').write("\n".join(o)+"\n")
# certificates
p=2**255-19; q=2**252+27742317777372353535851937790883648493
d=-121665*pow(121666,-1,p)%p; I=pow(2,(p-1)//4,p)
By=4*pow(5,-1,p)%p; x2=(By*By-1)*pow(d*By*By+1,-1,p)%p
Bx=pow(x2,(p+3)//8,p)
if Bx*Bx%p!=x2: Bx=Bx*I%p
if Bx%2: Bx=p-Bx
B=(Bx,By)
def add(P,Q):
    k=d*P[0]*Q[0]*P[1]*Q[1]%p
    return ((P[0]*Q[1]+Q[0]*P[1])*pow(1+k,-1,p)%p,(P[1]*Q[1]+P[0]*Q[0])*pow(1-k,-1,p)%p)
def fv(l):
    w=[0,26,51,77,102,128,153,179,204,230]
    return sum(a<<b for a,b in zip(l,w))
def pre(P): return ((P[1]+P[0])%p,(P[1]-P[0])%p,2*d*P[0]*P[1]%p)
# order walk: list of (op, point): op false = double, true = add B
walk=[];acc=B
for b in bin(q)[3:]:
    acc=add(acc,acc); walk.append((False,acc))
    if b=='1': acc=add(acc,B); walk.append((True,acc))
assert acc==(0,1)
# single table: row i entry j = (j+1) 256^i B
sing=[];R=B
dblw=[]
for i in range(32):
    row=[R]
    for j in range(7): row.append(add(row[-1],R))
    for j in range(8): assert pre(row[j])==tuple(fv(x)%p for x in rows[i][j]),(i,j)
    sing.append(row)
    w=[]
    for _ in range(8): R=add(R,R); w.append(R)
    dblw.append(w)
dd=[B]; B2=add(B,B)
for j in range(7): dd.append(add(dd[-1],B2))
for j in range(8): assert pre(dd[j])==tuple(fv(x)%p for x in dbl[j])
c=[]
c.append('''(** GENERATED by tools/gen_tables.py: affine coordinates of multiples of the base point.  These are
    untrusted hints: BasePoint.v checks each of them against the addition law. *)
From Coq Require Import List ZArith.
Import ListNotations.
Open Scope Z_scope.
''')
def pt(P): return f"({hex(P[0])}, {hex(P[1])})"
c.append(f"Definition Bx_z : Z := {Bx}.\nDefinition By_z : Z := {By}.\nDefinition Fd_z : Z := {d}.")
c.append("(** the double-and-add walk to the group order (true: add the base point; false: double) *)\nDefinition order_walk : list (bool * (Z * Z)) := [\n"+";\n".join(f"({'true' if o_ else 'false'}, {pt(P)})" for o_,P in walk)+"].")
c.append("(** rows of multiples: row i is R, 2R, ..., 8R with R = 256^i B *)\nDefinition row_pts : list (list (Z * Z)) := [\n"+";\n".join("["+";\n ".join(pt(P) for P in r)+"]" for r in sing)+"].")
c.append("(** eight doublings from the start of each row: 2R, 4R, ..., 256R *)\nDefinition dbl_pts : list (list (Z * Z)) := [\n"+";\n".join("["+";\n ".join(pt(P) for P in r)+"]" for r in dblw)+"].")
c.append("(** odd multiples B, 3B, ..., 15B *)\nDefinition odd_pts : list (Z * Z) := [\n"+";\n".join(pt(P) for P in dd)+"].")
open('/verif/rocq/theories/BaseCert.v','w').write("\n".join(c)+"\n")
