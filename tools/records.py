#!/usr/bin/env python3
# Generates theories/Golden/Sats.v: the example records of Golden/SatsRun.v as literals, each checked
# field by field against the run of the modelled parser and initialiser.
import re, subprocess, os
R='/verif/rocq'; T=R+'/theories'
src=open(T+'/Model/Satrec.v').read()
body=src[src.index('Record Satrec := MkSatrec {'):]; body=body[:body.index('}.')]
fields=re.findall(r'sr_(\w+) : ([^;\n]+?);?\n',body+'\n')
ff=[f for f,t in fields if t.strip()=='F']
sats=['iss','leo','ds','geo','mol']
q='''From Coq Require Import ZArith List Bool String. From Flocq Require Import IEEE754.BinarySingleNaN.
From Verif.Model Require Import Float Str Satrec. From Verif.Inst Require Import B64. From Verif.Golden Require Import SatsRun.
Import ListNotations. Local Open Scope Z_scope. Set Printing Width 1000000. Set Printing Depth 100000.
Definition out (x : b64) : Z * Z * Z := match x with B754_zero s => (0, (if s then 1 else 0), 0) | B754_finite s m e _ => ((if s then -1 else 1), Zpos m, e) | B754_infinity s => (2, 0, 0) | B754_nan => (3,0,0) end.
'''
for s in sats:
    q+='Eval vm_compute in ("%s"%%string, map (fun f => out (f %s_run)) [%s], (sr_error %s_run, sr_epochyr %s_run, sr_isimp %s_run), map (fun c => c) (sr_satnum %s_run)).\n'%(s,s,'; '.join('sr_'+f for f in ff),s,s,s,s)
    q+='Eval vm_compute in (sr_init %s_run, sr_operationmode %s_run, sr_method %s_run, match sr_name %s_run with None => true | _ => false end).\n'%(s,s,s,s)
open('/tmp/recq.v','w').write(q)
out=subprocess.run(['coqc','-Q',T,'Verif','/tmp/recq.v'],capture_output=True,text=True)
if out.returncode: print(out.stderr); raise SystemExit(1)
chunks=re.split(r'\n\s*= ','\n'+out.stdout)[1:]
o='''(** * The example records as literals (generated by tools/records.py)

    Each record is written out field by field and checked against the run of the modelled parser and
    initialiser in Golden/SatsRun.v; the examples beside the theorems use these. *)
From Coq Require Import ZArith List Bool String.
From Flocq Require Import IEEE754.BinarySingleNaN.
From Verif.Model Require Import Float Str Satrec Vec3 Sgp4 Sgp4init Io.
From Verif.Inst Require Import B64.
From Verif.Golden Require Export SatsRun.
Import ListNotations.
Local Open Scope Z_scope.

(** a finite nonzero value: sign, mantissa, exponent *)
Notation Fp m e := (@B754_finite prec emax false m e eq_refl).
Notation Fm m e := (@B754_finite prec emax true m e eq_refl).
Notation Zp := (B754_zero false : b64).
Notation Zn := (B754_zero true : b64).

'''
for k,s in enumerate(sats):
    a=chunks[2*k]; b=chunks[2*k+1]
    lists=re.findall(r'\[([^\]]*)\]',a)
    trip=re.findall(r'\((-?\d+), (-?\d+), (-?\d+)\)',lists[0])
    assert len(trip)==len(ff),(len(trip),len(ff))
    zs=re.search(r'\], \((-?\d+), (-?\d+), (-?\d+)\)',a) or re.search(r'\],\s*(-?\d+), (-?\d+), (-?\d+)',a)
    def lit(t):
        c,m,e=t
        if c=='0': return 'Zp' if m=='0' else 'Zn'
        return '(Fp %s (%s))'%(m,e) if c=='1' else '(Fm %s (%s))'%(m,e)
    d=dict(zip(ff,map(lit,trip)))
    er,yr,si=zs.groups()
    d['error']='(%s)'%er; d['epochyr']='(%s)'%yr; d['isimp']='(%s)'%si
    i,op,me,nm=re.match(r'\((\w+), (\w+), (\w+), (\w+)\)',b).groups()
    assert nm=='true'
    d['init']=i; d['operationmode']=op; d['method']=me; d['name']='None'; d['satnum']='[%s]'%lists[1]
    o+='Definition %s : Satrec b64 := MkSatrec %s.\n\n'%(s,' '.join(d[f] for f,_ in fields))
o+='''(** bit equality *)
Definition same_bits (x y : b64) : bool :=
  match x, y with
  | B754_zero s, B754_zero s' | B754_infinity s, B754_infinity s' => Bool.eqb s s'
  | B754_nan, B754_nan => true
  | B754_finite s m e _, B754_finite s' m' e' _ => Bool.eqb s s' && Pos.eqb m m' && Z.eqb e e'
  | _, _ => false
  end.
Definition init_N (x : DpperInit) := match x with InitY => false | InitN => true end.
Definition same_record (a b : Satrec b64) : bool :=
  '''
o+=' &&\n  '.join('same_bits (sr_%s a) (sr_%s b)'%(f,f) for f in ff)
o+=''' &&
  Z.eqb (sr_error a) (sr_error b) && Z.eqb (sr_epochyr a) (sr_epochyr b) && Z.eqb (sr_isimp a) (sr_isimp b) &&
  str_eqb (sr_satnum a) (sr_satnum b) && init_eqb (sr_init a) (sr_init b) &&
  opsmode_eqb (sr_operationmode a) (sr_operationmode b) && method_eqb (sr_method a) (sr_method b) &&
  match sr_name a, sr_name b with None, None => true | _, _ => false end.
'''
for s in sats:
    o+='Example %s_checked : same_record %s %s_run = true.\nProof. vm_compute. reflexivity. Qed.\n'%(s,s,s)
open(T+'/Golden/Sats.v','w').write(o)
