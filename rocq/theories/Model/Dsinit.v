(** * src/propogation/dsinit.rs: deep-space secular rates and resonance coefficients *)
From Coq Require Import ZArith Bool.
From Verif.Model Require Import Float Constants.
Local Open Scope Z_scope.
Local Open Scope f_scope.

Section Dsinit.
Context {F : Type} {FO : FloatOps F}.

(** dsinit.rs:3-75 *)
Record DsinitOptions := MkDsinitOptions {
  no_cosim : F;
  no_argpo : F;
  no_s1 : F;
  no_s2 : F;
  no_s3 : F;
  no_s4 : F;
  no_s5 : F;
  no_sinim : F;
  no_ss1 : F;
  no_ss2 : F;
  no_ss3 : F;
  no_ss4 : F;
  no_ss5 : F;
  no_sz1 : F;
  no_sz3 : F;
  no_sz11 : F;
  no_sz13 : F;
  no_sz21 : F;
  no_sz23 : F;
  no_sz31 : F;
  no_sz33 : F;
  no_t : F;
  no_tc : F;
  no_gsto : F;
  no_mo : F;
  no_mdot : F;
  no_no : F;
  no_nodeo : F;
  no_nodedot : F;
  no_xpidot : F;
  no_z1 : F;
  no_z3 : F;
  no_z11 : F;
  no_z13 : F;
  no_z21 : F;
  no_z23 : F;
  no_z31 : F;
  no_z33 : F;
  no_ecco : F;
  no_eccsq : F;
  no_emsq : F;
  no_em : F;
  no_argpm : F;
  no_inclm : F;
  no_mm : F;
  no_nm : F;
  no_nodem : F;
  no_irez : F;
  no_atime : F;
  no_d2201 : F;
  no_d2211 : F;
  no_d3210 : F;
  no_d3222 : F;
  no_d4410 : F;
  no_d4422 : F;
  no_d5220 : F;
  no_d5232 : F;
  no_d5421 : F;
  no_d5433 : F;
  no_dedt : F;
  no_didt : F;
  no_dmdt : F;
  no_dnodt : F;
  no_domdt : F;
  no_del1 : F;
  no_del2 : F;
  no_del3 : F;
  no_xfact : F;
  no_xlamo : F;
  no_xli : F;
  no_xni : F
}.

(** dsinit.rs:77-109 *)
Record DinitResult := MkDinitResult {
  nr_em : F;
  nr_argpm : F;
  nr_inclm : F;
  nr_mm : F;
  nr_nm : F;
  nr_nodem : F;
  nr_irez : F;
  nr_atime : F;
  nr_d2201 : F;
  nr_d2211 : F;
  nr_d3210 : F;
  nr_d3222 : F;
  nr_d4410 : F;
  nr_d4422 : F;
  nr_d5220 : F;
  nr_d5232 : F;
  nr_d5421 : F;
  nr_d5433 : F;
  nr_dedt : F;
  nr_didt : F;
  nr_dmdt : F;
  nr_dndt : F;
  nr_dnodt : F;
  nr_domdt : F;
  nr_del1 : F;
  nr_del2 : F;
  nr_del3 : F;
  nr_xfact : F;
  nr_xlamo : F;
  nr_xli : F;
  nr_xni : F
}.

(** dsinit.rs:297-307 *)
Definition dsinit_Q22 : F := (L 17891679 13). (* propogation/dsinit.rs:297 *)
Definition dsinit_Q31 : F := (L 21460748 13). (* propogation/dsinit.rs:298 *)
Definition dsinit_Q33 : F := (L 22123015 14). (* propogation/dsinit.rs:299 *)
Definition dsinit_ROOT22 : F := (L 17891679 13). (* propogation/dsinit.rs:300 *)
Definition dsinit_ROOT44 : F := (L 73636953 16). (* propogation/dsinit.rs:301 *)
Definition dsinit_ROOT54 : F := (L 21765803 16). (* propogation/dsinit.rs:302 *)
Definition dsinit_RPTIM : F := (L 437526908801129966 20). (* propogation/dsinit.rs:303 *)
Definition dsinit_ROOT32 : F := (L 37393792 14). (* propogation/dsinit.rs:304 *)
Definition dsinit_ROOT52 : F := (L 11428639 14). (* propogation/dsinit.rs:305 *)
Definition dsinit_ZNL : F := (L 15835218 11). (* propogation/dsinit.rs:306 *)
Definition dsinit_ZNS : F := (L 119459 10). (* propogation/dsinit.rs:307 *)

(** Resonance class from mean motion and eccentricity, dsinit.rs:310-316. *)
Definition dsinit_irez (nm em : F) : F :=
  let irez := (L 0 0) in
  let irez := if (nm <? (L 52359877 10)) && ((L 34906585 10) <? nm) then (L 1 0) else irez in
  let irez := if ((L 826 5) <=? nm) && (nm <=? (L 924 5)) && ((L 5 1) <=? em) then (L 2 0) else irez in
  irez.

(** Secular rates of the lunar-solar terms, dsinit.rs:319-350. *)
Record SecularRates := MkSecularRates {
  rt_dedt : F; rt_didt : F; rt_dmdt : F; rt_dnodt : F; rt_domdt : F }.
Definition dsinit_rates (o : DsinitOptions) : SecularRates :=
  let cosim := no_cosim o in
  let argpo := no_argpo o in
  let s1 := no_s1 o in
  let s2 := no_s2 o in
  let s3 := no_s3 o in
  let s4 := no_s4 o in
  let s5 := no_s5 o in
  let sinim := no_sinim o in
  let ss1 := no_ss1 o in
  let ss2 := no_ss2 o in
  let ss3 := no_ss3 o in
  let ss4 := no_ss4 o in
  let ss5 := no_ss5 o in
  let sz1 := no_sz1 o in
  let sz3 := no_sz3 o in
  let sz11 := no_sz11 o in
  let sz13 := no_sz13 o in
  let sz21 := no_sz21 o in
  let sz23 := no_sz23 o in
  let sz31 := no_sz31 o in
  let sz33 := no_sz33 o in
  let z1 := no_z1 o in
  let z3 := no_z3 o in
  let z11 := no_z11 o in
  let z13 := no_z13 o in
  let z21 := no_z21 o in
  let z23 := no_z23 o in
  let z31 := no_z31 o in
  let z33 := no_z33 o in
  let emsq := no_emsq o in
  let inclm := no_inclm o in
  let ses := ss1 * dsinit_ZNS * ss5 in
  let sis := ss2 * dsinit_ZNS * (sz11 + sz13) in
  let sls := (- dsinit_ZNS) * ss3 * (sz1 + sz3 - (L 14 0) - (L 6 0) * emsq) in
  let sghs := ss4 * dsinit_ZNS * (sz31 + sz33 - (L 6 0)) in
  let shs := (- dsinit_ZNS) * ss2 * (sz21 + sz23) in
  let shs := if (inclm <? (L 52359877 9)) || ((kPI - (L 52359877 9)) <? inclm) then (L 0 0) else shs in
  let shs := if negb (sinim =? (L 0 0)) then shs / sinim else shs in
  let sgs := sghs - cosim * shs in
  let dedt := ses + s1 * dsinit_ZNL * s5 in
  let didt := sis + s2 * dsinit_ZNL * (z11 + z13) in
  let dmdt := sls - dsinit_ZNL * s3 * (z1 + z3 - (L 14 0) - (L 6 0) * emsq) in
  let sghl := s4 * dsinit_ZNL * (z31 + z33 - (L 6 0)) in
  let shll := (- dsinit_ZNL) * s2 * (z21 + z23) in
  let shll := if (inclm <? (L 52359877 9)) || ((kPI - (L 52359877 9)) <? inclm) then (L 0 0) else shll in
  let domdt := sgs + sghl in
  let dnodt := shs in
  let domdt' := if negb (sinim =? (L 0 0)) then domdt - cosim / sinim * shll else domdt in
  let dnodt' := if negb (sinim =? (L 0 0)) then dnodt + shll / sinim else dnodt in
  MkSecularRates dedt didt dmdt dnodt' domdt'.

(** Half-day (12 h) resonance coefficients and phase, dsinit.rs:376-456. *)
Record Half := MkHalf {
  hf_d2201 : F; hf_d2211 : F; hf_d3210 : F; hf_d3222 : F; hf_d4410 : F; hf_d4422 : F;
  hf_d5220 : F; hf_d5232 : F; hf_d5421 : F; hf_d5433 : F; hf_xlamo : F; hf_xfact : F }.

(** Eccentricity functions, dsinit.rs:381-411 (em and emsq are here the [ecco] and [eccsq] of the options). *)
Record GFuns := MkGFuns {
  gf_g201 : F; gf_g211 : F; gf_g310 : F; gf_g322 : F; gf_g410 : F; gf_g422 : F; gf_g520 : F;
  gf_g521 : F; gf_g532 : F; gf_g533 : F }.
Definition dsinit_gfuns (em emsq : F) : GFuns :=
  let eoc := em * emsq in
  let g201 := (- (L 306 3)) - (em - (L 64 2)) * (L 44 2) in
  let c := em <=? (L 65 2) in
  let g211 := if c then
    let g211 := (L 3616 3) - (L 13247 3) * em + (L 1629 2) * emsq in
    g211 else
    let g211 := (- (L 72099 3)) + (L 331819 3) * em - (L 508738 3) * emsq + (L 266724 3) * eoc in
    g211 in
  let g310 := if c then
    let g310 := (- (L 19302 3)) + (L 11739 2) * em - (L 228419 3) * emsq + (L 156591 3) * eoc in
    g310 else
    let g310 := (- (L 346844 3)) + (L 1582851 3) * em - (L 2415925 3) * emsq + (L 1246113 3) * eoc in
    g310 in
  let g322 := if c then
    let g322 := (- (L 189068 4)) + (L 1097927 4) * em - (L 2146334 4) * emsq + (L 1465816 4) * eoc in
    g322 else
    let g322 := (- (L 342585 3)) + (L 1554908 3) * em - (L 2366899 3) * emsq + (L 1215972 3) * eoc in
    g322 in
  let g410 := if c then
    let g410 := (- (L 41122 3)) + (L 242694 3) * em - (L 471094 3) * emsq + (L 313953 3) * eoc in
    g410 else
    let g410 := (- (L 1052797 3)) + (L 4758686 3) * em - (L 7193992 3) * emsq + (L 3651957 3) * eoc in
    g410 in
  let g422 := if c then
    let g422 := (- (L 146407 3)) + (L 84188 2) * em - (L 1629014 3) * emsq + (L 1083435 3) * eoc in
    g422 else
    let g422 := (- (L 358169 2)) + (L 1617811 2) * em - (L 2446277 2) * emsq + (L 1242252 2) * eoc in
    g422 in
  let g520 := if c then
    let g520 := (- (L 532114 3)) + (L 3017977 3) * em - (L 5740032 3) * emsq + (L 3708276 3) * eoc in
    g520 else if (L 715 3) <? em then
    let g520 := (- (L 514966 2)) + (L 2993692 2) * em - (L 5408736 2) * emsq + (L 3132456 2) * eoc in
    g520 else
    let g520 := (L 146474 2) - (L 466475 2) * em + (L 376364 2) * emsq in
    g520 in
  let c7 := em <? (L 7 1) in
  let g533 := if c7 then
    let g533 := (- (L 9192277 4)) + (L 498861 2) * em - (L 906477 2) * emsq + (L 554221 2) * eoc in
    g533 else
    let g533 := (- (L 3799578 2)) + (L 16161652 2) * em - (L 2298382 1) * emsq + (L 10937794 2) * eoc in
    g533 in
  let g521 := if c7 then
    let g521 := (- (L 82271072 5)) + (L 45686173 4) * em - (L 84914146 4) * emsq + (L 5337524 3) * eoc in
    g521 else
    let g521 := (- (L 51752104 3)) + (L 21891395 2) * em - (L 30946816 2) * emsq + (L 14634942 2) * eoc in
    g521 in
  let g532 := if c7 then
    let g532 := (- (L 853666 3)) + (L 469025 2) * em - (L 862477 2) * emsq + (L 53414 1) * eoc in
    g532 else
    let g532 := (- (L 4002388 2)) + (L 17047089 2) * em - (L 24269948 2) * emsq + (L 11560582 2) * eoc in
    g532 in
  MkGFuns g201 g211 g310 g322 g410 g422 g520 g521 g532 g533.

Definition dsinit_half (o : DsinitOptions) (dmdt dnodt nm theta aonv : F) : Half :=
  let cosim := no_cosim o in
  let sinim := no_sinim o in
  let mo := no_mo o in
  let mdot := no_mdot o in
  let no := no_no o in
  let nodeo := no_nodeo o in
  let nodedot := no_nodedot o in
  let cosisq := cosim * cosim in
  let g := dsinit_gfuns (no_ecco o) (no_eccsq o) in
  let g201 := gf_g201 g in let g211 := gf_g211 g in let g310 := gf_g310 g in
  let g322 := gf_g322 g in let g410 := gf_g410 g in let g422 := gf_g422 g in
  let g520 := gf_g520 g in let g521 := gf_g521 g in let g532 := gf_g532 g in
  let g533 := gf_g533 g in
  let sini2 := sinim * sinim in
  let f220 := (L 75 2) * ((L 1 0) + (L 2 0) * cosim + cosisq) in
  let f221 := (L 15 1) * sini2 in
  let f321 := (L 1875 3) * sinim * ((L 1 0) - (L 2 0) * cosim - (L 3 0) * cosisq) in
  let f322 := (- (L 1875 3)) * sinim * ((L 1 0) + (L 2 0) * cosim - (L 3 0) * cosisq) in
  let f441 := (L 35 0) * sini2 * f220 in
  let f442 := (L 39375 3) * sini2 * sini2 in
  let f522 := (L 984375 5) * sinim * (sini2 * ((L 1 0) - (L 2 0) * cosim - (L 5 0) * cosisq) + (L 33333333 8) * ((- (L 2 0)) + (L 4 0) * cosim + (L 6 0) * cosisq)) in
  let f523 := sinim * ((L 492187512 8) * sini2 * ((- (L 2 0)) - (L 4 0) * cosim + (L 10 0) * cosisq) + (L 656250012 8) * ((L 1 0) + (L 2 0) * cosim - (L 3 0) * cosisq)) in
  let f542 := (L 2953125 5) * sinim * ((L 2 0) - (L 8 0) * cosim + cosisq * ((- (L 12 0)) + (L 8 0) * cosim + (L 10 0) * cosisq)) in
  let f543 := (L 2953125 5) * sinim * ((- (L 2 0)) - (L 8 0) * cosim + cosisq * ((L 12 0) + (L 8 0) * cosim - (L 10 0) * cosisq)) in
  let xno2 := nm * nm in
  let ainv2 := aonv * aonv in
  let temp1 := (L 3 0) * xno2 * ainv2 in
  let temp := temp1 * dsinit_ROOT22 in
  let d2201 := temp * f220 * g201 in
  let d2211 := temp * f221 * g211 in
  let temp1 := temp1 * aonv in
  let temp := temp1 * dsinit_ROOT32 in
  let d3210 := temp * f321 * g310 in
  let d3222 := temp * f322 * g322 in
  let temp1 := temp1 * aonv in
  let temp := (L 2 0) * temp1 * dsinit_ROOT44 in
  let d4410 := temp * f441 * g410 in
  let d4422 := temp * f442 * g422 in
  let temp1 := temp1 * aonv in
  let temp := temp1 * dsinit_ROOT52 in
  let d5220 := temp * f522 * g520 in
  let d5232 := temp * f523 * g532 in
  let temp := (L 2 0) * temp1 * dsinit_ROOT54 in
  let d5421 := temp * f542 * g521 in
  let d5433 := temp * f543 * g533 in
  let xlamo := (mo + nodeo + nodeo - (theta + theta)) %% kTWO_PI in
  let xfact := mdot + dmdt + (L 2 0) * (nodedot + dnodt - dsinit_RPTIM) - no in
  MkHalf d2201 d2211 d3210 d3222 d4410 d4422 d5220 d5232 d5421 d5433 xlamo xfact.

(** Synchronous (24 h) resonance coefficients and phase, dsinit.rs:463-475. *)
Record Sync := MkSync { sy_del1 : F; sy_del2 : F; sy_del3 : F; sy_xlamo : F; sy_xfact : F }.
Definition dsinit_sync (o : DsinitOptions) (dmdt dnodt domdt nm theta aonv : F) : Sync :=
  let cosim := no_cosim o in
  let sinim := no_sinim o in
  let emsq := no_emsq o in
  let argpo := no_argpo o in
  let mo := no_mo o in
  let mdot := no_mdot o in
  let no := no_no o in
  let nodeo := no_nodeo o in
  let nodedot := no_nodedot o in
  let xpidot := no_xpidot o in
  let g200 := (L 1 0) + emsq * ((- (L 25 1)) + (L 8125 4) * emsq) in
  let g310 := (L 1 0) + (L 2 0) * emsq in
  let g300 := (L 1 0) + emsq * ((- (L 6 0)) + (L 660937 5) * emsq) in
  let f220 := (L 75 2) * ((L 1 0) + cosim) * ((L 1 0) + cosim) in
  let f311 := (L 9375 4) * sinim * sinim * ((L 1 0) + (L 3 0) * cosim) - (L 75 2) * ((L 1 0) + cosim) in
  let f330 := (L 1 0) + cosim in
  let f330 := f330 * ((L 1875 3) * f330 * f330) in
  let del1 := (L 3 0) * nm * nm * aonv * aonv in
  let del2 := (L 2 0) * del1 * f220 * g200 * dsinit_Q22 in
  let del3 := (L 3 0) * del1 * f330 * g300 * dsinit_Q33 * aonv in
  let del1 := del1 * f311 * g310 * dsinit_Q31 * aonv in
  let xlamo := (mo + nodeo + argpo - theta) %% kTWO_PI in
  let xfact := mdot + xpidot + dmdt + domdt + dnodt - (no + dsinit_RPTIM) in
  MkSync del1 del2 del3 xlamo xfact.

(** dsinit, dsinit.rs:191-524.  [em] and [emsq] are saved and restored around the half-day block
    (377-380, 457-458), so the synchronous block and the result see the original values. *)
Definition dsinit (o : DsinitOptions) : DinitResult :=
  let t := no_t o in
  let nm := no_nm o in
  let irez := dsinit_irez nm (no_em o) in
  let r := dsinit_rates o in
  let dedt := rt_dedt r in let didt := rt_didt r in let dmdt := rt_dmdt r in
  let dnodt := rt_dnodt r in let domdt := rt_domdt r in
  let gsto := no_gsto o in
  let tc := no_tc o in
  let em := no_em o in
  let inclm := no_inclm o in
  let argpm := no_argpm o in
  let nodem := no_nodem o in
  let mm := no_mm o in
  let dndt := (L 0 0) in
  let theta := (gsto + tc * dsinit_RPTIM) %% kTWO_PI in
  let em := em + dedt * t in
  let inclm := inclm + didt * t in
  let argpm := argpm + domdt * t in
  let nodem := nodem + dnodt * t in
  let mm := mm + dmdt * t in
  let xlamo := no_xlamo o in
  let xfact := no_xfact o in
  let no := no_no o in
  if negb (irez =? (L 0 0)) then
    let aonv := fpow (nm / kXKE) kX2O3 in
    let h := dsinit_half o dmdt dnodt nm theta aonv in
    let b2 := irez =? (L 2 0) in
    let d2201 := if b2 then hf_d2201 h else no_d2201 o in
    let d2211 := if b2 then hf_d2211 h else no_d2211 o in
    let d3210 := if b2 then hf_d3210 h else no_d3210 o in
    let d3222 := if b2 then hf_d3222 h else no_d3222 o in
    let d4410 := if b2 then hf_d4410 h else no_d4410 o in
    let d4422 := if b2 then hf_d4422 h else no_d4422 o in
    let d5220 := if b2 then hf_d5220 h else no_d5220 o in
    let d5232 := if b2 then hf_d5232 h else no_d5232 o in
    let d5421 := if b2 then hf_d5421 h else no_d5421 o in
    let d5433 := if b2 then hf_d5433 h else no_d5433 o in
    let xlamo := if b2 then hf_xlamo h else xlamo in
    let xfact := if b2 then hf_xfact h else xfact in
    let y := dsinit_sync o dmdt dnodt domdt nm theta aonv in
    let b1 := irez =? (L 1 0) in
    let del1 := if b1 then sy_del1 y else no_del1 o in
    let del2 := if b1 then sy_del2 y else no_del2 o in
    let del3 := if b1 then sy_del3 y else no_del3 o in
    let xlamo := if b1 then sy_xlamo y else xlamo in
    let xfact := if b1 then sy_xfact y else xfact in
    let xli := xlamo in
    let xni := no in
    let atime := (L 0 0) in
    let nm := no + dndt in
    MkDinitResult
      em argpm inclm mm nm nodem irez atime d2201 d2211 d3210 d3222 d4410 d4422 d5220 d5232 d5421 d5433 dedt didt dmdt dndt dnodt domdt del1 del2 del3 xfact xlamo xli xni
  else
    let atime := no_atime o in
    let d2201 := no_d2201 o in let d2211 := no_d2211 o in
    let d3210 := no_d3210 o in let d3222 := no_d3222 o in
    let d4410 := no_d4410 o in let d4422 := no_d4422 o in
    let d5220 := no_d5220 o in let d5232 := no_d5232 o in
    let d5421 := no_d5421 o in let d5433 := no_d5433 o in
    let del1 := no_del1 o in let del2 := no_del2 o in let del3 := no_del3 o in
    let xli := no_xli o in let xni := no_xni o in
    MkDinitResult
      em argpm inclm mm nm nodem irez atime d2201 d2211 d3210 d3222 d4410 d4422 d5220 d5232 d5421 d5433 dedt didt dmdt dndt dnodt domdt del1 del2 del3 xfact xlamo xli xni
.
End Dsinit.
Arguments DsinitOptions F : clear implicits.
Arguments DinitResult F : clear implicits.
