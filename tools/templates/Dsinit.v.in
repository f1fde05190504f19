(** * src/propogation/dsinit.rs: deep-space secular rates and resonance coefficients *)
From Coq Require Import ZArith Bool.
From Verif.Model Require Import Float Constants.
Local Open Scope Z_scope.
Local Open Scope f_scope.

Section Dsinit.
Context {F : Type} {FO : FloatOps F}.
@@consts

(** dsinit.rs:3-75 *)
@@struct propogation/dsinit.rs 3-75 DsinitOptions MkDsinitOptions no_

(** dsinit.rs:77-109 *)
@@struct propogation/dsinit.rs 77-109 DinitResult MkDinitResult nr_

(** dsinit.rs:297-307 *)
@@const propogation/dsinit.rs 297-307 dsinit_

(** Resonance class from mean motion and eccentricity, dsinit.rs:310-316. *)
Definition dsinit_irez (nm em : F) : F :=
  let irez := (L 0 0) in
  let irez := if (nm <? (L 52359877 10)) && ((L 34906585 10) <? nm) then (L 1 0) else irez in
  let irez := if ((L 826 5) <=? nm) && (nm <=? (L 924 5)) && ((L 5 1) <=? em) then (L 2 0) else irez in
  irez.

(** Secular rates of the lunar-solar terms, dsinit.rs:319-350. *)
Record SecularRates := MkSecularRates {
  rt_dedt : F; rt_didt : F; rt_dmdt : F; rt_dnodt : F; rt_domdt : F }.
@@proj options=no_:o
Definition dsinit_rates (o : DsinitOptions) : SecularRates :=
  @@rs propogation/dsinit.rs 192-212
  @@rs propogation/dsinit.rs 222-229
  let emsq := no_emsq o in
  let inclm := no_inclm o in
  @@rs propogation/dsinit.rs 319-323
  let shs := if (inclm <? (L 52359877 9)) || ((kPI - (L 52359877 9)) <? inclm) then (L 0 0) else shs in
  let shs := if negb (sinim =? (L 0 0)) then shs / sinim else shs in
  @@rs propogation/dsinit.rs 332-332
  @@rs propogation/dsinit.rs 335-339
  let shll := if (inclm <? (L 52359877 9)) || ((kPI - (L 52359877 9)) <? inclm) then (L 0 0) else shll in
  @@rs propogation/dsinit.rs 345-346
  let domdt' := if negb (sinim =? (L 0 0)) then domdt - cosim / sinim * shll else domdt in
  let dnodt' := if negb (sinim =? (L 0 0)) then dnodt + shll / sinim else dnodt in
  MkSecularRates dedt didt dmdt dnodt' domdt'.

(** Half-day (12 h) resonance coefficients and phase, dsinit.rs:376-456. *)
Record Half := MkHalf {
  hf_d2201 : F; hf_d2211 : F; hf_d3210 : F; hf_d3222 : F; hf_d4410 : F; hf_d4422 : F;
  hf_d5220 : F; hf_d5232 : F; hf_d5421 : F; hf_d5433 : F; hf_xlamo : F; hf_xfact : F }.

(** Eccentricity functions, dsinit.rs:381-411 (em and emsq are here the [ecco] and [eccsq] of the options). *)
Record GFuns := MkGFuns {
  gf_g201 : F; gf_g211 : F; gf_g310 : F; gf_g322 : F; gf_g410 : F; gf_g422 : F; gf_g520 : F;
  gf_g521 : F; gf_g532 : F; gf_g533 : F }.
Definition dsinit_gfuns (em emsq : F) : GFuns :=
  @@rs propogation/dsinit.rs 381-382
  let c := em <=? (L 65 2) in
  let g211 := if c then
    @@rs propogation/dsinit.rs 385-385
    g211 else
    @@rs propogation/dsinit.rs 392-392
    g211 in
  let g310 := if c then
    @@rs propogation/dsinit.rs 386-386
    g310 else
    @@rs propogation/dsinit.rs 393-393
    g310 in
  let g322 := if c then
    @@rs propogation/dsinit.rs 387-387
    g322 else
    @@rs propogation/dsinit.rs 394-394
    g322 in
  let g410 := if c then
    @@rs propogation/dsinit.rs 388-388
    g410 else
    @@rs propogation/dsinit.rs 395-395
    g410 in
  let g422 := if c then
    @@rs propogation/dsinit.rs 389-389
    g422 else
    @@rs propogation/dsinit.rs 396-396
    g422 in
  let g520 := if c then
    @@rs propogation/dsinit.rs 390-390
    g520 else if (L 715 3) <? em then
    @@rs propogation/dsinit.rs 398-398
    g520 else
    @@rs propogation/dsinit.rs 400-400
    g520 in
  let c7 := em <? (L 7 1) in
  let g533 := if c7 then
    @@rs propogation/dsinit.rs 404-404
    g533 else
    @@rs propogation/dsinit.rs 408-408
    g533 in
  let g521 := if c7 then
    @@rs propogation/dsinit.rs 405-405
    g521 else
    @@rs propogation/dsinit.rs 409-409
    g521 in
  let g532 := if c7 then
    @@rs propogation/dsinit.rs 406-406
    g532 else
    @@rs propogation/dsinit.rs 410-410
    g532 in
  MkGFuns g201 g211 g310 g322 g410 g422 g520 g521 g532 g533.

Definition dsinit_half (o : DsinitOptions) (dmdt dnodt nm theta aonv : F) : Half :=
  let cosim := no_cosim o in
  let sinim := no_sinim o in
  @@rs propogation/dsinit.rs 216-220
  @@rs propogation/dsinit.rs 376-376
  let g := dsinit_gfuns (no_ecco o) (no_eccsq o) in
  let g201 := gf_g201 g in let g211 := gf_g211 g in let g310 := gf_g310 g in
  let g322 := gf_g322 g in let g410 := gf_g410 g in let g422 := gf_g422 g in
  let g520 := gf_g520 g in let g521 := gf_g521 g in let g532 := gf_g532 g in
  let g533 := gf_g533 g in
  @@rs propogation/dsinit.rs 412-456
  MkHalf d2201 d2211 d3210 d3222 d4410 d4422 d5220 d5232 d5421 d5433 xlamo xfact.

(** Synchronous (24 h) resonance coefficients and phase, dsinit.rs:463-475. *)
Record Sync := MkSync { sy_del1 : F; sy_del2 : F; sy_del3 : F; sy_xlamo : F; sy_xfact : F }.
Definition dsinit_sync (o : DsinitOptions) (dmdt dnodt domdt nm theta aonv : F) : Sync :=
  let cosim := no_cosim o in
  let sinim := no_sinim o in
  let emsq := no_emsq o in
  let argpo := no_argpo o in
  @@rs propogation/dsinit.rs 216-221
  @@rs propogation/dsinit.rs 463-475
  MkSync del1 del2 del3 xlamo xfact.

(** dsinit, dsinit.rs:191-524.  [em] and [emsq] are saved and restored around the half-day block
    (377-380, 457-458), so the synchronous block and the result see the original values. *)
Definition dsinit (o : DsinitOptions) : DinitResult :=
  let t := no_t o in
  let nm := no_nm o in
  let irez := dsinit_irez nm (no_em o) in
  let r := dsinit_rates o in
  let dedt := rt_dedt r in let didt := rt_didt r in let dmdt := rt_dmdt r in
  let dnodt := rt_dnodt r in let domdt := rt_domdt r in
  let gsto := no_gsto o in
  let tc := no_tc o in
  let em := no_em o in
  let inclm := no_inclm o in
  let argpm := no_argpm o in
  let nodem := no_nodem o in
  let mm := no_mm o in
  @@rs propogation/dsinit.rs 353-359
  let xlamo := no_xlamo o in
  let xfact := no_xfact o in
  let no := no_no o in
  if negb (irez =? (L 0 0)) then
    @@rs propogation/dsinit.rs 372-372
    let h := dsinit_half o dmdt dnodt nm theta aonv in
    let b2 := irez =? (L 2 0) in
    let d2201 := if b2 then hf_d2201 h else no_d2201 o in
    let d2211 := if b2 then hf_d2211 h else no_d2211 o in
    let d3210 := if b2 then hf_d3210 h else no_d3210 o in
    let d3222 := if b2 then hf_d3222 h else no_d3222 o in
    let d4410 := if b2 then hf_d4410 h else no_d4410 o in
    let d4422 := if b2 then hf_d4422 h else no_d4422 o in
    let d5220 := if b2 then hf_d5220 h else no_d5220 o in
    let d5232 := if b2 then hf_d5232 h else no_d5232 o in
    let d5421 := if b2 then hf_d5421 h else no_d5421 o in
    let d5433 := if b2 then hf_d5433 h else no_d5433 o in
    let xlamo := if b2 then hf_xlamo h else xlamo in
    let xfact := if b2 then hf_xfact h else xfact in
    let y := dsinit_sync o dmdt dnodt domdt nm theta aonv in
    let b1 := irez =? (L 1 0) in
    let del1 := if b1 then sy_del1 y else no_del1 o in
    let del2 := if b1 then sy_del2 y else no_del2 o in
    let del3 := if b1 then sy_del3 y else no_del3 o in
    let xlamo := if b1 then sy_xlamo y else xlamo in
    let xfact := if b1 then sy_xfact y else xfact in
    @@rs propogation/dsinit.rs 479-482
    @@mk propogation/dsinit.rs 77-109 MkDinitResult
  else
    let atime := no_atime o in
    let d2201 := no_d2201 o in let d2211 := no_d2211 o in
    let d3210 := no_d3210 o in let d3222 := no_d3222 o in
    let d4410 := no_d4410 o in let d4422 := no_d4422 o in
    let d5220 := no_d5220 o in let d5232 := no_d5232 o in
    let d5421 := no_d5421 o in let d5433 := no_d5433 o in
    let del1 := no_del1 o in let del2 := no_del2 o in let del3 := no_del3 o in
    let xli := no_xli o in let xni := no_xni o in
    @@mk propogation/dsinit.rs 77-109 MkDinitResult
.
End Dsinit.
Arguments DsinitOptions F : clear implicits.
Arguments DinitResult F : clear implicits.
