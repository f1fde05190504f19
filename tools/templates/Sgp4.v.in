(** * src/propogation/sgp4.rs

    [sgp4] is cut into stages at the places where Rust returns early; each stage is the straight-line
    code between two cuts.  The Rust function mutates the record it is given: the model returns the
    mutated record together with the result. *)
From Coq Require Import ZArith Bool.
From Verif.Model Require Import Float Str Satrec Constants Vec3 Dspace Dpper.
Local Open Scope Z_scope.
Local Open Scope f_scope.

Section Sgp4.
Context {F : Type} {FO : FloatOps F}.
@@consts

(** sgp4.rs:94-97 *)
Record SGP4Result := MkSGP4Result { g4_position : Vec3 F; g4_velocity : Vec3 F }.

(** sgp4.rs:100-106 *)
Inductive SGP4Error := Eccentricty | Ep | Nm | Pl | DecayCondition.

(** SGP4Error::code, sgp4.rs:109-117 *)
Definition sgp4_error_code (e : SGP4Error) : Z :=
  match e with Eccentricty => 1 | Nm => 2 | Ep => 3 | Pl => 4 | DecayCondition => 6 end.

(** sgp4.rs:154 *)
@@const propogation/sgp4.rs 154-154 sgp4_

@@proj satrec=sr_:s
(** Secular gravity and drag, sgp4.rs:163-187. *)
Record Secular := MkSecular {
  se_argpm : F; se_mm : F; se_nodem : F; se_tempa : F; se_tempe : F; se_templ : F }.
Definition sgp4_secular (s : Satrec F) : Secular :=
  @@rs propogation/sgp4.rs 163-172
  if negb (Z.eqb (sr_isimp s) 1) then
    @@rs propogation/sgp4.rs 175-186
    MkSecular argpm mm nodem tempa tempe templ
  else MkSecular argpm mm nodem tempa tempe templ.

(** The argument of the [dspace] call, sgp4.rs:192-231. *)
Definition sgp4_dspace_options (s : Satrec F) (c : Secular) (nm em inclm : F) : DspaceOptions F :=
  let tc := sr_t s in
  MkDspaceOptions
    (sr_irez s) (sr_d2201 s) (sr_d2211 s) (sr_d3210 s) (sr_d3222 s) (sr_d4410 s) (sr_d4422 s)
    (sr_d5220 s) (sr_d5232 s) (sr_d5421 s) (sr_d5433 s) (sr_dedt s) (sr_del1 s) (sr_del2 s)
    (sr_del3 s) (sr_didt s) (sr_dmdt s) (sr_dnodt s) (sr_domdt s) (sr_argpo s) (sr_argpdot s)
    (sr_t s) tc (sr_gsto s) (sr_xfact s) (sr_xlamo s) (sr_no s) (sr_atime s)
    em (se_argpm c) inclm (sr_xli s) (se_mm c) (sr_xni s) (se_nodem c) nm.

(** Eccentricity after the deep-space secular effects, sgp4.rs:188-244.  Of the [dspace] result only
    [em] is kept: the destructuring at 235-242 binds the other fields to [_]. *)
Definition sgp4_em (fuel : nat) (s : Satrec F) (c : Secular) : outcome F :=
  let nm := sr_no s in
  let em := sr_ecco s in
  let inclm := sr_inclo s in
  if method_eqb (sr_method s) MethodD then
    do! r <- dspace fuel (sgp4_dspace_options s c nm em inclm);
    Done (sx_em r)
  else Done em.

(** sgp4.rs:255-256: semi-major axis and mean motion (the second [nm]). *)
Definition sgp4_am (s : Satrec F) (c : Secular) : F :=
  let tempa := se_tempa c in
  let nm := sr_no s in
  @@rs propogation/sgp4.rs 255-255
  am.
Definition sgp4_nm (am : F) : F :=
  @@rs propogation/sgp4.rs 256-256
  nm.

(** Mean elements after reduction of the angles, sgp4.rs:272-294 ([em] is after line 257). *)
Record Mean := MkMean {
  mn_ep : F; mn_argpp : F; mn_nodep : F; mn_mp : F }.
Definition sgp4_mean (s : Satrec F) (c : Secular) (em : F) : Mean :=
  let argpm := se_argpm c in let mm := se_mm c in let nodem := se_nodem c in let templ := se_templ c in
  let em := if em <? (L 1 6) then (L 1 6) else em in
  @@rs propogation/sgp4.rs 275-281
  let ep := em in
  MkMean ep argpm nodem mm.

(** The [dpper] call, sgp4.rs:296-307. *)
Definition sgp4_dpper (s : Satrec F) (m : Mean) : DpperResult F :=
  dpper s (MkDpperOptions InitN (sr_operationmode s)
             (sr_inclo s) (mn_ep m) (sr_inclo s) (mn_nodep m) (mn_argpp m) (mn_mp m)).

(** Inclination used below, sgp4.rs:289, 316-322.  The block at 295-331 shadows [ep], [nodep] and
    [argpp], so the values read after it are those of line 288-292; only [xincp] escapes. *)
Definition sgp4_xincp (s : Satrec F) (m : Mean) : F :=
  if method_eqb (sr_method s) MethodD then
    let xincp := pr_inclp (sgp4_dpper s m) in
    if xincp <? (L 0 0) then - xincp else xincp
  else sr_inclo s.

(** The perturbed-eccentricity test, sgp4.rs:323. *)
Definition sgp4_bad_ep (s : Satrec F) (m : Mean) : bool :=
  method_eqb (sr_method s) MethodD &&
  (let ep := pr_ep (sgp4_dpper s m) in (ep <? (L 0 0)) || ((L 1 0) <? ep)).

(** Long-period coefficients, sgp4.rs:334-345 (record update in deep-space mode only). *)
Definition sgp4_long (s : Satrec F) (xincp : F) : Satrec F :=
  if method_eqb (sr_method s) MethodD then
    @@rs propogation/sgp4.rs 335-336
    let s := set_aycof ((- (L 5 1)) * kJ3OJ2 * sinip) s in
    if (L 15 13) <? fabs (cosip + (L 1 0))
    then set_xlcof ((- (L 25 2)) * kJ3OJ2 * sinip * ((L 3 0) + (L 5 0) * cosip) / ((L 1 0) + cosip)) s
    else set_xlcof ((- (L 25 2)) * kJ3OJ2 * sinip * ((L 3 0) + (L 5 0) * cosip) / sgp4_TEMP4) s
  else s.

(** sgp4.rs:347-353 *)
Record KeplerIn := MkKeplerIn { ki_axnl : F; ki_aynl : F; ki_u : F }.
Definition sgp4_kepler_in (s : Satrec F) (m : Mean) (am : F) : KeplerIn :=
  let ep := mn_ep m in let argpp := mn_argpp m in let nodep := mn_nodep m in let mp := mn_mp m in
  @@rs propogation/sgp4.rs 347-353
  MkKeplerIn axnl aynl u.

(** One correction of the Newton iteration, clamped to 0.95: sgp4.rs:361-371. *)
Definition kepler_correction (axnl aynl u eo1 : F) : F :=
  @@rs propogation/sgp4.rs 361-364
  if (L 95 2) <=? fabs tem5 then (if (L 0 0) <? tem5 then (L 95 2) else (- (L 95 2))) else tem5.

(** Kepler iteration, sgp4.rs:360-374: [n] is the number of iterations still allowed (11 - ktr);
    the values returned are [sineo1], [coseo1] (evaluated before the last correction) and [eo1]. *)
Record KeplerOut := MkKeplerOut { ko_sineo1 : F; ko_coseo1 : F; ko_eo1 : F }.
Fixpoint kepler_loop (n : nat) (axnl aynl u : F) (tem5 : F) (k : KeplerOut) : KeplerOut :=
  match n with
  | O => k
  | S n' =>
      if (L 1 12) <=? fabs tem5 then
        let eo1 := ko_eo1 k in
        let tem5 := kepler_correction axnl aynl u eo1 in
        kepler_loop n' axnl aynl u tem5 (MkKeplerOut (fsin eo1) (fcos eo1) (eo1 + tem5))
      else k
  end.
Definition sgp4_kepler (axnl aynl u : F) : KeplerOut :=
  kepler_loop 10 axnl aynl u (L 99999 1) (MkKeplerOut (L 0 0) (L 0 0) u).

(** Short-period preliminaries, sgp4.rs:377-380. *)
Record Short := MkShort { sh_ecose : F; sh_esine : F; sh_el2 : F; sh_pl : F }.
Definition sgp4_short (k : KeplerOut) (axnl aynl am : F) : Short :=
  let coseo1 := ko_coseo1 k in let sineo1 := ko_sineo1 k in
  @@rs propogation/sgp4.rs 377-380
  MkShort ecose esine el2 pl.

(** sgp4.rs:390-402 *)
Record ShortQ := MkShortQ {
  q_rl : F; q_rdotl : F; q_rvdotl : F; q_betal : F; q_su : F; q_sin2u : F; q_cos2u : F;
  q_temp1 : F; q_temp2 : F }.
Definition sgp4_shortq (h : Short) (k : KeplerOut) (axnl aynl am : F) : ShortQ :=
  let coseo1 := ko_coseo1 k in let sineo1 := ko_sineo1 k in
  let ecose := sh_ecose h in let esine := sh_esine h in let el2 := sh_el2 h in let pl := sh_pl h in
  @@rs propogation/sgp4.rs 390-402
  MkShortQ rl rdotl rvdotl betal su sin2u cos2u temp1 temp2.

(** sgp4.rs:405-410 (record update in deep-space mode only) *)
Definition sgp4_cosip (s : Satrec F) (xincp : F) : F :=
  if method_eqb (sr_method s) MethodD then fcos xincp else fcos (sr_inclo s).
Definition sgp4_sinip (s : Satrec F) (xincp : F) : F :=
  if method_eqb (sr_method s) MethodD then fsin xincp else fsin (sr_inclo s).
Definition sgp4_incl_consts (s : Satrec F) (xincp : F) : Satrec F :=
  if method_eqb (sr_method s) MethodD then
    let cosip := fcos xincp in
    @@rs propogation/sgp4.rs 406-406
    let s := set_con41 ((L 3 0) * cosisq - (L 1 0)) s in
    let s := set_x1mth2 ((L 1 0) - cosisq) s in
    set_x7thm1 ((L 7 0) * cosisq - (L 1 0)) s
  else s.

(** Short-period periodics, sgp4.rs:412-418. *)
Record Osc := MkOsc {
  os_mrt : F; os_su : F; os_xnode : F; os_xinc : F; os_mvt : F; os_rvdot : F }.
Definition sgp4_osc (s : Satrec F) (q : ShortQ) (nodep xincp sinip cosip nm : F) : Osc :=
  let rl := q_rl q in let betal := q_betal q in let temp1 := q_temp1 q in let temp2 := q_temp2 q in
  let sin2u := q_sin2u q in let cos2u := q_cos2u q in let su := q_su q in
  let rdotl := q_rdotl q in let rvdotl := q_rvdotl q in
  @@rs propogation/sgp4.rs 412-418
  MkOsc mrt su xnode xinc mvt rvdot.

(** Orientation vectors, position and velocity, sgp4.rs:421-446; [vkmpersec] is line 156. *)
Definition sgp4_posvel (o : Osc) : SGP4Result :=
  let mrt := os_mrt o in let su := os_su o in let xnode := os_xnode o in let xinc := os_xinc o in
  let mvt := os_mvt o in let rvdot := os_rvdot o in
  @@rs propogation/sgp4.rs 156-156
  @@rs propogation/sgp4.rs 421-434
  MkSGP4Result
    (MkVec3 (mrt * ux * kEARTH_RADIUS) (mrt * uy * kEARTH_RADIUS) (mrt * uz * kEARTH_RADIUS))
    (MkVec3 ((mvt * ux + rvdot * vx) * vkmpersec) ((mvt * uy + rvdot * vy) * vkmpersec)
            ((mvt * uz + rvdot * vz) * vkmpersec)).

(** sgp4 from the mean elements on, sgp4.rs:295-465: everything after the eccentricity guard. *)
Definition sgp4_tail (s : Satrec F) (m : Mean) (am nm : F)
  : Satrec F * result SGP4Result SGP4Error :=
  if sgp4_bad_ep s m then (set_error 3 s, Err Ep) else
  let xincp := sgp4_xincp s m in
  let sinip := sgp4_sinip s xincp in
  let cosip := sgp4_cosip s xincp in
  let s := sgp4_long s xincp in
  let ki := sgp4_kepler_in s m am in
  let axnl := ki_axnl ki in let aynl := ki_aynl ki in
  let k := sgp4_kepler axnl aynl (ki_u ki) in
  let h := sgp4_short k axnl aynl am in
  if sh_pl h <? (L 0 0) then (set_error 4 s, Err Pl) else
  let q := sgp4_shortq h k axnl aynl am in
  let s := sgp4_incl_consts s xincp in
  let o := sgp4_osc s q (mn_nodep m) xincp sinip cosip nm in
  if os_mrt o <? (L 1 0) then (set_error 6 s, Err DecayCondition) else
  (s, Ok (sgp4_posvel o)).

(** sgp4, sgp4.rs:120-466.  [fuel] bounds the steps of the integrator in [dspace]. *)
Definition sgp4 (fuel : nat) (satrec : Satrec F) (tsince : F)
  : outcome (Satrec F * result SGP4Result SGP4Error) :=
  let s := set_error 0 (set_t tsince satrec) in
  let c := sgp4_secular s in
  do! em <- sgp4_em fuel s c;
  if sr_no s <=? (L 0 0) then Done (set_error 2 s, Err Nm) else
  let am := sgp4_am s c in
  let nm := sgp4_nm am in
  let em := em - se_tempe c in
  if ((L 1 0) <=? em) || (em <? (- (L 1 3))) then Done (set_error 1 s, Err Eccentricty) else
  let m := sgp4_mean s c em in
  Done (sgp4_tail s m am nm).
End Sgp4.
Arguments SGP4Result F : clear implicits.
