(** * src/propogation/sgp4init.rs *)
From Coq Require Import ZArith Bool.
From Verif.Model Require Import Float Str Satrec Constants Vec3 Gstime Initl Dscom Dpper Dsinit Dspace Sgp4.
Local Open Scope Z_scope.
Local Open Scope f_scope.

Section Sgp4init.
Context {F : Type} {FO : FloatOps F}.
@@consts

(** sgp4init.rs:92-103 *)
@@struct propogation/sgp4init.rs 92-103 SGP4InitOptions MkSGP4InitOptions in_

(** sgp4init.rs:179 *)
@@const propogation/sgp4init.rs 179-179 sgp4init_

(** Reset and element assignment, sgp4init.rs:182-293. *)
Definition sgp4init_reset (o : SGP4InitOptions) (s : Satrec F) : Satrec F :=
  let s := set_isimp 0 s in
  let s := set_method MethodN s in
  @@sets propogation/sgp4init.rs 184-266 s
  let s := set_bstar (in_xbstar o) s in
  let s := set_ecco (in_xecco o) s in
  let s := set_argpo (in_xargpo o) s in
  let s := set_inclo (in_xinclo o) s in
  let s := set_mo (in_xmo o) s in
  let s := set_no (in_xno o) s in
  let s := set_nodeo (in_xnodeo o) s in
  let s := set_operationmode (in_opsmode o) s in
  let s := set_init InitY s in
  set_t (L 0 0) s.

(** The [initl] call, sgp4init.rs:295-307, and the assignments 323-326. *)
Definition sgp4init_initl (o : SGP4InitOptions) (s : Satrec F) : InitlReturn F :=
  initl (MkInitlOptions (sr_operationmode s) (sr_method s) (in_satn o) (sr_ecco s) (in_epoch o) (sr_inclo s) (sr_no s)).
Definition sgp4init_after_initl (r : InitlReturn F) (s : Satrec F) : Satrec F :=
  let s := set_no (ir_no r) s in
  let s := set_con41 (ir_con41 r) s in
  let s := set_gsto (ir_gsto r) s in
  set_error 0 s.

(** Atmospheric parameters by perigee height, sgp4init.rs:287-290 and 343-358. *)
Record Atmo := MkAtmo { at_sfour : F; at_qzms24 : F }.
Definition sgp4init_atmo (rp : F) : Atmo :=
  @@rs propogation/sgp4init.rs 287-290
  @@rs propogation/sgp4init.rs 343-345
  if perige <? (L 156 0) then
    let sfour := perige - (L 78 0) in
    let sfour := if perige <? (L 98 0) then (L 20 0) else sfour in
    @@rs propogation/sgp4init.rs 355-357
    MkAtmo sfour qzms24
  else MkAtmo sfour qzms24.

(** Near-earth coefficients, sgp4init.rs:338-430.  The locals read later are returned with the record. *)
Record NearOut := MkNearOut { ne_s : Satrec F; ne_tsi : F; ne_sfour : F; ne_xpidot : F }.
@@prefix satrec=s_
Definition sgp4init_near (r : InitlReturn F) (s : Satrec F) : NearOut :=
  let ao := ir_ao r in let con42 := ir_con42 r in let cosio := ir_cosio r in
  let cosio2 := ir_cosio2 r in let omeosq := ir_omeosq r in let posq := ir_posq r in
  let rp := ir_rp r in let rteosq := ir_rteosq r in let sinio := ir_sinio r in
  let s_ecco := sr_ecco s in let s_no := sr_no s in let s_bstar := sr_bstar s in
  let s_argpo := sr_argpo s in let s_mo := sr_mo s in let s_con41 := sr_con41 s in
  let s_isimp := if rp <? (L 220 0) / kEARTH_RADIUS + (L 1 0) then 1%Z else 0%Z in
  let atmo := sgp4init_atmo rp in
  let sfour := at_sfour atmo in
  let qzms24 := at_qzms24 atmo in
  @@rs propogation/sgp4init.rs 359-375
  let cc3 := if (L 1 4) <? s_ecco then (- (L 2 0)) * coef * tsi * kJ3OJ2 * s_no * sinio / s_ecco else cc3 in
  @@rs propogation/sgp4init.rs 379-411
  let s_xmcof := if (L 1 4) <? s_ecco then (- kX2O3) * coef * s_bstar / eeta else s_xmcof in
  @@rs propogation/sgp4init.rs 415-416
  let s_xlcof := if (L 15 13) <? fabs (cosio + (L 1 0))
    then (- (L 25 2)) * kJ3OJ2 * sinio * ((L 3 0) + (L 5 0) * cosio) / ((L 1 0) + cosio)
    else (- (L 25 2)) * kJ3OJ2 * sinio * ((L 3 0) + (L 5 0) * cosio) / sgp4init_TEMP4 in
  @@rs propogation/sgp4init.rs 424-430
  let s := set_isimp s_isimp s in
  let s := set_eta s_eta s in
  let s := set_cc1 s_cc1 s in
  let s := set_x1mth2 s_x1mth2 s in
  let s := set_cc4 s_cc4 s in
  let s := set_cc5 s_cc5 s in
  let s := set_mdot s_mdot s in
  let s := set_argpdot s_argpdot s in
  let s := set_nodedot s_nodedot s in
  let s := set_omgcof s_omgcof s in
  let s := set_xmcof s_xmcof s in
  let s := set_nodecf s_nodecf s in
  let s := set_t2cof s_t2cof s in
  let s := set_xlcof s_xlcof s in
  let s := set_aycof s_aycof s in
  let s := set_delmo s_delmo s in
  let s := set_sinmao s_sinmao s in
  let s := set_x7thm1 s_x7thm1 s in
  MkNearOut s tsi sfour xpidot.

(** The [dscom] call and the copying of its result, sgp4init.rs:434-553. *)
Definition sgp4init_dscom (epoch : F) (s : Satrec F) : DscomResult F :=
  dscom (MkDscomOptions epoch (sr_ecco s) (sr_argpo s) (L 0 0) (sr_inclo s) (sr_nodeo s) (sr_no s)).
@@proj dscom_result=dr_:d
Definition sgp4init_copy_dscom (d : DscomResult F) (s : Satrec F) : Satrec F :=
  @@sets propogation/sgp4init.rs 492-514 s
  @@sets propogation/sgp4init.rs 542-553 s
  s.

(** The [dpper] call, sgp4init.rs:568-585. *)
Definition sgp4init_dpper (inclm : F) (s : Satrec F) : Satrec F :=
  let p := dpper s (MkDpperOptions (sr_init s) (sr_operationmode s) inclm (sr_ecco s) (sr_inclo s)
                      (sr_nodeo s) (sr_argpo s) (sr_mo s)) in
  let s := set_ecco (pr_ep p) s in
  let s := set_inclo (pr_inclp p) s in
  let s := set_nodeo (pr_nodep p) s in
  let s := set_argpo (pr_argpp p) s in
  set_mo (pr_mp p) s.

(** The [dsinit] call, sgp4init.rs:591-695. *)
Definition sgp4init_dsinit_options (eccsq xpidot inclm : F) (d : DscomResult F) (s : Satrec F) : DsinitOptions F :=
  let tc := (L 0 0) in
  MkDsinitOptions
    (dr_cosim d) (sr_argpo s) (dr_s1 d) (dr_s2 d) (dr_s3 d) (dr_s4 d) (dr_s5 d) (dr_sinim d)
    (dr_ss1 d) (dr_ss2 d) (dr_ss3 d) (dr_ss4 d) (dr_ss5 d)
    (dr_sz1 d) (dr_sz3 d) (dr_sz11 d) (dr_sz13 d) (dr_sz21 d) (dr_sz23 d) (dr_sz31 d) (dr_sz33 d)
    (sr_t s) tc (sr_gsto s) (sr_mo s) (sr_mdot s) (sr_no s) (sr_nodeo s) (sr_nodedot s) xpidot
    (dr_z1 d) (dr_z3 d) (dr_z11 d) (dr_z13 d) (dr_z21 d) (dr_z23 d) (dr_z31 d) (dr_z33 d)
    (sr_ecco s) eccsq (dr_emsq d) (dr_em d) (L 0 0) inclm (L 0 0) (dr_nm d) (L 0 0)
    (sr_irez s) (sr_atime s) (sr_d2201 s) (sr_d2211 s) (sr_d3210 s) (sr_d3222 s)
    (sr_d4410 s) (sr_d4422 s) (sr_d5220 s) (sr_d5232 s) (sr_d5421 s) (sr_d5433 s)
    (sr_dedt s) (sr_didt s) (sr_dmdt s) (sr_dnodt s) (sr_domdt s) (sr_del1 s) (sr_del2 s)
    (sr_del3 s) (sr_xfact s) (sr_xlamo s) (sr_xli s) (sr_xni s).
@@proj dsinit_result=nr_:r
Definition sgp4init_copy_dsinit (r : DinitResult F) (s : Satrec F) : Satrec F :=
  @@sets propogation/sgp4init.rs 667-695 s
  s.

(** Deep-space initialisation, sgp4init.rs:433-696. *)
Definition sgp4init_deep (epoch eccsq xpidot : F) (s : Satrec F) : Satrec F :=
  if (L 225 0) <=? kTWO_PI / sr_no s then
    let s := set_method MethodD s in
    let s := set_isimp 1 s in
    let inclm := sr_inclo s in
    let d := sgp4init_dscom epoch s in
    let s := sgp4init_copy_dscom d s in
    let s := sgp4init_dpper inclm s in
    let r := dsinit (sgp4init_dsinit_options eccsq xpidot inclm d s) in
    sgp4init_copy_dsinit r s
  else s.

(** Higher-order drag coefficients, sgp4init.rs:699-713. *)
@@prefix satrec=s_
Definition sgp4init_drag (ao tsi sfour : F) (s : Satrec F) : Satrec F :=
  if negb (Z.eqb (sr_isimp s) 1) then
    let s_cc1 := sr_cc1 s in
    @@rs propogation/sgp4init.rs 700-712
    let s := set_d2 s_d2 s in
    let s := set_d3 s_d3 s in
    let s := set_d4 s_d4 s in
    let s := set_t3cof s_t3cof s in
    let s := set_t4cof s_t4cof s in
    set_t5cof s_t5cof s
  else s.

(** The guarded block sgp4init.rs:337-718. *)
Definition sgp4init_elements (o : SGP4InitOptions) (satrec : Satrec F) : Satrec F :=
  let s := sgp4init_reset o satrec in
  let r := sgp4init_initl o s in
  let s := sgp4init_after_initl r s in
  if ((L 0 0) <=? ir_omeosq r) || ((L 0 0) <=? sr_no s) then
    let n := sgp4init_near r s in
    let s := sgp4init_deep (in_epoch o) (ir_eccsq r) (ne_xpidot n) (ne_s n) in
    sgp4init_drag (ir_ao r) (ne_tsi n) (ne_sfour n) s
  else s.

(** sgp4init, sgp4init.rs:104-725: [init] is set to N only when the epoch propagation succeeds. *)
Definition sgp4init (fuel : nat) (satrec : Satrec F) (o : SGP4InitOptions)
  : outcome (Satrec F * result (SGP4Result F) SGP4Error) :=
  let s := sgp4init_elements o satrec in
  do! (s, res) <- sgp4 fuel s (L 0 0);
  match res with
  | Ok r => Done (set_init InitN s, Ok r)
  | Err e => Done (s, Err e)
  end.
End Sgp4init.
Arguments SGP4InitOptions F : clear implicits.
