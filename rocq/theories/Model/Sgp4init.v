(** * src/propogation/sgp4init.rs *)
From Coq Require Import ZArith Bool.
From Verif.Model Require Import Float Str Satrec Constants Vec3 Gstime Initl Dscom Dpper Dsinit Dspace Sgp4.
Local Open Scope Z_scope.
Local Open Scope f_scope.

Section Sgp4init.
Context {F : Type} {FO : FloatOps F}.

(** sgp4init.rs:92-103 *)
Record SGP4InitOptions := MkSGP4InitOptions {
  in_opsmode : DpperOpsMode;
  in_satn : str;
  in_epoch : F;
  in_xbstar : F;
  in_xecco : F;
  in_xargpo : F;
  in_xinclo : F;
  in_xmo : F;
  in_xno : F;
  in_xnodeo : F
}.

(** sgp4init.rs:179 *)
Definition sgp4init_TEMP4 : F := (L 15 13). (* propogation/sgp4init.rs:179 *)

(** Reset and element assignment, sgp4init.rs:182-293. *)
Definition sgp4init_reset (o : SGP4InitOptions) (s : Satrec F) : Satrec F :=
  let s := set_isimp 0 s in
  let s := set_method MethodN s in
  let s := set_aycof (L 0 0) s in
  let s := set_con41 (L 0 0) s in
  let s := set_cc1 (L 0 0) s in
  let s := set_cc4 (L 0 0) s in
  let s := set_cc5 (L 0 0) s in
  let s := set_d2 (L 0 0) s in
  let s := set_d3 (L 0 0) s in
  let s := set_d4 (L 0 0) s in
  let s := set_delmo (L 0 0) s in
  let s := set_eta (L 0 0) s in
  let s := set_argpdot (L 0 0) s in
  let s := set_omgcof (L 0 0) s in
  let s := set_sinmao (L 0 0) s in
  let s := set_t (L 0 0) s in
  let s := set_t2cof (L 0 0) s in
  let s := set_t3cof (L 0 0) s in
  let s := set_t4cof (L 0 0) s in
  let s := set_t5cof (L 0 0) s in
  let s := set_x1mth2 (L 0 0) s in
  let s := set_x7thm1 (L 0 0) s in
  let s := set_mdot (L 0 0) s in
  let s := set_nodedot (L 0 0) s in
  let s := set_xlcof (L 0 0) s in
  let s := set_xmcof (L 0 0) s in
  let s := set_nodecf (L 0 0) s in
  let s := set_irez (L 0 0) s in
  let s := set_d2201 (L 0 0) s in
  let s := set_d2211 (L 0 0) s in
  let s := set_d3210 (L 0 0) s in
  let s := set_d3222 (L 0 0) s in
  let s := set_d4410 (L 0 0) s in
  let s := set_d4422 (L 0 0) s in
  let s := set_d5220 (L 0 0) s in
  let s := set_d5232 (L 0 0) s in
  let s := set_d5421 (L 0 0) s in
  let s := set_d5433 (L 0 0) s in
  let s := set_dedt (L 0 0) s in
  let s := set_del1 (L 0 0) s in
  let s := set_del2 (L 0 0) s in
  let s := set_del3 (L 0 0) s in
  let s := set_didt (L 0 0) s in
  let s := set_dmdt (L 0 0) s in
  let s := set_dnodt (L 0 0) s in
  let s := set_domdt (L 0 0) s in
  let s := set_e3 (L 0 0) s in
  let s := set_ee2 (L 0 0) s in
  let s := set_peo (L 0 0) s in
  let s := set_pgho (L 0 0) s in
  let s := set_pho (L 0 0) s in
  let s := set_pinco (L 0 0) s in
  let s := set_plo (L 0 0) s in
  let s := set_se2 (L 0 0) s in
  let s := set_se3 (L 0 0) s in
  let s := set_sgh2 (L 0 0) s in
  let s := set_sgh3 (L 0 0) s in
  let s := set_sgh4 (L 0 0) s in
  let s := set_sh2 (L 0 0) s in
  let s := set_sh3 (L 0 0) s in
  let s := set_si2 (L 0 0) s in
  let s := set_si3 (L 0 0) s in
  let s := set_sl2 (L 0 0) s in
  let s := set_sl3 (L 0 0) s in
  let s := set_sl4 (L 0 0) s in
  let s := set_gsto (L 0 0) s in
  let s := set_xfact (L 0 0) s in
  let s := set_xgh2 (L 0 0) s in
  let s := set_xgh3 (L 0 0) s in
  let s := set_xgh4 (L 0 0) s in
  let s := set_xh2 (L 0 0) s in
  let s := set_xh3 (L 0 0) s in
  let s := set_xi2 (L 0 0) s in
  let s := set_xi3 (L 0 0) s in
  let s := set_xl2 (L 0 0) s in
  let s := set_xl3 (L 0 0) s in
  let s := set_xl4 (L 0 0) s in
  let s := set_xlamo (L 0 0) s in
  let s := set_zmol (L 0 0) s in
  let s := set_zmos (L 0 0) s in
  let s := set_atime (L 0 0) s in
  let s := set_xli (L 0 0) s in
  let s := set_xni (L 0 0) s in
  let s := set_bstar (in_xbstar o) s in
  let s := set_ecco (in_xecco o) s in
  let s := set_argpo (in_xargpo o) s in
  let s := set_inclo (in_xinclo o) s in
  let s := set_mo (in_xmo o) s in
  let s := set_no (in_xno o) s in
  let s := set_nodeo (in_xnodeo o) s in
  let s := set_operationmode (in_opsmode o) s in
  let s := set_init InitY s in
  set_t (L 0 0) s.

(** The [initl] call, sgp4init.rs:295-307, and the assignments 323-326. *)
Definition sgp4init_initl (o : SGP4InitOptions) (s : Satrec F) : InitlReturn F :=
  initl (MkInitlOptions (sr_operationmode s) (sr_method s) (in_satn o) (sr_ecco s) (in_epoch o) (sr_inclo s) (sr_no s)).
Definition sgp4init_after_initl (r : InitlReturn F) (s : Satrec F) : Satrec F :=
  let s := set_no (ir_no r) s in
  let s := set_con41 (ir_con41 r) s in
  let s := set_gsto (ir_gsto r) s in
  set_error 0 s.

(** Atmospheric parameters by perigee height, sgp4init.rs:287-290 and 343-358. *)
Record Atmo := MkAtmo { at_sfour : F; at_qzms24 : F }.
Definition sgp4init_atmo (rp : F) : Atmo :=
  let ss := (L 78 0) / kEARTH_RADIUS + (L 1 0) in
  let qzms2ttemp := ((L 120 0) - (L 78 0)) / kEARTH_RADIUS in
  let qzms2t := qzms2ttemp * qzms2ttemp * qzms2ttemp * qzms2ttemp in
  let sfour := ss in
  let qzms24 := qzms2t in
  let perige := (rp - (L 1 0)) * kEARTH_RADIUS in
  if perige <? (L 156 0) then
    let sfour := perige - (L 78 0) in
    let sfour := if perige <? (L 98 0) then (L 20 0) else sfour in
    let qzms24temp := ((L 120 0) - sfour) / kEARTH_RADIUS in
    let qzms24 := qzms24temp * qzms24temp * qzms24temp * qzms24temp in
    let sfour := sfour / kEARTH_RADIUS + (L 1 0) in
    MkAtmo sfour qzms24
  else MkAtmo sfour qzms24.

(** Near-earth coefficients, sgp4init.rs:338-430.  The locals read later are returned with the record. *)
Record NearOut := MkNearOut { ne_s : Satrec F; ne_tsi : F; ne_sfour : F; ne_xpidot : F }.
Definition sgp4init_near (r : InitlReturn F) (s : Satrec F) : NearOut :=
  let ao := ir_ao r in let con42 := ir_con42 r in let cosio := ir_cosio r in
  let cosio2 := ir_cosio2 r in let omeosq := ir_omeosq r in let posq := ir_posq r in
  let rp := ir_rp r in let rteosq := ir_rteosq r in let sinio := ir_sinio r in
  let s_ecco := sr_ecco s in let s_no := sr_no s in let s_bstar := sr_bstar s in
  let s_argpo := sr_argpo s in let s_mo := sr_mo s in let s_con41 := sr_con41 s in
  let s_isimp := if rp <? (L 220 0) / kEARTH_RADIUS + (L 1 0) then 1%Z else 0%Z in
  let atmo := sgp4init_atmo rp in
  let sfour := at_sfour atmo in
  let qzms24 := at_qzms24 atmo in
  let pinvsq := (L 1 0) / posq in
  let tsi := (L 1 0) / (ao - sfour) in
  let s_eta := ao * s_ecco * tsi in
  let etasq := s_eta * s_eta in
  let eeta := s_ecco * s_eta in
  let psisq := fabs ((L 1 0) - etasq) in
  let coef := qzms24 * fpowi tsi 4 in
  let coef1 := coef / fpow psisq (L 35 1) in
  let cc2 := coef1 * s_no * (ao * ((L 1 0) + (L 15 1) * etasq + eeta * ((L 4 0) + etasq)) + (L 375 3) * kJ2 * tsi / psisq * s_con41 * ((L 8 0) + (L 3 0) * etasq * ((L 8 0) + etasq))) in
  let s_cc1 := s_bstar * cc2 in
  let cc3 := (L 0 0) in
  let cc3 := if (L 1 4) <? s_ecco then (- (L 2 0)) * coef * tsi * kJ3OJ2 * s_no * sinio / s_ecco else cc3 in
  let s_x1mth2 := (L 1 0) - cosio2 in
  let s_cc4 := (L 2 0) * s_no * coef1 * ao * omeosq * (s_eta * ((L 2 0) + (L 5 1) * etasq) + s_ecco * ((L 5 1) + (L 2 0) * etasq) - kJ2 * tsi / (ao * psisq) * ((- (L 3 0)) * s_con41 * ((L 1 0) - (L 2 0) * eeta + etasq * ((L 15 1) - (L 5 1) * eeta)) + (L 75 2) * s_x1mth2 * ((L 2 0) * etasq - eeta * ((L 1 0) + etasq)) * fcos ((L 2 0) * s_argpo))) in
  let s_cc5 := (L 2 0) * coef1 * ao * omeosq * ((L 1 0) + (L 275 2) * (etasq + eeta) + eeta * etasq) in
  let cosio4 := cosio2 * cosio2 in
  let temp1 := (L 15 1) * kJ2 * pinvsq * s_no in
  let temp2 := (L 5 1) * temp1 * kJ2 * pinvsq in
  let temp3 := (- (L 46875 5)) * kJ4 * pinvsq * pinvsq * s_no in
  let s_mdot := s_no + (L 5 1) * temp1 * rteosq * s_con41 + (L 625 4) * temp2 * rteosq * ((L 13 0) - (L 78 0) * cosio2 + (L 137 0) * cosio4) in
  let s_argpdot := (- (L 5 1)) * temp1 * con42 + (L 625 4) * temp2 * ((L 7 0) - (L 114 0) * cosio2 + (L 395 0) * cosio4) + temp3 * ((L 3 0) - (L 36 0) * cosio2 + (L 49 0) * cosio4) in
  let xhdot1 := (- temp1) * cosio in
  let s_nodedot := xhdot1 + ((L 5 1) * temp2 * ((L 4 0) - (L 19 0) * cosio2) + (L 2 0) * temp3 * ((L 3 0) - (L 7 0) * cosio2)) * cosio in
  let xpidot := s_argpdot + s_nodedot in
  let s_omgcof := s_bstar * cc3 * fcos s_argpo in
  let s_xmcof := (L 0 0) in
  let s_xmcof := if (L 1 4) <? s_ecco then (- kX2O3) * coef * s_bstar / eeta else s_xmcof in
  let s_nodecf := (L 35 1) * omeosq * xhdot1 * s_cc1 in
  let s_t2cof := (L 15 1) * s_cc1 in
  let s_xlcof := if (L 15 13) <? fabs (cosio + (L 1 0))
    then (- (L 25 2)) * kJ3OJ2 * sinio * ((L 3 0) + (L 5 0) * cosio) / ((L 1 0) + cosio)
    else (- (L 25 2)) * kJ3OJ2 * sinio * ((L 3 0) + (L 5 0) * cosio) / sgp4init_TEMP4 in
  let s_aycof := (- (L 5 1)) * kJ3OJ2 * sinio in
  let delmotemp := (L 1 0) + s_eta * fcos s_mo in
  let s_delmo := delmotemp * delmotemp * delmotemp in
  let s_sinmao := fsin s_mo in
  let s_x7thm1 := (L 7 0) * cosio2 - (L 1 0) in
  let s := set_isimp s_isimp s in
  let s := set_eta s_eta s in
  let s := set_cc1 s_cc1 s in
  let s := set_x1mth2 s_x1mth2 s in
  let s := set_cc4 s_cc4 s in
  let s := set_cc5 s_cc5 s in
  let s := set_mdot s_mdot s in
  let s := set_argpdot s_argpdot s in
  let s := set_nodedot s_nodedot s in
  let s := set_omgcof s_omgcof s in
  let s := set_xmcof s_xmcof s in
  let s := set_nodecf s_nodecf s in
  let s := set_t2cof s_t2cof s in
  let s := set_xlcof s_xlcof s in
  let s := set_aycof s_aycof s in
  let s := set_delmo s_delmo s in
  let s := set_sinmao s_sinmao s in
  let s := set_x7thm1 s_x7thm1 s in
  MkNearOut s tsi sfour xpidot.

(** The [dscom] call and the copying of its result, sgp4init.rs:434-553. *)
Definition sgp4init_dscom (epoch : F) (s : Satrec F) : DscomResult F :=
  dscom (MkDscomOptions epoch (sr_ecco s) (sr_argpo s) (L 0 0) (sr_inclo s) (sr_nodeo s) (sr_no s)).
Definition sgp4init_copy_dscom (d : DscomResult F) (s : Satrec F) : Satrec F :=
  let s := set_e3 (dr_e3 d) s in
  let s := set_ee2 (dr_ee2 d) s in
  let s := set_peo (dr_peo d) s in
  let s := set_pgho (dr_pgho d) s in
  let s := set_pho (dr_pho d) s in
  let s := set_pinco (dr_pinco d) s in
  let s := set_plo (dr_plo d) s in
  let s := set_se2 (dr_se2 d) s in
  let s := set_se3 (dr_se3 d) s in
  let s := set_sgh2 (dr_sgh2 d) s in
  let s := set_sgh3 (dr_sgh3 d) s in
  let s := set_sgh4 (dr_sgh4 d) s in
  let s := set_sh2 (dr_sh2 d) s in
  let s := set_sh3 (dr_sh3 d) s in
  let s := set_si2 (dr_si2 d) s in
  let s := set_si3 (dr_si3 d) s in
  let s := set_sl2 (dr_sl2 d) s in
  let s := set_sl3 (dr_sl3 d) s in
  let s := set_sl4 (dr_sl4 d) s in
  let s := set_xgh2 (dr_xgh2 d) s in
  let s := set_xgh3 (dr_xgh3 d) s in
  let s := set_xgh4 (dr_xgh4 d) s in
  let s := set_xh2 (dr_xh2 d) s in
  let s := set_xh3 (dr_xh3 d) s in
  let s := set_xi2 (dr_xi2 d) s in
  let s := set_xi3 (dr_xi3 d) s in
  let s := set_xl2 (dr_xl2 d) s in
  let s := set_xl3 (dr_xl3 d) s in
  let s := set_xl4 (dr_xl4 d) s in
  let s := set_zmol (dr_zmol d) s in
  let s := set_zmos (dr_zmos d) s in
  s.

(** The [dpper] call, sgp4init.rs:568-585. *)
Definition sgp4init_dpper (inclm : F) (s : Satrec F) : Satrec F :=
  let p := dpper s (MkDpperOptions (sr_init s) (sr_operationmode s) inclm (sr_ecco s) (sr_inclo s)
                      (sr_nodeo s) (sr_argpo s) (sr_mo s)) in
  let s := set_ecco (pr_ep p) s in
  let s := set_inclo (pr_inclp p) s in
  let s := set_nodeo (pr_nodep p) s in
  let s := set_argpo (pr_argpp p) s in
  set_mo (pr_mp p) s.

(** The [dsinit] call, sgp4init.rs:591-695. *)
Definition sgp4init_dsinit_options (eccsq xpidot inclm : F) (d : DscomResult F) (s : Satrec F) : DsinitOptions F :=
  let tc := (L 0 0) in
  MkDsinitOptions
    (dr_cosim d) (sr_argpo s) (dr_s1 d) (dr_s2 d) (dr_s3 d) (dr_s4 d) (dr_s5 d) (dr_sinim d)
    (dr_ss1 d) (dr_ss2 d) (dr_ss3 d) (dr_ss4 d) (dr_ss5 d)
    (dr_sz1 d) (dr_sz3 d) (dr_sz11 d) (dr_sz13 d) (dr_sz21 d) (dr_sz23 d) (dr_sz31 d) (dr_sz33 d)
    (sr_t s) tc (sr_gsto s) (sr_mo s) (sr_mdot s) (sr_no s) (sr_nodeo s) (sr_nodedot s) xpidot
    (dr_z1 d) (dr_z3 d) (dr_z11 d) (dr_z13 d) (dr_z21 d) (dr_z23 d) (dr_z31 d) (dr_z33 d)
    (sr_ecco s) eccsq (dr_emsq d) (dr_em d) (L 0 0) inclm (L 0 0) (dr_nm d) (L 0 0)
    (sr_irez s) (sr_atime s) (sr_d2201 s) (sr_d2211 s) (sr_d3210 s) (sr_d3222 s)
    (sr_d4410 s) (sr_d4422 s) (sr_d5220 s) (sr_d5232 s) (sr_d5421 s) (sr_d5433 s)
    (sr_dedt s) (sr_didt s) (sr_dmdt s) (sr_dnodt s) (sr_domdt s) (sr_del1 s) (sr_del2 s)
    (sr_del3 s) (sr_xfact s) (sr_xlamo s) (sr_xli s) (sr_xni s).
Definition sgp4init_copy_dsinit (r : DinitResult F) (s : Satrec F) : Satrec F :=
  let s := set_irez (nr_irez r) s in
  let s := set_atime (nr_atime r) s in
  let s := set_d2201 (nr_d2201 r) s in
  let s := set_d2211 (nr_d2211 r) s in
  let s := set_d3210 (nr_d3210 r) s in
  let s := set_d3222 (nr_d3222 r) s in
  let s := set_d4410 (nr_d4410 r) s in
  let s := set_d4422 (nr_d4422 r) s in
  let s := set_d5220 (nr_d5220 r) s in
  let s := set_d5232 (nr_d5232 r) s in
  let s := set_d5421 (nr_d5421 r) s in
  let s := set_d5433 (nr_d5433 r) s in
  let s := set_dedt (nr_dedt r) s in
  let s := set_didt (nr_didt r) s in
  let s := set_dmdt (nr_dmdt r) s in
  let s := set_dnodt (nr_dnodt r) s in
  let s := set_domdt (nr_domdt r) s in
  let s := set_del1 (nr_del1 r) s in
  let s := set_del2 (nr_del2 r) s in
  let s := set_del3 (nr_del3 r) s in
  let s := set_xfact (nr_xfact r) s in
  let s := set_xlamo (nr_xlamo r) s in
  let s := set_xli (nr_xli r) s in
  let s := set_xni (nr_xni r) s in
  s.

(** Deep-space initialisation, sgp4init.rs:433-696. *)
Definition sgp4init_deep (epoch eccsq xpidot : F) (s : Satrec F) : Satrec F :=
  if (L 225 0) <=? kTWO_PI / sr_no s then
    let s := set_method MethodD s in
    let s := set_isimp 1 s in
    let inclm := sr_inclo s in
    let d := sgp4init_dscom epoch s in
    let s := sgp4init_copy_dscom d s in
    let s := sgp4init_dpper inclm s in
    let r := dsinit (sgp4init_dsinit_options eccsq xpidot inclm d s) in
    sgp4init_copy_dsinit r s
  else s.

(** Higher-order drag coefficients, sgp4init.rs:699-713. *)
Definition sgp4init_drag (ao tsi sfour : F) (s : Satrec F) : Satrec F :=
  if negb (Z.eqb (sr_isimp s) 1) then
    let s_cc1 := sr_cc1 s in
    let cc1sq := s_cc1 * s_cc1 in
    let s_d2 := (L 4 0) * ao * tsi * cc1sq in
    let temp := s_d2 * tsi * s_cc1 / (L 3 0) in
    let s_d3 := ((L 17 0) * ao + sfour) * temp in
    let s_d4 := (L 5 1) * temp * ao * tsi * ((L 221 0) * ao + (L 31 0) * sfour) * s_cc1 in
    let s_t3cof := s_d2 + (L 2 0) * cc1sq in
    let s_t4cof := (L 25 2) * ((L 3 0) * s_d3 + s_cc1 * ((L 12 0) * s_d2 + (L 10 0) * cc1sq)) in
    let s_t5cof := (L 2 1) * ((L 3 0) * s_d4 + (L 12 0) * s_cc1 * s_d3 + (L 6 0) * s_d2 * s_d2 + (L 15 0) * cc1sq * ((L 2 0) * s_d2 + cc1sq)) in
    let s := set_d2 s_d2 s in
    let s := set_d3 s_d3 s in
    let s := set_d4 s_d4 s in
    let s := set_t3cof s_t3cof s in
    let s := set_t4cof s_t4cof s in
    set_t5cof s_t5cof s
  else s.

(** The guarded block sgp4init.rs:337-718. *)
Definition sgp4init_elements (o : SGP4InitOptions) (satrec : Satrec F) : Satrec F :=
  let s := sgp4init_reset o satrec in
  let r := sgp4init_initl o s in
  let s := sgp4init_after_initl r s in
  if ((L 0 0) <=? ir_omeosq r) || ((L 0 0) <=? sr_no s) then
    let n := sgp4init_near r s in
    let s := sgp4init_deep (in_epoch o) (ir_eccsq r) (ne_xpidot n) (ne_s n) in
    sgp4init_drag (ir_ao r) (ne_tsi n) (ne_sfour n) s
  else s.

(** sgp4init, sgp4init.rs:104-725: [init] is set to N only when the epoch propagation succeeds. *)
Definition sgp4init (fuel : nat) (satrec : Satrec F) (o : SGP4InitOptions)
  : outcome (Satrec F * result (SGP4Result F) SGP4Error) :=
  let s := sgp4init_elements o satrec in
  do! (s, res) <- sgp4 fuel s (L 0 0);
  match res with
  | Ok r => Done (set_init InitN s, Ok r)
  | Err e => Done (s, Err e)
  end.
End Sgp4init.
Arguments SGP4InitOptions F : clear implicits.
