(** * src/propogation/dscom.rs: lunar and solar terms *)
From Coq Require Import ZArith.
From Verif.Model Require Import Float Constants.
Local Open Scope Z_scope.
Local Open Scope f_scope.

Section Dscom.
Context {F : Type} {FO : FloatOps F}.

(** dscom.rs:3-11 *)
Record DscomOptions := MkDscomOptions {
  co_epoch : F;
  co_ep : F;
  co_argpp : F;
  co_tc : F;
  co_inclp : F;
  co_nodep : F;
  co_np : F
}.

(** dscom.rs:13-95 *)
Record DscomResult := MkDscomResult {
  dr_snodm : F;
  dr_cnodm : F;
  dr_sinim : F;
  dr_cosim : F;
  dr_sinomm : F;
  dr_cosomm : F;
  dr_day : F;
  dr_e3 : F;
  dr_ee2 : F;
  dr_em : F;
  dr_emsq : F;
  dr_gam : F;
  dr_peo : F;
  dr_pgho : F;
  dr_pho : F;
  dr_pinco : F;
  dr_plo : F;
  dr_rtemsq : F;
  dr_se2 : F;
  dr_se3 : F;
  dr_sgh2 : F;
  dr_sgh3 : F;
  dr_sgh4 : F;
  dr_sh2 : F;
  dr_sh3 : F;
  dr_si2 : F;
  dr_si3 : F;
  dr_sl2 : F;
  dr_sl3 : F;
  dr_sl4 : F;
  dr_s1 : F;
  dr_s2 : F;
  dr_s3 : F;
  dr_s4 : F;
  dr_s5 : F;
  dr_s6 : F;
  dr_s7 : F;
  dr_ss1 : F;
  dr_ss2 : F;
  dr_ss3 : F;
  dr_ss4 : F;
  dr_ss5 : F;
  dr_ss6 : F;
  dr_ss7 : F;
  dr_sz1 : F;
  dr_sz2 : F;
  dr_sz3 : F;
  dr_sz11 : F;
  dr_sz12 : F;
  dr_sz13 : F;
  dr_sz21 : F;
  dr_sz22 : F;
  dr_sz23 : F;
  dr_sz31 : F;
  dr_sz32 : F;
  dr_sz33 : F;
  dr_xgh2 : F;
  dr_xgh3 : F;
  dr_xgh4 : F;
  dr_xh2 : F;
  dr_xh3 : F;
  dr_xi2 : F;
  dr_xi3 : F;
  dr_xl2 : F;
  dr_xl3 : F;
  dr_xl4 : F;
  dr_nm : F;
  dr_z1 : F;
  dr_z2 : F;
  dr_z3 : F;
  dr_z11 : F;
  dr_z12 : F;
  dr_z13 : F;
  dr_z21 : F;
  dr_z22 : F;
  dr_z23 : F;
  dr_z31 : F;
  dr_z32 : F;
  dr_z33 : F;
  dr_zmol : F;
  dr_zmos : F
}.

(** dscom.rs:230-237 *)
Definition dscom_ZES : F := (L 1675 5). (* propogation/dscom.rs:230 *)
Definition dscom_ZEL : F := (L 549 4). (* propogation/dscom.rs:231 *)
Definition dscom_C1SS : F := (L 29864797 13). (* propogation/dscom.rs:232 *)
Definition dscom_C1L : F := (L 47968065 14). (* propogation/dscom.rs:233 *)
Definition dscom_ZSINIS : F := (L 39785416 8). (* propogation/dscom.rs:234 *)
Definition dscom_ZCOSIS : F := (L 91744867 8). (* propogation/dscom.rs:235 *)
Definition dscom_ZCOSGS : F := (L 1945905 7). (* propogation/dscom.rs:236 *)
Definition dscom_ZSINGS : F := (- (L 98088458 8)). (* propogation/dscom.rs:237 *)

(** Loop-carried inputs of one pass of the [while lsflg < 2] loop. *)
Record DscomBody := MkDscomBody {
  db_zcosg : F; db_zsing : F; db_zcosi : F; db_zsini : F; db_zcosh : F; db_zsinh : F; db_cc : F }.

(** Values assigned by one pass that are read after it. *)
Record DscomPass := MkDscomPass {
  dp_s1 : F; dp_s2 : F; dp_s3 : F; dp_s4 : F; dp_s5 : F; dp_s6 : F; dp_s7 : F;
  dp_z1 : F; dp_z2 : F; dp_z3 : F;
  dp_z11 : F; dp_z12 : F; dp_z13 : F; dp_z21 : F; dp_z22 : F; dp_z23 : F;
  dp_z31 : F; dp_z32 : F; dp_z33 : F }.

(** One pass of the loop, dscom.rs:287-335. *)
Definition dscom_pass (sinim cosim sinomm cosomm em emsq betasq rtemsq xnoi : F) (b : DscomBody) : DscomPass :=
  let zcosg := db_zcosg b in let zsing := db_zsing b in
  let zcosi := db_zcosi b in let zsini := db_zsini b in
  let zcosh := db_zcosh b in let zsinh := db_zsinh b in
  let cc := db_cc b in
  let a1 := zcosg * zcosh + zsing * zcosi * zsinh in
  let a3 := (- zsing) * zcosh + zcosg * zcosi * zsinh in
  let a7 := (- zcosg) * zsinh + zsing * zcosi * zcosh in
  let a8 := zsing * zsini in
  let a9 := zsing * zsinh + zcosg * zcosi * zcosh in
  let a10 := zcosg * zsini in
  let a2 := cosim * a7 + sinim * a8 in
  let a4 := cosim * a9 + sinim * a10 in
  let a5 := (- sinim) * a7 + cosim * a8 in
  let a6 := (- sinim) * a9 + cosim * a10 in
  let x1 := a1 * cosomm + a2 * sinomm in
  let x2 := a3 * cosomm + a4 * sinomm in
  let x3 := (- a1) * sinomm + a2 * cosomm in
  let x4 := (- a3) * sinomm + a4 * cosomm in
  let x5 := a5 * sinomm in
  let x6 := a6 * sinomm in
  let x7 := a5 * cosomm in
  let x8 := a6 * cosomm in
  let z31 := (L 12 0) * x1 * x1 - (L 3 0) * x3 * x3 in
  let z32 := (L 24 0) * x1 * x2 - (L 6 0) * x3 * x4 in
  let z33 := (L 12 0) * x2 * x2 - (L 3 0) * x4 * x4 in
  let z1 := (L 3 0) * (a1 * a1 + a2 * a2) + z31 * emsq in
  let z2 := (L 6 0) * (a1 * a3 + a2 * a4) + z32 * emsq in
  let z3 := (L 3 0) * (a3 * a3 + a4 * a4) + z33 * emsq in
  let z11 := (- (L 6 0)) * a1 * a5 + emsq * ((- (L 24 0)) * x1 * x7 - (L 6 0) * x3 * x5) in
  let z12 := (- (L 6 0)) * (a1 * a6 + a3 * a5) + emsq * ((- (L 24 0)) * (x2 * x7 + x1 * x8) + (- (L 6 0)) * (x3 * x6 + x4 * x5)) in
  let z13 := (- (L 6 0)) * a3 * a6 + emsq * ((- (L 24 0)) * x2 * x8 - (L 6 0) * x4 * x6) in
  let z21 := (L 6 0) * a2 * a5 + emsq * ((L 24 0) * x1 * x5 - (L 6 0) * x3 * x7) in
  let z22 := (L 6 0) * (a4 * a5 + a2 * a6) + emsq * ((L 24 0) * (x2 * x5 + x1 * x6) - (L 6 0) * (x4 * x7 + x3 * x8)) in
  let z23 := (L 6 0) * a4 * a6 + emsq * ((L 24 0) * x2 * x6 - (L 6 0) * x4 * x8) in
  let z1 := z1 + z1 + betasq * z31 in
  let z2 := z2 + z2 + betasq * z32 in
  let z3 := z3 + z3 + betasq * z33 in
  let s3 := cc * xnoi in
  let s2 := (- (L 5 1)) * s3 / rtemsq in
  let s4 := s3 * rtemsq in
  let s1 := (- (L 15 0)) * em * s4 in
  let s5 := x1 * x3 + x2 * x4 in
  let s6 := x2 * x3 + x1 * x4 in
  let s7 := x2 * x4 - x1 * x3 in
  MkDscomPass s1 s2 s3 s4 s5 s6 s7 z1 z2 z3 z11 z12 z13 z21 z22 z23 z31 z32 z33.

(** The lunar orbit at epoch: dscom.rs:258-272.  Result: day, xnodce, zcosil, zsinil, zsinhl, zcoshl,
    gam, zcosgl, zsingl. *)
Record DscomLunar := MkDscomLunar {
  dl_day : F; dl_zcosil : F; dl_zsinil : F; dl_zsinhl : F; dl_zcoshl : F;
  dl_gam : F; dl_zcosgl : F; dl_zsingl : F }.
Definition dscom_lunar (options : DscomOptions) : DscomLunar :=
  let day := co_epoch options + (L 182615 1) + co_tc options / (L 1440 0) in
  let xnodce := ((L 4523602 6) - (L 92422029 11) * day) %% kTWO_PI in
  let stem := fsin xnodce in
  let ctem := fcos xnodce in
  let zcosil := (L 91375164 8) - (L 3568096 8) * ctem in
  let zsinil := fsqrt ((L 1 0) - zcosil * zcosil) in
  let zsinhl := (L 89683511 9) * stem / zsinil in
  let zcoshl := fsqrt ((L 1 0) - zsinhl * zsinhl) in
  let gam := (L 58351514 7) + (L 1944368 9) * day in
  let zx := (L 39785416 8) * stem / zsinil in
  let zy := zcoshl * ctem + (L 91744867 8) * zsinhl * stem in
  let zx := fatan2 zx zy in
  let zx := zx + (gam - xnodce) in
  let zcosgl := fcos zx in
  let zsingl := fsin zx in
  MkDscomLunar day zcosil zsinil zsinhl zcoshl gam zcosgl zsingl.

(** dscom, dscom.rs:164-498.  The loop runs exactly twice (lsflg = 1: solar, 2: lunar). *)
Definition dscom (options : DscomOptions) : DscomResult :=
  let nm := co_np options in
  let em := co_ep options in
  let snodm := fsin (co_nodep options) in
  let cnodm := fcos (co_nodep options) in
  let sinomm := fsin (co_argpp options) in
  let cosomm := fcos (co_argpp options) in
  let sinim := fsin (co_inclp options) in
  let cosim := fcos (co_inclp options) in
  let emsq := fpowi em 2 in
  let betasq := (L 1 0) - emsq in
  let rtemsq := fsqrt betasq in
  let peo := (L 0 0) in
  let pinco := (L 0 0) in
  let plo := (L 0 0) in
  let pgho := (L 0 0) in
  let pho := (L 0 0) in
  let lu := dscom_lunar options in
  let day := dl_day lu in let gam := dl_gam lu in
  let zcosil := dl_zcosil lu in let zsinil := dl_zsinil lu in
  let zsinhl := dl_zsinhl lu in let zcoshl := dl_zcoshl lu in
  let zcosgl := dl_zcosgl lu in let zsingl := dl_zsingl lu in
  let zcosg := dscom_ZCOSGS in
  let zsing := dscom_ZSINGS in
  let zcosi := dscom_ZCOSIS in
  let zsini := dscom_ZSINIS in
  let zcosh := cnodm in
  let zsinh := snodm in
  let cc := dscom_C1SS in
  let xnoi := (L 1 0) / nm in
  (* first pass: dscom.rs:285-335, results saved at 339-357 *)
  let ps := dscom_pass sinim cosim sinomm cosomm em emsq betasq rtemsq xnoi
              (MkDscomBody zcosg zsing zcosi zsini zcosh zsinh cc) in
  let ss1 := dp_s1 ps in let ss2 := dp_s2 ps in let ss3 := dp_s3 ps in let ss4 := dp_s4 ps in
  let ss5 := dp_s5 ps in let ss6 := dp_s6 ps in let ss7 := dp_s7 ps in
  let sz1 := dp_z1 ps in let sz2 := dp_z2 ps in let sz3 := dp_z3 ps in
  let sz11 := dp_z11 ps in let sz12 := dp_z12 ps in let sz13 := dp_z13 ps in
  let sz21 := dp_z21 ps in let sz22 := dp_z22 ps in let sz23 := dp_z23 ps in
  let sz31 := dp_z31 ps in let sz32 := dp_z32 ps in let sz33 := dp_z33 ps in
  let zcosg := zcosgl in
  let zsing := zsingl in
  let zcosi := zcosil in
  let zsini := zsinil in
  let zcosh := zcoshl * cnodm + zsinhl * snodm in
  let zsinh := snodm * zcoshl - cnodm * zsinhl in
  let cc := dscom_C1L in
  (* second pass *)
  let pl := dscom_pass sinim cosim sinomm cosomm em emsq betasq rtemsq xnoi
              (MkDscomBody zcosg zsing zcosi zsini zcosh zsinh cc) in
  let s1 := dp_s1 pl in let s2 := dp_s2 pl in let s3 := dp_s3 pl in let s4 := dp_s4 pl in
  let s5 := dp_s5 pl in let s6 := dp_s6 pl in let s7 := dp_s7 pl in
  let z1 := dp_z1 pl in let z2 := dp_z2 pl in let z3 := dp_z3 pl in
  let z11 := dp_z11 pl in let z12 := dp_z12 pl in let z13 := dp_z13 pl in
  let z21 := dp_z21 pl in let z22 := dp_z22 pl in let z23 := dp_z23 pl in
  let z31 := dp_z31 pl in let z32 := dp_z32 pl in let z33 := dp_z33 pl in
  let zmol := ((L 47199672 7) + ((L 2299715 7) * day - gam)) %% kTWO_PI in
  let zmos := ((L 62565837 7) + (L 17201977 9) * day) %% kTWO_PI in
  let se2 := (L 2 0) * ss1 * ss6 in
  let se3 := (L 2 0) * ss1 * ss7 in
  let si2 := (L 2 0) * ss2 * sz12 in
  let si3 := (L 2 0) * ss2 * (sz13 - sz11) in
  let sl2 := (- (L 2 0)) * ss3 * sz2 in
  let sl3 := (- (L 2 0)) * ss3 * (sz3 - sz1) in
  let sl4 := (- (L 2 0)) * ss3 * ((- (L 21 0)) - (L 9 0) * emsq) * dscom_ZES in
  let sgh2 := (L 2 0) * ss4 * sz32 in
  let sgh3 := (L 2 0) * ss4 * (sz33 - sz31) in
  let sgh4 := (- (L 18 0)) * ss4 * dscom_ZES in
  let sh2 := (- (L 2 0)) * ss2 * sz22 in
  let sh3 := (- (L 2 0)) * ss2 * (sz23 - sz21) in
  let ee2 := (L 2 0) * s1 * s6 in
  let e3 := (L 2 0) * s1 * s7 in
  let xi2 := (L 2 0) * s2 * z12 in
  let xi3 := (L 2 0) * s2 * (z13 - z11) in
  let xl2 := (- (L 2 0)) * s3 * z2 in
  let xl3 := (- (L 2 0)) * s3 * (z3 - z1) in
  let xl4 := (- (L 2 0)) * s3 * ((- (L 21 0)) - (L 9 0) * emsq) * dscom_ZEL in
  let xgh2 := (L 2 0) * s4 * z32 in
  let xgh3 := (L 2 0) * s4 * (z33 - z31) in
  let xgh4 := (- (L 18 0)) * s4 * dscom_ZEL in
  let xh2 := (- (L 2 0)) * s2 * z22 in
  let xh3 := (- (L 2 0)) * s2 * (z23 - z21) in
  MkDscomResult
    snodm cnodm sinim cosim sinomm cosomm day e3 ee2 em emsq gam peo pgho pho pinco plo rtemsq se2 se3 sgh2 sgh3 sgh4 sh2 sh3 si2 si3 sl2 sl3 sl4 s1 s2 s3 s4 s5 s6 s7 ss1 ss2 ss3 ss4 ss5 ss6 ss7 sz1 sz2 sz3 sz11 sz12 sz13 sz21 sz22 sz23 sz31 sz32 sz33 xgh2 xgh3 xgh4 xh2 xh3 xi2 xi3 xl2 xl3 xl4 nm z1 z2 z3 z11 z12 z13 z21 z22 z23 z31 z32 z33 zmol zmos
.
End Dscom.
Arguments DscomOptions F : clear implicits.
Arguments DscomResult F : clear implicits.
