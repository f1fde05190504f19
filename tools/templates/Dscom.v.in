(** * src/propogation/dscom.rs: lunar and solar terms *)
From Coq Require Import ZArith.
From Verif.Model Require Import Float Constants.
Local Open Scope Z_scope.
Local Open Scope f_scope.

Section Dscom.
Context {F : Type} {FO : FloatOps F}.
@@consts

(** dscom.rs:3-11 *)
@@struct propogation/dscom.rs 3-11 DscomOptions MkDscomOptions co_

(** dscom.rs:13-95 *)
@@struct propogation/dscom.rs 13-95 DscomResult MkDscomResult dr_

(** dscom.rs:230-237 *)
@@const propogation/dscom.rs 230-237 dscom_

(** Loop-carried inputs of one pass of the [while lsflg < 2] loop. *)
Record DscomBody := MkDscomBody {
  db_zcosg : F; db_zsing : F; db_zcosi : F; db_zsini : F; db_zcosh : F; db_zsinh : F; db_cc : F }.

(** Values assigned by one pass that are read after it. *)
Record DscomPass := MkDscomPass {
  dp_s1 : F; dp_s2 : F; dp_s3 : F; dp_s4 : F; dp_s5 : F; dp_s6 : F; dp_s7 : F;
  dp_z1 : F; dp_z2 : F; dp_z3 : F;
  dp_z11 : F; dp_z12 : F; dp_z13 : F; dp_z21 : F; dp_z22 : F; dp_z23 : F;
  dp_z31 : F; dp_z32 : F; dp_z33 : F }.

(** One pass of the loop, dscom.rs:287-335. *)
Definition dscom_pass (sinim cosim sinomm cosomm em emsq betasq rtemsq xnoi : F) (b : DscomBody) : DscomPass :=
  let zcosg := db_zcosg b in let zsing := db_zsing b in
  let zcosi := db_zcosi b in let zsini := db_zsini b in
  let zcosh := db_zcosh b in let zsinh := db_zsinh b in
  let cc := db_cc b in
  @@rs propogation/dscom.rs 287-335
  MkDscomPass s1 s2 s3 s4 s5 s6 s7 z1 z2 z3 z11 z12 z13 z21 z22 z23 z31 z32 z33.

(** The lunar orbit at epoch: dscom.rs:258-272.  Result: day, xnodce, zcosil, zsinil, zsinhl, zcoshl,
    gam, zcosgl, zsingl. *)
Record DscomLunar := MkDscomLunar {
  dl_day : F; dl_zcosil : F; dl_zsinil : F; dl_zsinhl : F; dl_zcoshl : F;
  dl_gam : F; dl_zcosgl : F; dl_zsingl : F }.
@@proj options=co_:options
Definition dscom_lunar (options : DscomOptions) : DscomLunar :=
  @@rs propogation/dscom.rs 258-272
  MkDscomLunar day zcosil zsinil zsinhl zcoshl gam zcosgl zsingl.

(** dscom, dscom.rs:164-498.  The loop runs exactly twice (lsflg = 1: solar, 2: lunar). *)
Definition dscom (options : DscomOptions) : DscomResult :=
  @@rs propogation/dscom.rs 240-257
  let lu := dscom_lunar options in
  let day := dl_day lu in let gam := dl_gam lu in
  let zcosil := dl_zcosil lu in let zsinil := dl_zsinil lu in
  let zsinhl := dl_zsinhl lu in let zcoshl := dl_zcoshl lu in
  let zcosgl := dl_zcosgl lu in let zsingl := dl_zsingl lu in
  @@rs propogation/dscom.rs 275-282
  (* first pass: dscom.rs:285-335, results saved at 339-357 *)
  let ps := dscom_pass sinim cosim sinomm cosomm em emsq betasq rtemsq xnoi
              (MkDscomBody zcosg zsing zcosi zsini zcosh zsinh cc) in
  let ss1 := dp_s1 ps in let ss2 := dp_s2 ps in let ss3 := dp_s3 ps in let ss4 := dp_s4 ps in
  let ss5 := dp_s5 ps in let ss6 := dp_s6 ps in let ss7 := dp_s7 ps in
  let sz1 := dp_z1 ps in let sz2 := dp_z2 ps in let sz3 := dp_z3 ps in
  let sz11 := dp_z11 ps in let sz12 := dp_z12 ps in let sz13 := dp_z13 ps in
  let sz21 := dp_z21 ps in let sz22 := dp_z22 ps in let sz23 := dp_z23 ps in
  let sz31 := dp_z31 ps in let sz32 := dp_z32 ps in let sz33 := dp_z33 ps in
  @@rs propogation/dscom.rs 358-364
  (* second pass *)
  let pl := dscom_pass sinim cosim sinomm cosomm em emsq betasq rtemsq xnoi
              (MkDscomBody zcosg zsing zcosi zsini zcosh zsinh cc) in
  let s1 := dp_s1 pl in let s2 := dp_s2 pl in let s3 := dp_s3 pl in let s4 := dp_s4 pl in
  let s5 := dp_s5 pl in let s6 := dp_s6 pl in let s7 := dp_s7 pl in
  let z1 := dp_z1 pl in let z2 := dp_z2 pl in let z3 := dp_z3 pl in
  let z11 := dp_z11 pl in let z12 := dp_z12 pl in let z13 := dp_z13 pl in
  let z21 := dp_z21 pl in let z22 := dp_z22 pl in let z23 := dp_z23 pl in
  let z31 := dp_z31 pl in let z32 := dp_z32 pl in let z33 := dp_z33 pl in
  @@rs propogation/dscom.rs 368-397
  @@mk propogation/dscom.rs 13-95 MkDscomResult
.
End Dscom.
Arguments DscomOptions F : clear implicits.
Arguments DscomResult F : clear implicits.
