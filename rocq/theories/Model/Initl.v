(** * src/propogation/initl.rs *)
From Coq Require Import ZArith List.
From Verif.Model Require Import Float Str Satrec Constants Gstime.
Local Open Scope Z_scope.
Local Open Scope f_scope.

Section Initl.
Context {F : Type} {FO : FloatOps F}.

(** initl.rs:55-64 *)
Record InitlOptions := MkInitlOptions {
  il_opsmode : DpperOpsMode;
  il_method : InitlMethod;
  il_satn : str;
  il_ecco : F;
  il_epoch : F;
  il_inclo : F;
  il_no : F
}.

(** initl.rs:67-83 *)
Record InitlReturn := MkInitlReturn {
  ir_no : F;
  ir_method : InitlMethod;
  ir_ainv : F;
  ir_ao : F;
  ir_con41 : F;
  ir_con42 : F;
  ir_cosio : F;
  ir_cosio2 : F;
  ir_eccsq : F;
  ir_omeosq : F;
  ir_posq : F;
  ir_rp : F;
  ir_rteosq : F;
  ir_sinio : F;
  ir_gsto : F
}.

(** initl.rs:134-155: sidereal time at epoch, by operation mode. *)
Definition initl_gsto (opsmode : DpperOpsMode) (epoch : F) : F :=
  if opsmode_eqb opsmode OpsA then
    let ts70 := epoch - (L 7305 0) in
    let ds70 := ffloor (ts70 + (L 1 8)) in
    let tfrac := ts70 - ds70 in
    let c1 := (L 172027916940703639 19) in
    let thgr70 := (L 17321343856509374 16) in
    let fk5r := (L 507551419432269442 32) in
    let c1p2p := c1 + kTWO_PI in
    let gsto := (thgr70 + c1 * ds70 + c1p2p * tfrac + ts70 * ts70 * fk5r) %% kTWO_PI in
    if gsto <? (L 0 0) then gsto + kTWO_PI else gsto
  else gstime (epoch + (L 24332815 1)).

(** initl, initl.rs:91-177 *)
Definition initl (options : InitlOptions) : InitlReturn :=
  let ecco := il_ecco options in
  let epoch := il_epoch options in
  let inclo := il_inclo options in
  let opsmode := il_opsmode options in
  let no := il_no options in
  let eccsq := ecco * ecco in
  let omeosq := (L 1 0) - eccsq in
  let rteosq := fsqrt omeosq in
  let cosio := fcos inclo in
  let cosio2 := cosio * cosio in
  let ak := fpow (kXKE / no) kX2O3 in
  let d1 := (L 75 2) * kJ2 * ((L 3 0) * cosio2 - (L 1 0)) / (rteosq * omeosq) in
  let del_prime := d1 / (ak * ak) in
  let adel := ak * ((L 1 0) - del_prime * del_prime - del_prime * ((L 1 0) / (L 3 0) + (L 134 0) * del_prime * del_prime / (L 81 0))) in
  let del_prime := d1 / (adel * adel) in
  let no := no / ((L 1 0) + del_prime) in
  let ao := fpow (kXKE / no) kX2O3 in
  let sinio := fsin inclo in
  let po := ao * omeosq in
  let con42 := (L 1 0) - (L 5 0) * cosio2 in
  let con41 := (- con42) - cosio2 - cosio2 in
  let ainv := (L 1 0) / ao in
  let posq := po * po in
  let rp := ao * ((L 1 0) - ecco) in
  let method := MethodN in
  let gsto := initl_gsto opsmode epoch in
  MkInitlReturn
    no method ainv ao con41 con42 cosio cosio2 eccsq omeosq posq rp rteosq sinio gsto
.
End Initl.
Arguments InitlOptions F : clear implicits.
Arguments InitlReturn F : clear implicits.
