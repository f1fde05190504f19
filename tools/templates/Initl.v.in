(** * src/propogation/initl.rs *)
From Coq Require Import ZArith List.
From Verif.Model Require Import Float Str Satrec Constants Gstime.
Local Open Scope Z_scope.
Local Open Scope f_scope.

Section Initl.
Context {F : Type} {FO : FloatOps F}.
@@consts

(** initl.rs:55-64 *)
@@struct propogation/initl.rs 55-64 InitlOptions MkInitlOptions il_

(** initl.rs:67-83 *)
@@struct propogation/initl.rs 67-83 InitlReturn MkInitlReturn ir_

(** initl.rs:134-155: sidereal time at epoch, by operation mode. *)
Definition initl_gsto (opsmode : DpperOpsMode) (epoch : F) : F :=
  if opsmode_eqb opsmode OpsA then
    @@rs propogation/initl.rs 139-148
    if gsto <? (L 0 0) then gsto + kTWO_PI else gsto
  else gstime (epoch + (L 24332815 1)).

(** initl, initl.rs:91-177 *)
Definition initl (options : InitlOptions) : InitlReturn :=
  let ecco := il_ecco options in
  let epoch := il_epoch options in
  let inclo := il_inclo options in
  let opsmode := il_opsmode options in
  let no := il_no options in
  @@rs propogation/initl.rs 107-111
  @@rs propogation/initl.rs 114-131
  let method := MethodN in
  let gsto := initl_gsto opsmode epoch in
  @@mk propogation/initl.rs 67-83 MkInitlReturn
.
End Initl.
Arguments InitlOptions F : clear implicits.
Arguments InitlReturn F : clear implicits.
