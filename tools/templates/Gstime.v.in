(** * src/propogation/gstime.rs *)
From Coq Require Import ZArith.
From Verif.Model Require Import Float Constants.
Local Open Scope Z_scope.
Local Open Scope f_scope.

Section Gstime.
Context {F : Type} {FO : FloatOps F}.
@@consts

(** gstime, gstime.rs:6-21 *)
Definition gstime (jdut1 : F) : F :=
  @@rs propogation/gstime.rs 7-13
  (* gstime.rs:16-18 *)
  if temp <? (L 0 0) then temp + kTWO_PI else temp.
End Gstime.
