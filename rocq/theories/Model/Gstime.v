(** * src/propogation/gstime.rs *)
From Coq Require Import ZArith.
From Verif.Model Require Import Float Constants.
Local Open Scope Z_scope.
Local Open Scope f_scope.

Section Gstime.
Context {F : Type} {FO : FloatOps F}.

(** gstime, gstime.rs:6-21 *)
Definition gstime (jdut1 : F) : F :=
  let tut1 := (jdut1 - (L 2451545 0)) / (L 36525 0) in
  let temp := (- (L 62 7)) * tut1 * tut1 * tut1 + (L 93104 6) * tut1 * tut1 + ((L 876600 0) * (L 3600 0) + (L 8640184812866 6)) * tut1 + (L 6731054841 5) in
  let temp := temp * kDEG_2_RAD / (L 240 0) %% kTWO_PI in
  (* gstime.rs:16-18 *)
  if temp <? (L 0 0) then temp + kTWO_PI else temp.
End Gstime.
