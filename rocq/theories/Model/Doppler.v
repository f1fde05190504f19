(** * src/doppler_factor.rs *)
From Coq Require Import ZArith.
From Verif.Model Require Import Float Constants Vec3.
Local Open Scope Z_scope.
Local Open Scope f_scope.

Section Doppler.
Context {F : Type} {FO : FloatOps F}.

(** sign, doppler_factor.rs:4-10 *)
Definition sign (val : F) : F := if (L 0 0) <=? val then (L 1 0) else (- (L 1 0)).

(** doppler_factor, doppler_factor.rs:12-25 *)
Definition doppler_factor (location position velocity : Vec3 F) : F :=
  let current_range := vrange position location in
  let next_pos := vadd position velocity in
  let next_range := vrange next_pos location in
  let range_rate := next_range - current_range in
  let range_rate := range_rate * sign range_rate in
  (L 1 0) + range_rate / kC.
End Doppler.
