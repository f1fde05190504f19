(** * How accurate a mathematical library has to be

    The code calls sin, cos, asin, atan2, powf and powi of the platform.  Most theorems hold whatever these
    return.  The accuracy theorems need them to be close to the functions they are named after: a few units
    in the last place, far weaker than what the usual libraries give. *)
From Coq Require Import ZArith Reals.
From Flocq Require Import Core.Raux IEEE754.BinarySingleNaN.
From Verif.Inst Require Import RInst B64.
Local Open Scope R_scope.

Notation val x := (@B2R prec emax x).
Notation finite x := (@is_finite prec emax x = true).

Record accurate (lm : libm) : Prop := {
  (** sine and cosine of any finite number, within 2^-52 *)
  acc_sin : forall x, finite x -> finite (lm_sin lm x) /\ Rabs (val (lm_sin lm x) - sin (val x)) <= / 2 ^ 52;
  acc_cos : forall x, finite x -> finite (lm_cos lm x) /\ Rabs (val (lm_cos lm x) - cos (val x)) <= / 2 ^ 52;
  (** arc sine on [-1, 1], within 2^-51 *)
  acc_asin : forall x, finite x -> Rabs (val x) <= 1 ->
    finite (lm_asin lm x) /\ Rabs (val (lm_asin lm x) - asin (val x)) <= / 2 ^ 51;
  (** atan2 away from the origin, within 2^-50; on the cut (y = 0, x < 0) either of pi and -pi *)
  acc_atan2 : forall y x, finite y -> finite x -> (val y <> 0 \/ val x <> 0) ->
    finite (lm_atan2 lm y x) /\
    (Rabs (val (lm_atan2 lm y x) - Ratan2 (val y) (val x)) <= / 2 ^ 50 \/
     val y = 0 /\ val x < 0 /\ Rabs (val (lm_atan2 lm y x) + PI) <= / 2 ^ 50);
  (** powers of a positive number, and positive whole powers of any number, within 2^-51 of their size
      (plus 2^-200), unless they are huge *)
  acc_pow : forall x y, finite x -> finite y -> (0 < val x \/ exists n : nat, (0 < n)%nat /\ val y = INR n) ->
    Rabs (Rpow (val x) (val y)) <= 2 ^ 1000 ->
    finite (lm_pow lm x y) /\
    Rabs (val (lm_pow lm x y) - Rpow (val x) (val y)) <= Rabs (Rpow (val x) (val y)) / 2 ^ 51 + / 2 ^ 200;
  (** small positive whole powers, within 2^-50 of their size *)
  acc_powi : forall x (n : nat), finite x -> (0 < n <= 8)%nat -> Rabs (val x ^ n) <= 2 ^ 1000 ->
    finite (lm_powi lm x (Z.of_nat n)) /\
    Rabs (val (lm_powi lm x (Z.of_nat n)) - val x ^ n) <= Rabs (val x ^ n) / 2 ^ 50 + / 2 ^ 200
}.
