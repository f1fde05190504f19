(** * The exact-real instance of [FloatOps].

    Every arithmetic operation is exact, [sin], [cos], [asin], [sqrt] are the real functions.
    Differences from f64 (by design): no rounding, no NaN, infinities or signed zero.  Operations
    that would yield NaN/inf in f64 have Coq's total-function value (e.g. [x/0]); theorems about
    this instance carry the hypotheses that exclude those inputs wherever they matter. *)
From Coq Require Import ZArith Reals.
From Flocq Require Import Core.Raux.
From Verif.Model Require Import Float.
Local Open Scope R_scope.

(** [y.atan2(x)] (with +0 only). *)
Definition Ratan2 (y x : R) : R :=
  if Rlt_bool 0 x then atan (y / x)
  else if Rlt_bool x 0 then
         (if Rle_bool 0 y then atan (y / x) + PI else atan (y / x) - PI)
  else if Rlt_bool 0 y then PI / 2
  else if Rlt_bool y 0 then - (PI / 2) else 0.

(** [x.powf(y)]: for x > 0 the real power; x = 0: 1 when y = 0, else 0; x < 0: the integer power
    when y is an integer, else 0 (f64 gives NaN). *)
Definition Rpow (x y : R) : R :=
  if Rlt_bool 0 x then Rpower x y
  else if Req_bool x 0 then (if Req_bool y 0 then 1 else 0)
  else if Req_bool y (IZR (Zfloor y)) then powerRZ x (Zfloor y) else 0.

(** [x % y]: remainder of the truncated division. *)
Definition Rrem (x y : R) : R := x - y * IZR (Ztrunc (x / y)).

(** decimal literal m * 10^k *)
Definition Rlit (m k : Z) : R :=
  match k with
  | Z0 => IZR m
  | Zpos p => IZR (m * Z.pow_pos 10 p)
  | Zneg p => IZR m / IZR (Z.pow_pos 10 p)
  end.

(** f64 as u64: truncation saturating at 0 and u64::MAX. *)
Definition u64_max : Z := 18446744073709551615.
Definition clamp_u64 (z : Z) : Z := Z.max 0 (Z.min z u64_max).

#[export] Instance ROps : FloatOps R := {
  fadd := Rplus; fsub := Rminus; fmul := Rmult; fdiv := Rdiv; frem := Rrem; fneg := Ropp;
  fabs := Rabs; ffloor := fun x => IZR (Zfloor x); fsqrt := sqrt;
  fsin := sin; fcos := cos; fasin := asin; fatan2 := Ratan2; fpow := Rpow; fpowi := powerRZ;
  flt := Rlt_bool; fle := Rle_bool; feq := Req_bool;
  flit := Rlit; finf := 0; fnan := 0;
  fofZ := IZR; ftoU64 := fun x => clamp_u64 (Ztrunc x);
  fpi := PI; fpi2 := PI / 2
}.
