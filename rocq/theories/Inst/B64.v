(** * The IEEE-754 binary64 instance of [FloatOps].

    Basic operations are Flocq's (axiom-free definitions, round to nearest even, a single NaN); the
    libm functions are an arbitrary record, so theorems hold for any implementation of them. *)
From Coq Require Import ZArith Reals Bool Floats.SpecFloat.
From Flocq Require Import Core IEEE754.BinarySingleNaN.
From Verif.Model Require Import Float.
Local Open Scope Z_scope.

Definition prec := 53.
Definition emax := 1024.
#[export] Instance Hprec : Prec_gt_0 prec := eq_refl.
#[export] Instance Hemax : Prec_lt_emax prec emax := eq_refl.
Definition b64 := binary_float prec emax.

(** What the code calls from libm (and LLVM's powi): no accuracy is assumed. *)
Record libm := MkLibm {
  lm_sin : b64 -> b64; lm_cos : b64 -> b64; lm_asin : b64 -> b64;
  lm_atan2 : b64 -> b64 -> b64; lm_pow : b64 -> b64 -> b64; lm_powi : b64 -> Z -> b64 }.

(** integer times a power of two, rounded to nearest even (the only rounding used below) *)
Definition b64_norm (m e : Z) : b64 := binary_normalize prec emax Hprec Hemax mode_NE m e false.

(** quotient of two positive integers, correctly rounded *)
Definition b64_quot (m d : positive) : b64 :=
  SF2B _ (proj1 (Bdiv_correct_aux prec emax Hprec Hemax mode_NE false m 0 false d 0)).

(** the f64 nearest to m * 10^k *)
Definition b64_lit (m k : Z) : b64 :=
  match k with
  | Z0 => b64_norm m 0
  | Zpos p => b64_norm (m * Z.pow_pos 10 p) 0
  | Zneg p =>
      match m with
      | Z0 => B754_zero false
      | Zpos q => b64_quot q (10 ^ p)
      | Zneg q => Bopp (b64_quot q (10 ^ p))
      end
  end.

(** [x % y] (C fmod): exact; the sign of a zero result is that of x. *)
Definition b64_rem (x y : b64) : b64 :=
  match x, y with
  | B754_nan, _ | _, B754_nan | B754_infinity _, _ | _, B754_zero _ => B754_nan
  | B754_zero _, _ | _, B754_infinity _ => x
  | B754_finite sx mx ex _, B754_finite sy my ey _ =>
      let e := Z.min ex ey in
      let r := Z.rem (Zpos mx * 2 ^ (ex - e)) (Zpos my * 2 ^ (ey - e)) in
      binary_normalize prec emax Hprec Hemax mode_NE (cond_Zopp sx r) e sx
  end.

(** f64 as u64: truncation saturating at 0 and u64::MAX; NaN -> 0. *)
Definition b64_toU64 (x : b64) : Z :=
  match x with
  | B754_nan => 0
  | B754_infinity true => 0
  | B754_infinity false => 18446744073709551615
  | _ => Z.max 0 (Z.min (Btrunc x) 18446744073709551615)
  end.

#[export] Instance B64Ops (lm : libm) : FloatOps b64 := {
  fadd := Bplus mode_NE; fsub := Bminus mode_NE; fmul := Bmult mode_NE; fdiv := Bdiv mode_NE;
  frem := b64_rem; fneg := Bopp; fabs := Babs; ffloor := Bnearbyint mode_DN; fsqrt := Bsqrt mode_NE;
  fsin := lm_sin lm; fcos := lm_cos lm; fasin := lm_asin lm; fatan2 := lm_atan2 lm;
  fpow := lm_pow lm; fpowi := lm_powi lm;
  flt := Bltb; fle := Bleb; feq := Beqb;
  flit := b64_lit; finf := B754_infinity false; fnan := B754_nan;
  fofZ := fun z => b64_norm z 0; ftoU64 := b64_toU64;
  fpi := b64_lit 314159265358979323846264338327950288 (-35);
  fpi2 := b64_lit 157079632679489661923132169163975144 (-35)
}.
