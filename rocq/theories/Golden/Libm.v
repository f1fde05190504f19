(** * A concrete libm for evaluation

    An executable [libm] used only by examples and by the tests that replay the repository's unit-test
    vectors; no theorem about all inputs refers to it.  Functions are computed in 120-bit fixed point
    and rounded once. *)
From Coq Require Import ZArith List Bool Floats.SpecFloat.
From Flocq Require Import Core IEEE754.BinarySingleNaN.
From Verif.Model Require Import Float.
From Verif.Inst Require Import B64.
Local Open Scope Z_scope.

Definition P := 120.
Definition one_fx := Z.shiftl 1 P.
Definition pi_fx := 4175892906503776358826876457663557747.
Definition ln2_fx := 921350637599661305226344307672478454.
Definition mulx (a b : Z) := Z.shiftr (a * b) P.
Definition divx (a b : Z) := Z.shiftl a P / b.
Definition sqrtx (a : Z) := Z.sqrt (Z.shiftl a P).

Definition tofx (x : b64) : Z :=
  match x with B754_finite s m e _ => Z.shiftl (cond_Zopp s (Zpos m)) (e + P) | _ => 0 end.
Definition offx (z : Z) : b64 := b64_norm z (- P).

(** 1 - x2/(a(a+1)) * (1 - x2/((a+2)(a+3)) * ...) *)
Fixpoint trig_horner (n : nat) (a x2 : Z) : Z :=
  match n with
  | O => one_fx
  | S n' => one_fx - mulx x2 (trig_horner n' (a + 2) x2) / (a * (a + 1))
  end.
Definition reduce (x : Z) : Z := x - 2 * pi_fx * ((x + pi_fx) / (2 * pi_fx)).
Definition sin_fx (x : Z) : Z := let r := reduce x in mulx r (trig_horner 24 2 (mulx r r)).
Definition cos_fx (x : Z) : Z := let r := reduce x in trig_horner 24 1 (mulx r r).

(** sum of sg^k x2^k/(2k+1) *)
Fixpoint atan_horner (sg : Z) (n : nat) (a x2 : Z) : Z :=
  match n with
  | O => one_fx / a
  | S n' => one_fx / a + sg * mulx x2 (atan_horner sg n' (a + 2) x2)
  end.
Definition half_atan (t : Z) : Z := divx t (one_fx + sqrtx (one_fx + mulx t t)).
(** atan of t in [0,1] *)
Definition atan01 (t : Z) : Z := let u := half_atan (half_atan t) in 4 * mulx u (atan_horner (-1) 26 1 (mulx u u)).
(** atan2 for positive arguments *)
Definition atan2pos (y x : Z) : Z :=
  if y <=? x then (if x =? 0 then 0 else atan01 (divx y x)) else pi_fx / 2 - atan01 (divx x y).
Definition atan2_fx (y x : Z) : Z :=
  let a := atan2pos (Z.abs y) (Z.abs x) in
  let a := if x <? 0 then pi_fx - a else a in
  if y <? 0 then - a else a.

(** natural logarithm of the positive integer m (as mantissa, m * 2^e) *)
Definition ln_fx (m e : Z) : Z :=
  let l := Z.log2 m in
  let f := Z.shiftl m (P - l) in
  let t := divx (f - one_fx) (f + one_fx) in
  (e + l) * ln2_fx + 2 * mulx t (atan_horner 1 40 1 (mulx t t)).
Fixpoint exp_horner (n : nat) (a x : Z) : Z :=
  match n with O => one_fx | S n' => one_fx + mulx x (exp_horner n' (a + 1) x) / a end.
(** e^x as a b64 *)
Definition exp_b (x : Z) : b64 :=
  let k := x / ln2_fx in
  b64_norm (exp_horner 34 1 (x - k * ln2_fx)) (k - P).

(** y as an integer, when it is one *)
Definition b64_int (y : b64) : option Z :=
  if Beqb (b64_norm (Btrunc y) 0) y then Some (Btrunc y) else None.
Definition pow_b (x y : b64) : b64 :=
  match x with
  | B754_finite s m e _ =>
      let r := exp_b (mulx (tofx y) (ln_fx (Zpos m) e)) in
      if s then match b64_int y with Some n => if Z.even n then r else Bopp r | None => B754_nan end
      else r
  | B754_zero _ => match y with B754_zero _ => b64_norm 1 0 | _ => B754_zero false end
  | _ => B754_nan
  end.

Definition lift1 (f : Z -> Z) (x : b64) : b64 :=
  match x with B754_finite _ _ _ _ | B754_zero _ => offx (f (tofx x)) | _ => B754_nan end.
Definition lift2 (f : Z -> Z -> Z) (x y : b64) : b64 :=
  if is_finite x && is_finite y then offx (f (tofx x) (tofx y)) else B754_nan.

Definition the_libm : libm := {|
  lm_sin := lift1 sin_fx;
  lm_cos := lift1 cos_fx;
  lm_asin := lift1 (fun x => if one_fx <? Z.abs x then 0 else atan2_fx x (sqrtx (one_fx - mulx x x)));
  lm_atan2 := lift2 atan2_fx;
  lm_pow := pow_b;
  lm_powi := fun x n => if n =? 2 then Bmult mode_NE x x else pow_b x (b64_norm n 0)
|}.
#[export] Instance GoldenOps : FloatOps b64 := B64Ops the_libm.

(** [close a b]: equal within 2^-40 relative, or absolutely 2^-40 *)
Definition close (a b : b64) : bool :=
  let d := Babs (Bminus mode_NE a b) in
  let m := Babs b in
  Bleb d (b64_norm 1 (-40)) || Bleb d (Bmult mode_NE m (b64_norm 1 (-40))).
(** decimal literal with sign *)
Definition lit (m k : Z) : b64 := b64_lit m k.
