(** * A deliberately crude libm for cheap examples

    The theorems about f64 hold for every libm; examples about the parser, where the values of the
    libm functions do not matter, use this one: sin = 0, cos = 1, asin = atan2 = 0, pow = 1.06. *)
From Coq Require Import ZArith.
From Flocq Require Import IEEE754.BinarySingleNaN.
From Verif.Inst Require Import B64.
Definition flat_lm : libm :=
  MkLibm (fun _ => b64_lit 0 0) (fun _ => b64_lit 1 0) (fun _ => b64_lit 0 0) (fun _ _ => b64_lit 0 0) (fun _ _ => b64_lit 106 (-2))
         (fun x n => Nat.iter (Z.to_nat n) (fun y => Bmult mode_NE x y) (b64_lit 1 0)).
#[export] Instance FlatOps : Verif.Model.Float.FloatOps b64 := B64Ops flat_lm.
