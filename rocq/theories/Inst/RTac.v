(** * Tactics for goals about the exact-real instance *)
From Coq Require Import ZArith Reals Lra.
From Flocq Require Import Core.Raux.
From Verif.Model Require Import Float Constants.
From Verif.Inst Require Import RInst.
Local Open Scope R_scope.

(** Replace the class operations and literals by the real ones. *)
Ltac rlit1 m k :=
  lazymatch k with
  | Z0 => change (@L R ROps m k) with (IZR m)
  | _ => let z := eval compute in (Z.pow 10 k) in change (@L R ROps m k) with (IZR m / IZR z)
  end.
Ltac rlit1_in m k H :=
  lazymatch k with
  | Z0 => change (@L R ROps m k) with (IZR m) in H
  | _ => let z := eval compute in (Z.pow 10 k) in change (@L R ROps m k) with (IZR m / IZR z) in H
  end.
Ltac rlit := repeat match goal with |- context [@L R ROps ?m ?k] => rlit1 m k end.
Ltac rlit_in H := repeat match type of H with context [@L R ROps ?m ?k] => rlit1_in m k H end.
Ltac rops :=
  change (@fadd R ROps) with Rplus; change (@fsub R ROps) with Rminus; change (@fmul R ROps) with Rmult;
  change (@fdiv R ROps) with Rdiv; change (@fneg R ROps) with Ropp; change (@fabs R ROps) with Rabs;
  change (@fsqrt R ROps) with sqrt; change (@fsin R ROps) with sin; change (@fcos R ROps) with cos;
  change (@fasin R ROps) with asin; change (@fatan2 R ROps) with Ratan2; change (@frem R ROps) with Rrem;
  change (@fpow R ROps) with Rpow; change (@fpowi R ROps) with powerRZ;
  change (@flt R ROps) with Rlt_bool; change (@fle R ROps) with Rle_bool; change (@feq R ROps) with Req_bool;
  change (@fpi R ROps) with PI; change (@fpi2 R ROps) with (PI / 2); change (@fofZ R ROps) with IZR;
  rlit.
Ltac rops_in H :=
  change (@fadd R ROps) with Rplus in H; change (@fsub R ROps) with Rminus in H; change (@fmul R ROps) with Rmult in H;
  change (@fdiv R ROps) with Rdiv in H; change (@fneg R ROps) with Ropp in H; change (@fabs R ROps) with Rabs in H;
  change (@fsqrt R ROps) with sqrt in H; change (@fsin R ROps) with sin in H; change (@fcos R ROps) with cos in H;
  change (@fasin R ROps) with asin in H; change (@fatan2 R ROps) with Ratan2 in H; change (@frem R ROps) with Rrem in H;
  change (@fpow R ROps) with Rpow in H; change (@fpowi R ROps) with powerRZ in H;
  change (@flt R ROps) with Rlt_bool in H; change (@fle R ROps) with Rle_bool in H; change (@feq R ROps) with Req_bool in H;
  change (@fpi R ROps) with PI in H; change (@fpi2 R ROps) with (PI / 2) in H; change (@fofZ R ROps) with IZR in H;
  rlit_in H.

(** Decide the real comparisons in a goal. *)
Lemma Rlt_bool_t x y : x < y -> Rlt_bool x y = true. Proof. apply Rlt_bool_true. Qed.
Lemma Rlt_bool_f x y : y <= x -> Rlt_bool x y = false. Proof. apply Rlt_bool_false. Qed.
Lemma Rle_bool_t x y : x <= y -> Rle_bool x y = true. Proof. apply Rle_bool_true. Qed.
Lemma Rle_bool_f x y : y < x -> Rle_bool x y = false. Proof. apply Rle_bool_false. Qed.
Lemma Rlt_bool_iff x y : Rlt_bool x y = true <-> x < y.
Proof. case Rlt_bool_spec; intuition (try discriminate); lra. Qed.
Lemma Rlt_bool_iff_f x y : Rlt_bool x y = false <-> y <= x.
Proof. case Rlt_bool_spec; intuition (try discriminate); lra. Qed.
Lemma Rle_bool_iff x y : Rle_bool x y = true <-> x <= y.
Proof. case Rle_bool_spec; intuition (try discriminate); lra. Qed.
Lemma Rle_bool_iff_f x y : Rle_bool x y = false <-> y < x.
Proof. case Rle_bool_spec; intuition (try discriminate); lra. Qed.
Lemma Req_bool_iff x y : Req_bool x y = true <-> x = y.
Proof. case Req_bool_spec; intuition (try discriminate); lra. Qed.

Lemma kTWO_PI_R : @kTWO_PI R ROps = 2 * PI.
Proof. unfold kTWO_PI, kPI. rops. ring. Qed.
Lemma kEARTH_RADIUS_R : @kEARTH_RADIUS R ROps = 6378137 / 1000.
Proof. unfold kEARTH_RADIUS. rlit. reflexivity. Qed.
Lemma kXKE_R : @kXKE R ROps = 7436685316871385 / 100000000000000000.
Proof. unfold kXKE. rlit. reflexivity. Qed.
Lemma kX2O3_R : @kX2O3 R ROps = 2 / 3.
Proof. unfold kX2O3. rops. reflexivity. Qed.
