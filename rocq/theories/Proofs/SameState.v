(** * The theory's state depends on the angles only through their sines and cosines *)
From Coq Require Import Reals Lra Lia.
From Verif.Model Require Import Float Vec3.
From Verif.Inst Require Import RInst.
From Verif.Spec Require Import Str3Api Vectors3.
From Verif.Spec Require Str3.
Local Open Scope R_scope.

Lemma kepler_angle_unique ax ay U E E' : kepler_angle ax ay U E -> kepler_angle ax ay U E' -> E = E'.
Proof.
  intros (j & J1 & -> & J3 & J4) (k & K1 & -> & K3 & K4). f_equal.
  destruct (Nat.lt_trichotomy j k) as [L|[->|L]]; [|reflexivity|].
  - specialize (K3 j L). destruct J4 as [->|J4]; [lia|lra].
  - specialize (J3 k L). destruct K4 as [->|K4]; [lia|lra].
Qed.

Section U.
Variable el : Str3.Elements.
Variable full : bool.
Variables t de i E u v : R.
Hypothesis HS : sin u = sin v.
Hypothesis HC : cos u = cos v.
Lemma same_s2 : sin (2 * u) = sin (2 * v).
Proof. rewrite !sin_2a. now rewrite HS, HC. Qed.
Lemma same_c2 : cos (2 * u) = cos (2 * v).
Proof. rewrite !cos_2a. now rewrite HS, HC. Qed.
Lemma same_rk : Str3.rk el full t de i E u = Str3.rk el full t de i E v.
Proof. unfold Str3.rk. now rewrite same_c2. Qed.
Lemma same_uvec : Str3.Uvec el full t de i u = Str3.Uvec el full t de i v /\ Str3.Vvec el full t de i u = Str3.Vvec el full t de i v.
Proof.
  unfold Str3.Uvec, Str3.Vvec, Str3.Mvec, Str3.Nvec, Str3.nodek, Str3.ik, Str3.uk. rewrite same_s2, same_c2, !sin_minus, !cos_minus, HS, HC. split; reflexivity.
Qed.
Lemma same_position : Str3.position el full t de i E u = Str3.position el full t de i E v.
Proof. unfold Str3.position. now rewrite same_rk, (proj1 same_uvec). Qed.
Lemma same_velocity : Str3.velocity el full t de i E u = Str3.velocity el full t de i E v.
Proof. unfold Str3.velocity, Str3.rdotk, Str3.rfdotk. now rewrite same_s2, same_c2, (proj1 same_uvec), (proj2 same_uvec). Qed.
End U.
