(** * C46: degree/radian conversion *)
From Coq Require Import ZArith List Bool Reals Lra Lia Psatz.
From Flocq Require Import Core.Raux Core Relative IEEE754.BinarySingleNaN.
From Verif.Model Require Import Float Constants Vec3 Transforms.
From Verif.Inst Require Import RInst RTac B64 B64Facts.
From Verif.Golden Require Import Libm.
From Verif.Props Require Import C45.
Local Open Scope R_scope.

(** Exact arithmetic: 180 degrees is pi, and the two are mutually inverse. *)
Theorem C46_inverse :
  forall x : R,
    degrees_to_radians x = x * PI / 180 /\ radians_to_degrees x = x * 180 / PI /\
    radians_to_degrees (degrees_to_radians x) = x /\ degrees_to_radians (radians_to_degrees x) = x.
Proof.
  intros x. pose proof PI_RGT_0. unfold degrees_to_radians, radians_to_degrees, kDEG_2_RAD, kRAD_TO_DEG, kPI. rops.
  repeat split; field; lra.
Qed.
Print Assumptions C46_inverse.

Section B64.
Context (lm : libm).
Notation B := (B64Ops lm).
Definition K1 : R := IZR 5030569068109113 / IZR 288230376151711744.
Definition K2 : R := IZR 8063664102031864 / IZR 140737488355328.
Lemma d2r_val : fin (@kDEG_2_RAD _ B) = true /\ B2R (@kDEG_2_RAD _ B) = K1.
Proof. destruct (val_of (@kDEG_2_RAD _ B) 5030569068109113 (-58)) as [F E]; [vm_compute; reflexivity|]. split; [exact F|]. rewrite E. unfold F2R, K1. cbn. lra. Qed.
Lemma r2d_val : fin (@kRAD_TO_DEG _ B) = true /\ B2R (@kRAD_TO_DEG _ B) = K2.
Proof. destruct (val_of (@kRAD_TO_DEG _ B) 8063664102031864 (-47)) as [F E]; [vm_compute; reflexivity|]. split; [exact F|]. rewrite E. unfold F2R, K2. cbn. lra. Qed.

(** relative error of one rounding *)
Lemma rnd_rel x : bpow radix2 (-1022) <= Rabs x -> exists e, Rabs e <= bpow radix2 (-53) /\ rnd x = x * (1 + e).
Proof.
  intros H. destruct (relative_error_N_FLT_ex radix2 (-1074) 53 ltac:(lia) (fun t => negb (Z.even t)) x H) as (e & E1 & E2).
  exists e. split; [|exact E2]. replace (bpow radix2 (-53)) with (/ 2 * bpow radix2 (- (53) + 1)); [exact E1|].
  change (/ 2) with (bpow radix2 (-1)). rewrite <- bpow_plus. reflexivity.
Qed.

(** two multiplications by constants whose product is nearly 1 *)
Lemma two_mul (k1 k2 x : b64) (a b : R) : fin k1 = true -> fin k2 = true -> B2R k1 = a -> B2R k2 = b ->
  / 64 <= a <= 64 -> / 64 <= b <= 64 -> Rabs (a * b - 1) <= bpow radix2 (-53) ->
  fin x = true -> bpow radix2 (-1000) <= Rabs (B2R x) <= bpow radix2 1000 ->
  fin (@fmul _ B (@fmul _ B x k1) k2) = true /\
  Rabs (B2R (@fmul _ B (@fmul _ B x k1) k2) - B2R x) <= bpow radix2 (-51) * Rabs (B2R x).
Proof.
  intros F1 F2 E1 E2 Ba Bb Hp Fx [X1 X2].
  assert (P6 : bpow radix2 6 = 64) by (cbn; lra).
  assert (M6 : bpow radix2 (-6) = / 64) by (cbn; lra).
  pose proof (bpow_gt_0 radix2 (-1000)) as PX.
  assert (S1 : bpow radix2 (-1006) <= Rabs (B2R x * a) <= bpow radix2 1006).
  { rewrite Rabs_mult, (Rabs_pos_eq a) by lra. split.
    - change (-1006)%Z with (-1000 + -6)%Z. rewrite bpow_plus, M6. apply Rmult_le_compat; lra.
    - change 1006%Z with (1000 + 6)%Z. rewrite bpow_plus, P6. apply Rmult_le_compat; lra. }
  destruct (mul_fin lm x k1 Fx F1) as [M1 G1]; [rewrite E1; apply Rle_trans with (bpow radix2 1006); [apply S1|apply bpow_le; lia]|].
  rewrite E1 in M1. set (y := @fmul _ B x k1) in *. clearbody y.
  destruct (rnd_rel (B2R x * a)) as (d1 & D1 & R1); [apply Rle_trans with (bpow radix2 (-1006)); [apply bpow_le; lia|apply S1]|].
  rewrite R1 in M1.
  assert (B53 : bpow radix2 (-53) <= / 1000000) by (apply Rle_trans with (bpow radix2 (-20)); [apply bpow_le; lia|cbn; lra]).
  set (u := bpow radix2 (-53)) in *. assert (U0 : 0 < u) by apply bpow_gt_0.
  assert (Y : / 2 * Rabs (B2R x * a) <= Rabs (B2R y) <= 2 * Rabs (B2R x * a)).
  { rewrite M1, (Rabs_mult (B2R x * a) (1 + d1)). apply Rabs_le_inv in D1. rewrite (Rabs_pos_eq (1 + d1)) by lra. pose proof (Rabs_pos (B2R x * a)). nra. }
  assert (S2 : bpow radix2 (-1013) <= Rabs (B2R y * b) <= bpow radix2 1013).
  { rewrite Rabs_mult, (Rabs_pos_eq b) by lra. pose proof (bpow_gt_0 radix2 (-1006)). pose proof (bpow_gt_0 radix2 1006). split.
    - change (-1013)%Z with (-1006 + (-6 + -1))%Z. rewrite !bpow_plus, M6. change (bpow radix2 (-1)) with (/ 2).
      replace (bpow radix2 (-1006) * (/ 64 * / 2)) with ((/ 2 * bpow radix2 (-1006)) * / 64) by ring. apply Rmult_le_compat; lra.
    - change 1013%Z with (1006 + (6 + 1))%Z. rewrite !bpow_plus, P6. change (bpow radix2 1) with 2.
      replace (bpow radix2 1006 * (64 * 2)) with ((2 * bpow radix2 1006) * 64) by ring. pose proof (Rabs_pos (B2R y)). apply Rmult_le_compat; lra. }
  destruct (mul_fin lm y k2 G1 F2) as [M2 G2]; [rewrite E2; apply Rle_trans with (bpow radix2 1013); [apply S2|apply bpow_le; lia]|].
  rewrite E2 in M2. split; [exact G2|].
  destruct (rnd_rel (B2R y * b)) as (d2 & D2 & R2); [apply Rle_trans with (bpow radix2 (-1013)); [apply bpow_le; lia|apply S2]|].
  fold u in D2. rewrite M2, R2, M1.
  assert (E51 : bpow radix2 (-51) = 4 * u) by (unfold u; change (-51)%Z with (2 + -53)%Z; rewrite bpow_plus; reflexivity). rewrite E51.
  replace (B2R x * a * (1 + d1) * b * (1 + d2) - B2R x) with (((a * b) * (1 + d1) * (1 + d2) - 1) * B2R x) by ring.
  rewrite Rabs_mult. apply Rmult_le_compat_r; [apply Rabs_pos|].
  apply Rabs_le_inv in Hp, D1, D2. set (p := a * b) in *. clearbody p u. clear - Hp D1 D2 B53 U0.
  assert (p = 1 + (p - 1)) by ring. set (d0 := p - 1) in *. rewrite H. clearbody d0. clear H p.
  assert (Rabs (d1 * d2) <= u * u). { rewrite Rabs_mult. apply Rmult_le_compat; try apply Rabs_pos; apply Rabs_le; lra. }
  assert (Rabs (d0 * d2) <= u * u). { rewrite Rabs_mult. apply Rmult_le_compat; try apply Rabs_pos; apply Rabs_le; lra. }
  assert (Rabs (d0 * d1) <= u * u). { rewrite Rabs_mult. apply Rmult_le_compat; try apply Rabs_pos; apply Rabs_le; lra. }
  assert (Rabs (d0 * (d1 * d2)) <= u * (u * u)). { rewrite Rabs_mult. apply Rmult_le_compat; try apply Rabs_pos; try assumption; apply Rabs_le; lra. }
  apply Rabs_le_inv in H, H0, H1, H2.
  replace ((1 + d0) * (1 + d1) * (1 + d2) - 1) with (d0 + d1 + d2 + d1 * d2 + d0 * d2 + d0 * d1 + d0 * (d1 * d2)) by ring.
  assert (u * u <= u / 1000000) by nra. assert (u * (u * u) <= u / 1000000) by nra.
  apply Rabs_le. lra.
Qed.
End B64.

(** Binary64: converting there and back returns the same number to a relative error of 2^-51, for
    every finite number of magnitude between 2^-1000 and 2^1000. *)
Theorem C46_binary64 :
  forall (lm : libm) (x : b64),
    is_finite x = true -> bpow radix2 (-1000) <= Rabs (B2R x) <= bpow radix2 1000 ->
    let B := B64Ops lm in
    Rabs (B2R (@radians_to_degrees _ B (@degrees_to_radians _ B x)) - B2R x) <= bpow radix2 (-51) * Rabs (B2R x) /\
    Rabs (B2R (@degrees_to_radians _ B (@radians_to_degrees _ B x)) - B2R x) <= bpow radix2 (-51) * Rabs (B2R x).
Proof.
  intros lm x F H B. destruct (d2r_val lm) as [F1 V1]. destruct (r2d_val lm) as [F2 V2].
  assert (P : Rabs (K1 * K2 - 1) <= bpow radix2 (-53)).
  { unfold K1, K2. apply Rabs_le. cbn. lra. }
  split.
  - apply (two_mul lm (@kDEG_2_RAD _ B) (@kRAD_TO_DEG _ B) x K1 K2); try assumption; unfold K1, K2; lra.
  - apply (two_mul lm (@kRAD_TO_DEG _ B) (@kDEG_2_RAD _ B) x K2 K1); try assumption; try (unfold K1, K2; lra).
    now rewrite (Rmult_comm K2).
Qed.
Print Assumptions C46_binary64.

(** Non-vacuity, and exactness fails: 30 degrees does not come back exactly from radians. *)
Example C46_example :
  (feq (radians_to_degrees (degrees_to_radians (lit 30 0))) (lit 30 0), feq (radians_to_degrees (degrees_to_radians (lit 45 0))) (lit 45 0)) = (false, true) /\
  radians_to_degrees (PI / 2) = 90.
Proof.
  split; [vm_compute; reflexivity|]. destruct (C46_inverse (PI / 2)) as (_ & -> & _). pose proof PI_RGT_0. field. lra.
Qed.
