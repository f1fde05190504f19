(** * An accurate library exists

    The record of assumptions in Spec/LibmAccuracy.v is met by the library that rounds the exact values
    correctly. *)
From Coq Require Import ZArith Reals Lra Lia Psatz.
From Flocq Require Import Core IEEE754.BinarySingleNaN.
From Verif.Model Require Import Float.
From Verif.Spec Require Import LibmAccuracy.
From Verif.Inst Require Import RInst RTac B64 B64Facts B64Calc Atan2.
Local Open Scope R_scope.

Definition of_R (r : R) : b64 := b64_norm (ZnearestE (r * bpow radix2 1060)) (-1060).
Lemma of_R_spec r : Rabs r <= bpow radix2 1000 -> fin (of_R r) = true /\ Rabs (B2R (of_R r) - r) <= Rabs r * bpow radix2 (-53) + bpow radix2 (-1050).
Proof.
  intros H. unfold of_R, b64_norm. set (z := ZnearestE _).
  pose proof (binary_normalize_correct prec emax Hprec Hemax mode_NE z (-1060) false) as C. cbv zeta in C.
  assert (Z1 : Rabs (IZR z - r * bpow radix2 1060) <= / 2) by (rewrite Rabs_minus_sym; apply Znearest_half).
  assert (V : F2R (Float radix2 z (-1060)) = IZR z * bpow radix2 (-1060)) by reflexivity.
  rewrite V in C. set (v := IZR z * bpow radix2 (-1060)) in *.
  assert (E : Rabs (v - r) <= bpow radix2 (-1061)).
  { unfold v. replace r with (r * bpow radix2 1060 * bpow radix2 (-1060)) by (rewrite Rmult_assoc, <- bpow_plus; cbn; ring).
    rewrite <- Rmult_minus_distr_r, Rabs_mult, (Rabs_pos_eq (bpow _ _)) by apply bpow_ge_0.
    replace (bpow radix2 (-1061)) with (/ 2 * bpow radix2 (-1060)); [apply Rmult_le_compat_r; [apply bpow_ge_0|exact Z1]|].
    change (/ 2) with (bpow radix2 (-1)). now rewrite <- bpow_plus. }
  assert (VB : Rabs v <= bpow radix2 1001).
  { replace v with (r + (v - r)) by ring. eapply Rle_trans; [apply Rabs_triang|]. replace (bpow radix2 1001) with (bpow radix2 1000 + bpow radix2 1000).
    - apply Rplus_le_compat; [exact H|]. eapply Rle_trans; [exact E|apply bpow_le; lia].
    - change 1001%Z with (1 + 1000)%Z. rewrite bpow_plus. change (bpow radix2 1) with 2. ring. }
  cbv [round_mode] in C. rewrite no_ovf in C by (eapply Rle_trans; [exact VB|apply bpow_le; lia]). destruct C as (C1 & C2 & _).
  split; [exact C2|]. rewrite C1. pose proof (rnd_fine v) as F.
  replace (rnd v - r) with ((rnd v - v) + (v - r)) by ring. eapply Rle_trans; [apply Rabs_triang|].
  assert (VR : Rabs v <= Rabs r + bpow radix2 (-1061)).
  { replace v with (r + (v - r)) by ring. eapply Rle_trans; [apply Rabs_triang|]. lra. }
  assert (B1 : bpow radix2 (-1061) * bpow radix2 (-53) <= bpow radix2 (-1061)).
  { rewrite <- bpow_plus. apply bpow_le. lia. }
  assert (B2 : 4 * bpow radix2 (-1061) <= bpow radix2 (-1050)).
  { change 4 with (bpow radix2 2). rewrite <- bpow_plus. apply bpow_le. lia. }
  assert (B3 : bpow radix2 (-1074) <= bpow radix2 (-1061)) by (apply bpow_le; lia).
  pose proof (bpow_gt_0 radix2 (-53)). pose proof (bpow_gt_0 radix2 (-1061)). nra.
Qed.
Lemma bpp n : bpow radix2 (Z.of_nat n) = 2 ^ n.
Proof. rewrite bpow_powerRZ, <- pow_powerRZ. reflexivity. Qed.
Lemma bp n : bpow radix2 (- Z.of_nat n) = / 2 ^ n.
Proof. rewrite bpow_opp. f_equal. apply bpp. Qed.
Lemma of_R_abs r (m : R) (n : nat) : Rabs r <= m -> m <= 4 -> (n <= 200)%nat -> (m + 1) * / 2 ^ 53 <= / 2 ^ n ->
  fin (of_R r) = true /\ Rabs (B2R (of_R r) - r) <= / 2 ^ n.
Proof.
  intros H M N Q. destruct (of_R_spec r) as [F E].
  - eapply Rle_trans; [exact H|]. eapply Rle_trans; [exact M|]. change 4 with (bpow radix2 2). apply bpow_le. lia.
  - split; [exact F|]. eapply Rle_trans; [exact E|]. eapply Rle_trans; [|exact Q].
    assert (bpow radix2 (-1050) <= bpow radix2 (-53)) by (apply bpow_le; lia). rewrite (bp 53 : bpow radix2 (-53) = _) in *.
    assert (0 < / 2 ^ 53) by (apply Rinv_0_lt_compat, pow_lt; lra). nra.
Qed.
Lemma of_R_rel r (n : nat) : Rabs r <= 2 ^ 1000 -> (n <= 53)%nat -> fin (of_R r) = true /\ Rabs (B2R (of_R r) - r) <= Rabs r / 2 ^ n + / 2 ^ 200.
Proof.
  intros H N. destruct (of_R_spec r) as [F E]; [now rewrite (bpp 1000 : bpow radix2 1000 = _)|]. split; [exact F|].
  eapply Rle_trans; [exact E|]. apply Rplus_le_compat.
  - apply Rmult_le_compat_l; [apply Rabs_pos|]. rewrite <- bp. apply bpow_le. lia.
  - rewrite <- bp. apply bpow_le. lia.
Qed.
Definition exact_lm : libm :=
  MkLibm (fun x => of_R (sin (B2R x))) (fun x => of_R (cos (B2R x))) (fun x => of_R (asin (B2R x)))
         (fun y x => of_R (Ratan2 (B2R y) (B2R x))) (fun x y => of_R (Rpow (B2R x) (B2R y))) (fun x n => of_R (powerRZ (B2R x) n)).
Lemma p53 n : (n <= 53)%nat -> / 2 ^ n = 2 ^ (53 - n) * / 2 ^ 53.
Proof. intros H. assert (E : 2 ^ 53 = 2 ^ (53 - n) * 2 ^ n) by (rewrite <- pow_add; f_equal; lia). rewrite E. field. split; apply pow_nonzero; lra. Qed.
Theorem exact_lm_accurate : accurate exact_lm.
Proof.
  pose proof PI_4 as P4. pose proof PI_RGT_0 as P0. assert (U : 0 < / 2 ^ 53) by (apply Rinv_0_lt_compat, pow_lt; lra).
  split; cbn [lm_sin lm_cos lm_asin lm_atan2 lm_pow lm_powi exact_lm].
  - intros x _. apply (of_R_abs _ 1); [apply Rabs_le, SIN_bound|lra|lia|]. rewrite (p53 52) by lia. cbn. lra.
  - intros x _. apply (of_R_abs _ 1); [apply Rabs_le, COS_bound|lra|lia|]. rewrite (p53 52) by lia. cbn. lra.
  - intros x _ _. apply (of_R_abs _ 2); [|lra|lia|rewrite (p53 51) by lia; cbn; lra].
    pose proof (asin_bound (B2R x)). apply Rabs_le. lra.
  - intros y x _ _ _. assert (B : Rabs (Ratan2 (B2R y) (B2R x)) <= 4).
    { pose proof (Ratan2_range (B2R y) (B2R x)). apply Rabs_le. lra. }
    destruct (of_R_abs _ 4 50 B) as [A1 A2]; [lra|lia|rewrite (p53 50) by lia; cbn; lra|]. split; [exact A1|]. left. exact A2.
  - intros x y _ _ _ H. apply of_R_rel; [exact H|lia].
  - intros x n _ _ H. rewrite <- pow_powerRZ. apply of_R_rel; [exact H|lia].
Qed.
Print Assumptions exact_lm_accurate.
