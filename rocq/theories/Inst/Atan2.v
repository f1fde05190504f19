(** * Facts about the two-argument arctangent of the exact-real instance *)
From Coq Require Import ZArith Reals Lra Psatz.
From Flocq Require Import Core.Raux.
From Verif.Inst Require Import RInst.
Local Open Scope R_scope.

Lemma hyp_pos x y : x <> 0 -> 0 < sqrt (x * x + y * y).
Proof. intros N. apply sqrt_lt_R0. nra. Qed.
Lemma hyp_div x y : x <> 0 -> sqrt (1 + Rsqr (y / x)) = sqrt (x * x + y * y) / Rabs x.
Proof.
  intros N. replace (1 + Rsqr (y / x)) with ((x * x + y * y) / Rsqr x) by (unfold Rsqr; field; exact N).
  rewrite sqrt_div_alt by (unfold Rsqr; nra). now rewrite sqrt_Rsqr_abs.
Qed.
Lemma cos_atan_div x y : x <> 0 -> cos (atan (y / x)) = Rabs x / sqrt (x * x + y * y).
Proof.
  intros N. rewrite cos_atan, hyp_div by exact N. pose proof (hyp_pos x y N). pose proof (Rabs_pos_lt x N). field. lra.
Qed.
Lemma sin_atan_div x y : x <> 0 -> sin (atan (y / x)) = y / x * (Rabs x / sqrt (x * x + y * y)).
Proof.
  intros N. rewrite sin_atan, hyp_div by exact N. pose proof (hyp_pos x y N). pose proof (Rabs_pos_lt x N). field. lra.
Qed.

(** The direction: x = rho cos, y = rho sin, also at the origin. *)
Lemma Ratan2_polar y x : let rho := sqrt (x * x + y * y) in
  x = rho * cos (Ratan2 y x) /\ y = rho * sin (Ratan2 y x).
Proof.
  cbv zeta. unfold Ratan2. case Rlt_bool_spec; intros H1.
  { pose proof (hyp_pos x y). rewrite cos_atan_div, sin_atan_div by lra. rewrite (Rabs_pos_eq x) by lra.
    split; field; lra. }
  case Rlt_bool_spec; intros H2.
  { pose proof (hyp_pos x y).
    assert (C : forall s, s = 1 \/ s = -1 -> forall a, a = atan (y / x) + s * PI ->
      x = sqrt (x * x + y * y) * cos a /\ y = sqrt (x * x + y * y) * sin a).
    { intros s Hs a ->. assert (cos (atan (y / x) + s * PI) = - cos (atan (y / x)) /\ sin (atan (y / x) + s * PI) = - sin (atan (y / x))) as [-> ->].
      { destruct Hs as [-> | ->].
        - replace (1 * PI) with PI by ring. rewrite neg_cos, neg_sin. now split.
        - replace (atan (y / x) + -1 * PI) with (- (- atan (y / x) + PI)) by ring. rewrite cos_neg, sin_neg, neg_cos, neg_sin, cos_neg, sin_neg. split; ring. }
      rewrite cos_atan_div, sin_atan_div by lra. rewrite (Rabs_left x) by lra. split; field; lra. }
    case Rle_bool_spec; intros _.
    - apply (C 1); [now left|ring].
    - apply (C (-1)); [now right|ring]. }
  assert (x = 0) as -> by lra. replace (0 * 0 + y * y) with (Rsqr y) by (unfold Rsqr; ring). rewrite sqrt_Rsqr_abs.
  case Rlt_bool_spec; intros H3.
  { rewrite cos_PI2, sin_PI2, Rabs_pos_eq by lra. lra. }
  case Rlt_bool_spec; intros H4.
  { rewrite cos_neg, sin_neg, cos_PI2, sin_PI2, Rabs_left by lra. lra. }
  assert (y = 0) as -> by lra. rewrite Rabs_R0. lra.
Qed.

Lemma Ratan2_range y x : - PI < Ratan2 y x <= PI.
Proof.
  pose proof PI_RGT_0 as P. unfold Ratan2. pose proof (atan_bound (y / x)) as A.
  case Rlt_bool_spec; intros H1; [lra|]. case Rlt_bool_spec; intros H2.
  - case Rle_bool_spec; intros H3.
    + assert (y / x <= 0).
      { replace (y / x) with (- (y / (- x))) by (field; lra). assert (0 <= y / - x); [|lra]. apply Rle_mult_inv_pos; lra. }
      assert (atan (y / x) <= 0); [|lra]. rewrite <- atan_0. destruct H as [H| ->]; [left; now apply atan_increasing|lra].
    + assert (0 < y / x).
      { replace (y / x) with ((- y) / (- x)) by (field; lra). apply Rdiv_lt_0_compat; lra. }
      assert (0 < atan (y / x)); [|lra]. rewrite <- atan_0. now apply atan_increasing.
  - case Rlt_bool_spec; intros H3; [lra|]. case Rlt_bool_spec; intros H4; lra.
Qed.

(** An angle is determined by its sine and cosine up to whole turns. *)
Lemma sc_eq a b : cos a = cos b -> sin a = sin b -> exists k : Z, a = b + 2 * PI * IZR k.
Proof.
  intros C S. assert (D : cos (a - b) = 1).
  { rewrite cos_minus, C, S. pose proof (sin2_cos2 b) as Q. unfold Rsqr in Q. lra. }
  assert (Z : sin ((a - b) / 2) = 0).
  { assert (E : cos (a - b) = 1 - 2 * sin ((a - b) / 2) * sin ((a - b) / 2)).
    { rewrite <- cos_2a_sin. f_equal. field. }
    rewrite D in E. nra. }
  apply sin_eq_0_0 in Z. destruct Z as [k K]. exists k. replace a with (b + 2 * ((a - b) / 2)) by field. rewrite K. ring.
Qed.
Lemma sin_turns a k : sin (a + 2 * PI * IZR k) = sin a.
Proof.
  replace (2 * PI * IZR k) with (2 * IZR k * PI) by ring. destruct (Z.le_gt_cases 0 k) as [H|H].
  - replace (IZR k) with (INR (Z.to_nat k)) by (rewrite INR_IZR_INZ, Z2Nat.id by exact H; reflexivity). apply sin_period.
  - rewrite <- (sin_period (a + 2 * IZR k * PI) (Z.to_nat (- k))). f_equal. rewrite INR_IZR_INZ, Z2Nat.id by Lia.lia. rewrite opp_IZR. ring.
Qed.
Lemma cos_turns a k : cos (a + 2 * PI * IZR k) = cos a.
Proof.
  replace (2 * PI * IZR k) with (2 * IZR k * PI) by ring. destruct (Z.le_gt_cases 0 k) as [H|H].
  - replace (IZR k) with (INR (Z.to_nat k)) by (rewrite INR_IZR_INZ, Z2Nat.id by exact H; reflexivity). apply cos_period.
  - rewrite <- (cos_period (a + 2 * IZR k * PI) (Z.to_nat (- k))). f_equal. rewrite INR_IZR_INZ, Z2Nat.id by Lia.lia. rewrite opp_IZR. ring.
Qed.
