(** * Vectors and powers in exact arithmetic *)
From Coq Require Import ZArith Reals Lra Psatz.
From Flocq Require Import Core.Raux.
From Verif.Model Require Import Float Constants Vec3.
From Verif.Inst Require Import RInst RTac.
From Verif.Spec Require Import Vectors3.
Local Open Scope R_scope.

Lemma Rpow_2 x : Rpow x 2 = x * x.
Proof.
  unfold Rpow. case Rlt_bool_spec; intros H.
  - change 2 with (INR 2) at 1. rewrite Rpower_pow by exact H. cbn. ring.
  - case Req_bool_spec; intros E.
    + subst x. rewrite Req_bool_false by lra. ring.
    + assert (Z : Zfloor 2 = 2%Z) by apply (Zfloor_IZR 2). rewrite Z, Req_bool_true by reflexivity. change (powerRZ x 2) with (x * (x * 1)). ring.
Qed.
Lemma powerRZ_2 x : powerRZ x 2 = x * x.
Proof. change (powerRZ x 2) with (x * (x * 1)). ring. Qed.

Definition minus (a b : Vec3 R) : Vec3 R := plus a (scale (-1) b).
Lemma vrange_norm (a b : Vec3 R) : vrange a b = norm (minus a b).
Proof.
  unfold vrange, norm, minus, dot, plus, scale. rops. rewrite !Rpow_2. cbn [v_x v_y v_z]. f_equal. ring.
Qed.

Lemma dot_nonneg a : 0 <= dot a a.
Proof. unfold dot. nra. Qed.
Lemma norm_nonneg a : 0 <= norm a.
Proof. apply sqrt_pos. Qed.
Lemma norm_sqr a : norm a * norm a = dot a a.
Proof. apply sqrt_sqrt, dot_nonneg. Qed.
Lemma norm_zero a : norm a = 0 <-> a = MkVec3 0 0 0.
Proof.
  split.
  - intros H. pose proof (norm_sqr a) as E. rewrite H in E. destruct a as [x y z]. unfold dot in E. cbn [v_x v_y v_z] in E.
    assert (x = 0) by nra. assert (y = 0) by nra. assert (z = 0) by nra. now subst.
  - intros ->. unfold norm, dot. cbn [v_x v_y v_z]. replace (0 * 0 + 0 * 0 + 0 * 0) with 0 by ring. apply sqrt_0.
Qed.
Lemma cauchy a b : dot a b <= norm a * norm b.
Proof.
  assert (S : dot a b * dot a b <= (norm a * norm b) * (norm a * norm b)).
  { replace ((norm a * norm b) * (norm a * norm b)) with ((norm a * norm a) * (norm b * norm b)) by ring. rewrite !norm_sqr.
    destruct a as [a1 a2 a3], b as [b1 b2 b3]. unfold dot. cbn [v_x v_y v_z].
    pose proof (Rle_0_sqr (a1 * b2 - a2 * b1)); unfold Rsqr in *.
    pose proof (Rle_0_sqr (a1 * b3 - a3 * b1)); unfold Rsqr in *.
    pose proof (Rle_0_sqr (a2 * b3 - a3 * b2)); unfold Rsqr in *. nra. }
  pose proof (norm_nonneg a). pose proof (norm_nonneg b). assert (0 <= norm a * norm b) by nra. nra.
Qed.
Lemma triangle a b : norm (plus a b) <= norm a + norm b.
Proof.
  pose proof (norm_nonneg a). pose proof (norm_nonneg b). pose proof (norm_nonneg (plus a b)).
  pose proof (norm_sqr a). pose proof (norm_sqr b). pose proof (norm_sqr (plus a b)). pose proof (cauchy a b).
  assert (E : dot (plus a b) (plus a b) = dot a a + 2 * dot a b + dot b b) by (unfold dot, plus; cbn [v_x v_y v_z]; ring).
  nra.
Qed.
Lemma norm_opp a : norm (scale (-1) a) = norm a.
Proof. unfold norm. f_equal. unfold dot, scale. cbn [v_x v_y v_z]. ring. Qed.
Lemma vec_eq (a b : Vec3 R) : v_x a = v_x b -> v_y a = v_y b -> v_z a = v_z b -> a = b.
Proof. destruct a, b. cbn. now intros -> -> ->. Qed.
Lemma minus_zero (a b : Vec3 R) : minus a b = MkVec3 0 0 0 -> a = b.
Proof. destruct a as [a1 a2 a3], b as [b1 b2 b3]. unfold minus, plus, scale. cbn [v_x v_y v_z]. intros H. injection H as H1 H2 H3. f_equal; lra. Qed.
