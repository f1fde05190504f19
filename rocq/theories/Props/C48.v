(** * C48: vector range is a metric *)
From Coq Require Import ZArith List Bool Reals Lra Lia.
From Flocq Require Import Core.Raux Core IEEE754.BinarySingleNaN.
From Verif.Model Require Import Float Constants Vec3.
From Verif.Inst Require Import RInst RTac B64 B64Facts.
From Verif.Spec Require Import Vectors3.
From Verif.Proofs Require Import TransformFacts.
Local Open Scope R_scope.

(** range is the Euclidean distance *)
Theorem C48_distance :
  forall a b : Vec3 R, vrange a b = sqrt ((v_x a - v_x b) ^ 2 + (v_y a - v_y b) ^ 2 + (v_z a - v_z b) ^ 2).
Proof. intros a b. rewrite vrange_norm. unfold norm, minus, dot, plus, scale. cbn [v_x v_y v_z]. f_equal. ring. Qed.
Print Assumptions C48_distance.

Theorem C48_metric :
  (forall a b : Vec3 R, 0 <= vrange a b) /\
  (forall a b : Vec3 R, vrange a b = 0 <-> a = b) /\
  (forall a b : Vec3 R, vrange a b = vrange b a) /\
  (forall a b c : Vec3 R, vrange a c <= vrange a b + vrange b c).
Proof.
  repeat split.
  - intros a b. rewrite vrange_norm. apply norm_nonneg.
  - intros H. rewrite vrange_norm, norm_zero in H. unfold minus, plus, scale in H. injection H as H1 H2 H3. apply vec_eq; lra.
  - intros ->. rewrite vrange_norm, norm_zero. unfold minus, plus, scale. cbn [v_x v_y v_z]. f_equal; ring.
  - intros a b. rewrite !vrange_norm, <- norm_opp. f_equal. unfold minus, plus, scale. cbn [v_x v_y v_z]. f_equal; ring.
  - intros a b c. rewrite !vrange_norm. replace (minus a c) with (plus (minus a b) (minus b c)); [apply triangle|].
    unfold minus, plus, scale. cbn [v_x v_y v_z]. f_equal; ring.
Qed.
Print Assumptions C48_metric.

(** add and subtract are componentwise, inverse to each other, and translations keep distances *)
Theorem C48_add_subtract :
  forall a b c : Vec3 R,
    v_x (vadd a b) = v_x a + v_x b /\ v_y (vadd a b) = v_y a + v_y b /\ v_z (vadd a b) = v_z a + v_z b /\
    vsub (vadd a b) b = a /\ vadd (vsub a b) b = a /\ vadd a b = vadd b a /\
    vrange (vadd a c) (vadd b c) = vrange a b /\ vrange (vsub a c) (vsub b c) = vrange a b.
Proof.
  intros a b c. repeat split; try (apply vec_eq; unfold vadd, vsub; cbn [v_x v_y v_z]; rops; ring);
    rewrite !C48_distance; unfold vadd, vsub; cbn [v_x v_y v_z]; rops; f_equal; ring.
Qed.
Print Assumptions C48_add_subtract.

(** Binary64, any libm: range is never negative (it may be NaN). *)
Theorem C48_binary64 :
  forall (lm : libm) (a b : Vec3 b64),
    @flt _ (B64Ops lm) (@vrange _ (B64Ops lm) a b) (@L _ (B64Ops lm) 0 0) = false.
Proof.
  intros lm a b. unfold vrange. change (@fsqrt _ (B64Ops lm)) with (@Bsqrt prec emax Hprec Hemax mode_NE).
  match goal with |- context [Bsqrt mode_NE ?x] => generalize x; intros x0 end.
  destruct (lit_int_fin lm 0) as [Z1 Z2]; [lia|].
  destruct (is_finite (Bsqrt mode_NE x0)) eqn:F.
  - rewrite (lt_fin lm _ _ F Z2), Z1. apply Rlt_bool_false.
    destruct (Bsqrt_correct prec emax Hprec Hemax mode_NE x0) as (E & _). rewrite E.
    apply rnd_ge_fmt; [apply generic_format_0|apply sqrt_pos].
  - pose proof (Bsqrt_correct prec emax Hprec Hemax mode_NE x0) as (_ & E & _). rewrite F in E.
    destruct x0 as [[]|[]| |[] m e ?]; try discriminate E; reflexivity.
Qed.
Print Assumptions C48_binary64.

(** Non-vacuity: a 3-4-5 triangle. *)
Example C48_example :
  vrange (MkVec3 0 0 0) (MkVec3 3 4 0) = 5 /\ vrange (MkVec3 0 0 0) (MkVec3 3 0 0) + vrange (MkVec3 3 0 0) (MkVec3 3 4 0) = 7.
Proof.
  rewrite !C48_distance. cbn [v_x v_y v_z].
  replace ((0 - 3) ^ 2 + (0 - 4) ^ 2 + (0 - 0) ^ 2) with (5 * 5) by ring.
  replace ((0 - 3) ^ 2 + (0 - 0) ^ 2 + (0 - 0) ^ 2) with (3 * 3) by ring.
  replace ((3 - 3) ^ 2 + (0 - 4) ^ 2 + (0 - 0) ^ 2) with (4 * 4) by ring.
  rewrite !sqrt_square by lra. lra.
Qed.
