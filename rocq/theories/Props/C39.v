(** * C39: the ECI/ECF rotations are inverse isometries *)
From Coq Require Import ZArith List Bool Reals Lra Lia.
From Flocq Require Import Core.Raux.
From Verif.Model Require Import Float Constants Vec3 Transforms.
From Verif.Inst Require Import RInst RTac Atan2.
From Verif.Spec Require Import Vectors3.
From Verif.Proofs Require Import TransformFacts FrameR.
Local Open Scope R_scope.

Ltac rot := unfold eci_to_ecf, ecf_to_eci; cbv zeta; cbn [v_x v_y v_z]; rops.

(** Each turns about the z axis: a point at distance rho and right ascension alpha has, in the
    Earth-fixed frame, longitude alpha - g, the same rho and the same z. *)
Theorem C39_turn :
  forall rho alpha z g : R,
    eci_to_ecf (MkVec3 (rho * cos alpha) (rho * sin alpha) z) g = MkVec3 (rho * cos (alpha - g)) (rho * sin (alpha - g)) z /\
    ecf_to_eci (MkVec3 (rho * cos alpha) (rho * sin alpha) z) g = MkVec3 (rho * cos (alpha + g)) (rho * sin (alpha + g)) z.
Proof.
  intros. rot. rewrite cos_minus, sin_minus, cos_plus, sin_plus. split; f_equal; ring.
Qed.
Print Assumptions C39_turn.

Theorem C39_inverse :
  forall (p : Vec3 R) (g : R), ecf_to_eci (eci_to_ecf p g) g = p /\ eci_to_ecf (ecf_to_eci p g) g = p /\
    eci_to_ecf p g = ecf_to_eci p (- g).
Proof.
  intros p g. pose proof (sc2 g) as S. split; [|split].
  - apply vec_eq; rot.
    + transitivity (v_x p * (sin g * sin g + cos g * cos g)); [ring|]. rewrite S. ring.
    + transitivity (v_y p * (sin g * sin g + cos g * cos g)); [ring|]. rewrite S. ring.
    + reflexivity.
  - apply vec_eq; rot.
    + transitivity (v_x p * (sin g * sin g + cos g * cos g)); [ring|]. rewrite S. ring.
    + transitivity (v_y p * (sin g * sin g + cos g * cos g)); [ring|]. rewrite S. ring.
    + reflexivity.
  - apply vec_eq; rot; rewrite ?cos_neg, ?sin_neg; ring.
Qed.
Print Assumptions C39_inverse.

Lemma rot_dot a b g : dot (eci_to_ecf a g) (eci_to_ecf b g) = dot a b.
Proof.
  unfold dot. rot. pose proof (sc2 g) as S.
  transitivity ((v_x a * v_x b + v_y a * v_y b) * (sin g * sin g + cos g * cos g) + v_z a * v_z b); [ring|]. rewrite S. ring.
Qed.
Lemma rot_lin a b k g : eci_to_ecf (plus a (scale k b)) g = plus (eci_to_ecf a g) (scale k (eci_to_ecf b g)).
Proof. apply vec_eq; unfold plus, scale; rot; ring. Qed.

(** Both keep lengths, distances, angles (dot products) and the z component. *)
Theorem C39_isometry :
  forall (a b : Vec3 R) (g : R),
    v_z (eci_to_ecf a g) = v_z a /\ v_z (ecf_to_eci a g) = v_z a /\
    norm (eci_to_ecf a g) = norm a /\ norm (ecf_to_eci a g) = norm a /\
    vrange (eci_to_ecf a g) (eci_to_ecf b g) = vrange a b /\ vrange (ecf_to_eci a g) (ecf_to_eci b g) = vrange a b /\
    dot (eci_to_ecf a g) (eci_to_ecf b g) = dot a b /\ dot (ecf_to_eci a g) (ecf_to_eci b g) = dot a b /\
    cross (eci_to_ecf a g) (eci_to_ecf b g) = eci_to_ecf (cross a b) g.
Proof.
  intros a b g.
  assert (I : forall p h, ecf_to_eci p h = eci_to_ecf p (- h)).
  { intros p h. rewrite (proj2 (proj2 (C39_inverse p (- h)))). now rewrite Ropp_involutive. }
  assert (N : forall p h, norm (eci_to_ecf p h) = norm p) by (intros p h; unfold norm; now rewrite rot_dot).
  assert (D : forall p q h, vrange (eci_to_ecf p h) (eci_to_ecf q h) = vrange p q).
  { intros p q h. rewrite !vrange_norm. unfold minus. rewrite <- rot_lin. apply N. }
  rewrite !I, !D, !N, !rot_dot. repeat split.
  pose proof (sc2 g) as S. apply vec_eq; unfold cross; rot; [ring|ring|].
  transitivity ((v_x a * v_y b - v_y a * v_x b) * (sin g * sin g + cos g * cos g)); [ring|]. rewrite S. ring.
Qed.
Print Assumptions C39_isometry.

(** They compose additively in the angle, are the identity at 0 and 2 pi periodic. *)
Theorem C39_group :
  forall (p : Vec3 R) (g h : R) (k : Z),
    eci_to_ecf (eci_to_ecf p g) h = eci_to_ecf p (g + h) /\ ecf_to_eci (ecf_to_eci p g) h = ecf_to_eci p (g + h) /\
    eci_to_ecf p 0 = p /\ ecf_to_eci p 0 = p /\
    eci_to_ecf p (g + 2 * PI * IZR k) = eci_to_ecf p g /\ ecf_to_eci p (g + 2 * PI * IZR k) = ecf_to_eci p g.
Proof.
  intros p g h k. repeat split; try (apply vec_eq; rot; rewrite ?cos_plus, ?sin_plus, ?cos_0, ?sin_0; ring).
  - apply vec_eq; rot; now rewrite ?sin_turns, ?cos_turns.
  - apply vec_eq; rot; now rewrite ?sin_turns, ?cos_turns.
Qed.
Print Assumptions C39_group.

(** Only the longitude depends on the angle: the rotation is trivial exactly on the axis or for whole turns. *)
Theorem C39_faithful :
  forall (p : Vec3 R) (g : R), eci_to_ecf p g = p -> (v_x p = 0 /\ v_y p = 0) \/ exists k : Z, g = 2 * PI * IZR k.
Proof.
  intros p g H. pose proof (f_equal v_x H) as HX. pose proof (f_equal v_y H) as HY. revert HX HY. rot. intros HX HY.
  destruct (Req_dec (v_x p * v_x p + v_y p * v_y p) 0) as [E|N]; [left; nra|right].
  assert (C : cos g = cos 0 /\ sin g = sin 0).
  { rewrite cos_0, sin_0. split.
    - apply (Rmult_eq_reg_l (v_x p * v_x p + v_y p * v_y p)); [|exact N].
      transitivity (v_x p * (v_x p * cos g + v_y p * sin g) + v_y p * (v_x p * - sin g + v_y p * cos g)); [ring|]. rewrite HX, HY. ring.
    - apply (Rmult_eq_reg_l (v_x p * v_x p + v_y p * v_y p)); [|exact N].
      transitivity (v_y p * (v_x p * cos g + v_y p * sin g) - v_x p * (v_x p * - sin g + v_y p * cos g)); [ring|]. rewrite HX, HY. ring. }
  destruct (sc_eq g 0) as [k K]; [apply C|apply C|]. exists k. lra.
Qed.
Print Assumptions C39_faithful.

(** Non-vacuity: a quarter turn takes (1,0,5) to (0,-1,5). *)
Example C39_example : eci_to_ecf (MkVec3 1 0 5) (PI / 2) = MkVec3 0 (-1) 5.
Proof. apply vec_eq; rot; rewrite ?cos_PI2, ?sin_PI2; ring. Qed.
