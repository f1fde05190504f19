(** * C43: the topocentric transform *)
From Coq Require Import ZArith List Bool Reals Lra Psatz.
From Coquelicot Require Import Coquelicot.
From Verif.Model Require Import Float Constants Vec3 Transforms.
From Verif.Inst Require Import RInst RTac Atan2.
From Verif.Spec Require Import Vectors3.
From Verif.Proofs Require Import TransformFacts FrameR CurvatureFacts.
From Verif.Props Require Import C40.
Local Open Scope R_scope.

(** The observer's south, east and up directions (up is C40's geodetic vertical). *)
Definition south (lat lon : R) : Vec3 R := MkVec3 (sin lat * cos lon) (sin lat * sin lon) (- cos lat).
Definition east (lon : R) : Vec3 R := MkVec3 (- sin lon) (cos lon) 0.

(** They are a right-handed orthonormal basis. *)
Theorem C43_basis :
  forall lat lon : R,
    let S := south lat lon in let E := east lon in let U := up lat lon in
    dot S S = 1 /\ dot E E = 1 /\ dot U U = 1 /\ dot S E = 0 /\ dot S U = 0 /\ dot E U = 0 /\ cross S E = U.
Proof.
  intros lat lon. pose proof (sc2 lon) as L1. pose proof (sc2 lat) as L2. cbv zeta.
  unfold south, east, up, dot, cross; cbn [v_x v_y v_z]. repeat split.
  - transitivity (sin lat * sin lat * (sin lon * sin lon + cos lon * cos lon) + cos lat * cos lat); [ring|]. rewrite L1. lra.
  - lra.
  - transitivity (cos lat * cos lat * (sin lon * sin lon + cos lon * cos lon) + sin lat * sin lat); [ring|]. rewrite L1. lra.
  - ring.
  - transitivity (sin lat * cos lat * (sin lon * sin lon + cos lon * cos lon) - sin lat * cos lat); [ring|]. rewrite L1. lra.
  - ring.
  - f_equal; [ring|ring|]. transitivity (sin lat * (sin lon * sin lon + cos lon * cos lon)); [ring|]. rewrite L1. ring.
Qed.
Print Assumptions C43_basis.

(** They are the directions a user means: moving the observer's geodetic point east changes it along
    [east], north along minus [south], and up along [up]. *)
Theorem C43_directions :
  forall lat lon h : R, 0 <= h ->
    let pos lat lon h := geodedic_to_ecf (MkGeodedic lon lat h) in
    (forall f, f = v_x \/ f = v_y \/ f = v_z ->
      is_derive (fun l => f (pos lat l h)) lon ((prime_vertical lat + h) * cos lat * f (east lon))) /\
    (exists k, 0 < k /\ forall f, f = v_x \/ f = v_y \/ f = v_z ->
      is_derive (fun l => f (pos l lon h)) lat (k * - f (south lat lon))) /\
    (forall f, f = v_x \/ f = v_y \/ f = v_z ->
      is_derive (fun a => f (pos lat lon a)) h (f (up lat lon))).
Proof.
  intros lat lon h Hh pos. unfold pos.
  assert (X : forall la lo a, v_x (geodedic_to_ecf (MkGeodedic lo la a)) = (prime_vertical la + a) * cos la * cos lo) by (intros; now rewrite to_ecf_R).
  assert (Y : forall la lo a, v_y (geodedic_to_ecf (MkGeodedic lo la a)) = (prime_vertical la + a) * cos la * sin lo) by (intros; now rewrite to_ecf_R).
  assert (Z : forall la lo a, v_z (geodedic_to_ecf (MkGeodedic lo la a)) = (prime_vertical la * (WB / WA) ^ 2 + a) * sin la) by (intros; now rewrite to_ecf_R).
  pose proof (w_pos lat) as W.
  split; [|split].
  - intros f [->|[->| ->]]; cbn [east v_x v_y v_z].
    + eapply is_derive_ext; [intros t; symmetry; apply X|]. auto_derive; [trivial|ring].
    + eapply is_derive_ext; [intros t; symmetry; apply Y|]. auto_derive; [trivial|ring].
    + eapply is_derive_ext; [intros t; symmetry; apply Z|]. auto_derive; [trivial|ring].
  - exists (prime_vertical lat * (WB / WA) ^ 2 / w_of lat + h).
    assert (P : 0 < prime_vertical lat * (WB / WA) ^ 2 / w_of lat).
    { pose proof (prime_vertical_pos lat). apply Rdiv_lt_0_compat; [|lra]. apply Rmult_lt_0_compat; [lra|].
      apply pow_lt, Rdiv_lt_0_compat; [apply WB_pos|apply WA_pos]. }
    split; [lra|].
    assert (W0 : 0 < w (1 - (WB / WA) ^ 2) lat) by (change (0 < w_of lat); lra).
    assert (EB : 1 - (1 - (WB / WA) ^ 2) = (WB / WA) ^ 2) by ring.
    intros f [->|[->| ->]]; cbn [south v_x v_y v_z].
    + eapply is_derive_ext; [intros t; symmetry; apply X|]. pose proof (dx WA (1 - (WB / WA) ^ 2) h (cos lon) lat W0) as D.
      rewrite EB in D. exact D.
    + eapply is_derive_ext; [intros t; symmetry; apply Y|]. pose proof (dx WA (1 - (WB / WA) ^ 2) h (sin lon) lat W0) as D.
      rewrite EB in D. exact D.
    + eapply is_derive_ext; [intros t; symmetry; apply Z|]. pose proof (dz WA (1 - (WB / WA) ^ 2) h lat W0) as D.
      rewrite EB in D. rewrite Ropp_involutive. exact D.
  - intros f [->|[->| ->]]; cbn [up v_x v_y v_z].
    + eapply is_derive_ext; [intros t; symmetry; apply X|]. auto_derive; [trivial|ring].
    + eapply is_derive_ext; [intros t; symmetry; apply Y|]. auto_derive; [trivial|ring].
    + eapply is_derive_ext; [intros t; symmetry; apply Z|]. auto_derive; [trivial|ring].
Qed.
Print Assumptions C43_directions.

(** topocentric returns the coordinates of satellite - observer in that basis. *)
Theorem C43_coordinates :
  forall (o : Geodedic R) (p : Vec3 R),
    let S := south (gd_latitude o) (gd_longitude o) in let E := east (gd_longitude o) in let U := up (gd_latitude o) (gd_longitude o) in
    let t := topocentric o p in
    let d := minus p (geodedic_to_ecf o) in
    tc_top_s t = dot S d /\ tc_top_e t = dot E d /\ tc_top_z t = dot U d /\ d = plus (scale (tc_top_s t) S) (plus (scale (tc_top_e t) E) (scale (tc_top_z t) U)).
Proof.
  intros o p. cbv zeta. unfold topocentric. cbv zeta. cbn [tc_top_s tc_top_e tc_top_z].
  assert (D : vsub p (geodedic_to_ecf o) = minus p (geodedic_to_ecf o)).
  { unfold vsub, minus, plus, scale. cbn [v_x v_y v_z]. rops. f_equal; ring. }
  rewrite D. generalize (minus p (geodedic_to_ecf o)). intros d. generalize (gd_latitude o), (gd_longitude o). intros la lo.
  rops. pose proof (sc2 lo) as L1. pose proof (sc2 la) as L2. unfold dot, south, east, up. cbn [v_x v_y v_z].
  split; [ring|]. split; [ring|]. split; [ring|].
  apply vec_eq; unfold plus, scale; cbn [v_x v_y v_z].
  - transitivity (v_x d * ((sin la * sin la + cos la * cos la) * (cos lo * cos lo) + sin lo * sin lo)
      + v_y d * (((sin la * sin la + cos la * cos la) - 1) * (sin lo * cos lo))); [|ring]. rewrite L2.
    transitivity (v_x d * (sin lo * sin lo + cos lo * cos lo)); [rewrite L1; ring|ring].
  - transitivity (v_y d * ((sin la * sin la + cos la * cos la) * (sin lo * sin lo) + cos lo * cos lo)
      + v_x d * (((sin la * sin la + cos la * cos la) - 1) * (sin lo * cos lo))); [|ring]. rewrite L2.
    transitivity (v_y d * (sin lo * sin lo + cos lo * cos lo)); [rewrite L1; ring|ring].
  - transitivity (v_z d * (sin la * sin la + cos la * cos la)); [rewrite L2; ring|ring].
Qed.
Print Assumptions C43_coordinates.

(** So it preserves length: the topocentric vector is as long as the distance observer-satellite. *)
Theorem C43_isometry :
  forall (o : Geodedic R) (p : Vec3 R),
    let t := topocentric o p in
    sqrt (tc_top_s t ^ 2 + tc_top_e t ^ 2 + tc_top_z t ^ 2) = vrange (geodedic_to_ecf o) p.
Proof.
  intros o p. destruct (C43_coordinates o p) as (_ & _ & _ & D). cbv zeta in *.
  set (t := topocentric o p) in *. rewrite vrange_norm, <- norm_opp.
  replace (scale (-1) (minus (geodedic_to_ecf o) p)) with (minus p (geodedic_to_ecf o)).
  2:{ unfold minus, plus, scale. cbn [v_x v_y v_z]. f_equal; ring. }
  rewrite D. unfold norm. f_equal.
  destruct (C43_basis (gd_latitude o) (gd_longitude o)) as (SS & EE & UU & SE & SU & EU & _). cbv zeta in *.
  rewrite !dot_plus_l, !dot_plus_r, !dot_scale_l, !dot_scale_r.
  rewrite (dot_comm (east _) (south _ _)), (dot_comm (up _ _) (south _ _)), (dot_comm (up _ _) (east _)), SS, EE, UU, SE, SU, EU. ring.
Qed.
Print Assumptions C43_isometry.

(** Non-vacuity: a satellite 500 km straight above an observer at latitude 0, longitude 0. *)
Example C43_example :
  topocentric (MkGeodedic 0 0 0) (MkVec3 (WA + 500) 0 0) = MkTopo 0 0 500.
Proof.
  unfold topocentric. cbv zeta. cbn [gd_latitude gd_longitude]. rewrite to_ecf_R. cbn [gd_latitude gd_longitude gd_height].
  unfold vsub. cbn [v_x v_y v_z]. rops. unfold prime_vertical, w_of. rewrite cos_0, sin_0.
  replace (1 - (1 - (WB / WA) ^ 2) * (0 * 0)) with 1 by ring. rewrite sqrt_1. pose proof WA_pos. f_equal; field; lra.
Qed.
