(** * C44: look angles *)
From Coq Require Import ZArith List Bool Reals Lra Psatz.
From Flocq Require Import Core.Raux.
From Verif.Model Require Import Float Constants Vec3 Transforms.
From Verif.Inst Require Import RInst RTac Atan2.
From Verif.Spec Require Import Vectors3.
From Verif.Proofs Require Import TransformFacts FrameR.
From Verif.Props Require Import C40 C43.
Local Open Scope R_scope.

Lemma look_R (t : TopoCentric R) : let s := tc_top_s t in let e := tc_top_e t in let z := tc_top_z t in
  topocentric_to_look_angles t =
  MkBearing (Ratan2 (- e) s + PI) (asin (z / sqrt (s * s + e * e + z * z))) (sqrt (s * s + e * e + z * z)).
Proof. cbv zeta. unfold topocentric_to_look_angles. cbv zeta. unfold kPI. rops. now rewrite !powerRZ_2. Qed.

Lemma look_recon s e z : 0 < s * s + e * e + z * z ->
  let b := topocentric_to_look_angles (MkTopo s e z) in
  let rng := be_range b in let el := be_elevation b in let az := be_azimuth b in
  0 < rng /\ rng * rng = s * s + e * e + z * z /\ - (PI / 2) <= el <= PI / 2 /\ 0 < az <= 2 * PI /\
  rng * cos el * cos az = - s /\ rng * cos el * sin az = e /\ rng * sin el = z.
Proof.
  intros H b. unfold b. rewrite look_R. cbn [tc_top_s tc_top_e tc_top_z be_range be_elevation be_azimuth].
  set (d := sqrt (s * s + e * e + z * z)).
  assert (D : 0 < d) by (apply sqrt_lt_R0; exact H).
  assert (DD : d * d = s * s + e * e + z * z) by (apply sqrt_sqrt; lra).
  assert (Q : -1 <= z / d <= 1).
  { assert (- d <= z <= d) by (split; nra). split; apply (Rmult_le_reg_r d); try lra; unfold Rdiv; rewrite Rmult_assoc, Rinv_l by lra; lra. }
  destruct (Ratan2_polar (- e) s) as [A1 A2]. pose proof (Ratan2_range (- e) s) as AR.
  set (a := Ratan2 (- e) s) in *. set (rho := sqrt (s * s + - e * - e)) in *.
  assert (CE : d * cos (asin (z / d)) = rho).
  { rewrite cos_asin by exact Q. unfold rho.
    replace (s * s + - e * - e) with ((d * d) * (1 - (z / d)²)) by (unfold Rsqr; field_simplify; [rewrite <- !Rsqr_pow2; unfold Rsqr; lra|lra]).
    rewrite sqrt_mult_alt, sqrt_square by nra. reflexivity. }
  rewrite sin_asin by exact Q. rewrite neg_cos, neg_sin, CE.
  repeat split; try exact D; try exact DD; try (pose proof (asin_bound (z / d)); lra); try lra.
  field. lra.
Qed.

(** For a satellite that is not at the observer: range is the distance, elevation and azimuth are in
    their ranges, and they reconstruct the satellite's (north, east, up) coordinates. *)
Theorem C44_look_angles :
  forall (o : Geodedic R) (p : Vec3 R),
    p <> geodedic_to_ecf o ->
    let b := ecf_to_look_angles o p in
    let rng := be_range b in let el := be_elevation b in let az := be_azimuth b in
    let north := scale (-1) (south (gd_latitude o) (gd_longitude o)) in
    let d := minus p (geodedic_to_ecf o) in
    rng = vrange (geodedic_to_ecf o) p /\ 0 < rng /\ - (PI / 2) <= el <= PI / 2 /\ 0 < az <= 2 * PI /\
    rng * cos el * cos az = dot north d /\
    rng * cos el * sin az = dot (east (gd_longitude o)) d /\
    rng * sin el = dot (up (gd_latitude o) (gd_longitude o)) d.
Proof.
  intros o p N. cbv zeta. unfold ecf_to_look_angles.
  destruct (C43_coordinates o p) as (S & E & Z & _). pose proof (C43_isometry o p) as I. cbv zeta in S, E, Z, I.
  set (t := topocentric o p) in *. rewrite dot_scale_l, <- S, <- E, <- Z.
  assert (V : 0 < vrange (geodedic_to_ecf o) p).
  { rewrite vrange_norm. destruct (norm_nonneg (minus (geodedic_to_ecf o) p)) as [H|H]; [exact H|]. elim N.
    symmetry in H. apply norm_zero in H. symmetry. now apply minus_zero. }
  assert (H : 0 < tc_top_s t * tc_top_s t + tc_top_e t * tc_top_e t + tc_top_z t * tc_top_z t).
  { destruct (Rle_lt_dec (tc_top_s t ^ 2 + tc_top_e t ^ 2 + tc_top_z t ^ 2) 0) as [C|C]; [|lra].
    rewrite (sqrt_neg_0 _ C) in I. lra. }
  destruct t as [s e z]. cbn [tc_top_s tc_top_e tc_top_z] in *.
  destruct (look_recon s e z H) as (R1 & R2 & R3 & R4 & R5 & R6 & R7). cbv zeta in *.
  repeat split; try assumption; try lra.
Qed.
Print Assumptions C44_look_angles.

(** They are the only such angles: any range > 0, elevation in [-pi/2, pi/2] and azimuth in (0, 2 pi]
    reproducing the (north, east, up) coordinates of a satellite not on the vertical are the returned ones. *)
Theorem C44_unique :
  forall s e z rng el az : R,
    0 < rng -> - (PI / 2) <= el <= PI / 2 -> 0 < az <= 2 * PI -> ~ (s = 0 /\ e = 0) ->
    rng * cos el * cos az = - s -> rng * cos el * sin az = e -> rng * sin el = z ->
    topocentric_to_look_angles (MkTopo s e z) = MkBearing az el rng.
Proof.
  intros s e z rng el az Hr He Ha N C1 C2 C3. pose proof PI_RGT_0 as P.
  assert (H : 0 < s * s + e * e) by nra.
  destruct (look_recon s e z ltac:(nra)) as (R1 & R2 & R3 & R4 & R5 & R6 & R7). cbv zeta in *.
  destruct (topocentric_to_look_angles (MkTopo s e z)) as [az' el' rng']. cbn [be_range be_elevation be_azimuth] in *.
  pose proof (sc2 az) as Saz. pose proof (sc2 el) as Sel.
  assert (E1 : rng = rng').
  { assert (rng * rng = s * s + e * e + z * z).
    { rewrite <- C3. replace (s * s) with ((- s) * (- s)) by ring. rewrite <- C1, <- C2.
      transitivity (rng * rng * (cos el * cos el * (sin az * sin az + cos az * cos az) + sin el * sin el)); [rewrite Saz|ring].
      replace (cos el * cos el * 1 + sin el * sin el) with 1 by lra. ring. }
    nra. }
  subst rng'.
  assert (E2 : el = el').
  { rewrite <- (asin_sin el) by lra. rewrite <- (asin_sin el') by lra. f_equal. apply (Rmult_eq_reg_l rng); lra. }
  subst el'.
  assert (CP : 0 < cos el).
  { destruct (Rle_lt_or_eq_dec 0 (cos el)) as [Q|Q]; [apply cos_ge_0; lra|exact Q|]. rewrite <- Q in C1, C2. elim N. split; lra. }
  assert (K : 0 < rng * cos el) by nra.
  assert (E3 : az = az').
  { destruct (sc_eq az az') as [k E].
    - apply (Rmult_eq_reg_l (rng * cos el)); lra.
    - apply (Rmult_eq_reg_l (rng * cos el)); lra.
    - assert (B : -1 < IZR k < 1) by (split; nra). destruct B as [B1 B2]. apply lt_IZR in B1, B2. assert (k = 0%Z) by Lia.lia. subst k. lra. }
  now subst.
Qed.
Print Assumptions C44_unique.

(** Non-vacuity: a satellite 500 km straight up from (0, 0) is at elevation 90 degrees, and one
    displaced 100 km due east is at azimuth 90 degrees, elevation 0. *)
Example C44_example :
  be_elevation (ecf_to_look_angles (MkGeodedic 0 0 0) (MkVec3 (WA + 500) 0 0)) = PI / 2 /\
  be_azimuth (ecf_to_look_angles (MkGeodedic 0 0 0) (MkVec3 WA 100 0)) = PI / 2.
Proof.
  pose proof WA_pos. pose proof PI_RGT_0. split.
  - unfold ecf_to_look_angles. rewrite C43_example, look_R. cbn [tc_top_s tc_top_e tc_top_z be_elevation].
    replace (0 * 0 + 0 * 0 + 500 * 500) with (500 * 500) by ring. rewrite sqrt_square by lra. replace (500 / 500) with 1 by field. apply asin_1.
  - unfold ecf_to_look_angles. rewrite look_R. cbn [be_azimuth].
    assert (T : topocentric (MkGeodedic 0 0 0) (MkVec3 WA 100 0) = MkTopo 0 100 0).
    { unfold topocentric. cbv zeta. cbn [gd_latitude gd_longitude]. rewrite to_ecf_R. cbn [gd_latitude gd_longitude gd_height].
      unfold vsub. cbn [v_x v_y v_z]. rops. unfold prime_vertical, w_of. rewrite cos_0, sin_0.
      replace (1 - (1 - (WB / WA) ^ 2) * (0 * 0)) with 1 by ring. rewrite sqrt_1. f_equal; field; lra. }
    rewrite T. cbn [tc_top_s tc_top_e]. unfold Ratan2. rewrite !Rlt_bool_f by lra. rewrite Rlt_bool_t by lra. lra.
Qed.
