(** * C42: geodetic round trip *)
From Coq Require Import ZArith List Bool Reals Lra Lia Psatz.
From Flocq Require Import Core.Raux Core IEEE754.BinarySingleNaN.
From Verif.Model Require Import Float Constants Vec3 Transforms.
From Verif.Inst Require Import RInst RTac B64 Atan2.
From Verif.Golden Require Import Libm.
From Verif.Spec Require Import Vectors3.
From Verif.Proofs Require Import TransformFacts FrameR LongFacts GeodeticError.
From Verif.Props Require Import C39 C40 C41 C45.
Local Open Scope R_scope.

Lemma geo_A_R : @geo_A R ROps = WA.
Proof. unfold geo_A, WA. rops. lra. Qed.
Lemma lat_c_R x : lat_c x = 1 / w_of x.
Proof. unfold lat_c. rewrite E2_R. rops. now rewrite powerRZ_2. Qed.
Lemma lat_step_R z r x : lat_step z r x = Ratan2 (z + WA * (1 / w_of x) * (1 - (WB / WA) ^ 2) * sin x) r.
Proof. unfold lat_step. cbv zeta. rewrite lat_c_R, geo_A_R, E2_R. rops. reflexivity. Qed.
Lemma lat_loop_last n (z r lat c : R) : exists x, lat_loop (S n) z r lat c = (lat_step z r x, lat_c x).
Proof.
  revert lat c. induction n as [|n IH]; intros lat c.
  - now exists lat.
  - destruct (IH (lat_step z r lat) (lat_c lat)) as [x E]. exists x. rewrite <- E. reflexivity.
Qed.

Section RT.
Context (lat lon h g : R).
Context (Hlat : - (PI / 2) < lat < PI / 2) (Hh : 0 <= h).
Let p := ecf_to_eci (geodedic_to_ecf (MkGeodedic lon lat h)) g.
Let N := prime_vertical lat.
Let rad := (N + h) * cos lat.
Lemma coslat : 0 < cos lat. Proof. apply cos_gt_0; lra. Qed.
Lemma Nh_pos : 0 < N + h. Proof. pose proof (prime_vertical_pos lat). unfold N. lra. Qed.
Lemma rad_pos : 0 < rad. Proof. apply Rmult_lt_0_compat; [apply Nh_pos|apply coslat]. Qed.
Lemma p_x : v_x p = rad * cos (lon + g).
Proof. unfold p. rewrite to_ecf_R. cbn [gd_latitude gd_longitude gd_height]. fold N. unfold ecf_to_eci. cbv zeta. cbn [v_x v_y v_z]. rops. rewrite cos_plus. unfold rad. ring. Qed.
Lemma p_y : v_y p = rad * sin (lon + g).
Proof. unfold p. rewrite to_ecf_R. cbn [gd_latitude gd_longitude gd_height]. fold N. unfold ecf_to_eci. cbv zeta. cbn [v_x v_y v_z]. rops. rewrite sin_plus. unfold rad. ring. Qed.
Lemma p_z : v_z p = (N * (WB / WA) ^ 2 + h) * sin lat.
Proof. unfold p. rewrite to_ecf_R. cbn [gd_latitude gd_longitude gd_height]. reflexivity. Qed.
Lemma p_r : sqrt (v_x p * v_x p + v_y p * v_y p) = rad.
Proof.
  rewrite p_x, p_y. pose proof (sc2 (lon + g)) as S. pose proof rad_pos.
  replace (rad * cos (lon + g) * (rad * cos (lon + g)) + rad * sin (lon + g) * (rad * sin (lon + g)))
    with (rad * rad * (sin (lon + g) * sin (lon + g) + cos (lon + g) * cos (lon + g))) by ring.
  rewrite S, Rmult_1_r. apply sqrt_square. lra.
Qed.
Lemma rt_shape fuel g' : eci_to_geodedic fuel p g = Done g' ->
  exists x, gd_latitude g' = lat_step (v_z p) rad x /\ gd_height g' = rad / cos (gd_latitude g') - WA * (1 / w_of x) /\
    (lat = 0 -> sin x = 0).
Proof.
  intros H. unfold eci_to_geodedic in H. cbv zeta in H. rops_in H. rewrite !powerRZ_2, !p_r in H.
  destruct (normalize_long fuel _) as [l| |]; cbn [bindO] in H; try discriminate H.
  set (l0 := Ratan2 (v_z p) rad) in *.
  assert (Z : exists x, lat_loop 20 (v_z p) rad l0 0 = (lat_step (v_z p) rad x, lat_c x) /\ (lat = 0 -> sin x = 0)).
  { assert (G : forall n l1 c, (lat = 0 -> sin l1 = 0) -> exists x, lat_loop (S n) (v_z p) rad l1 c = (lat_step (v_z p) rad x, lat_c x) /\ (lat = 0 -> sin x = 0)).
    { induction n as [|n IH]; intros l1 c Hl.
      - exists l1. now split.
      - destruct (IH (lat_step (v_z p) rad l1) (lat_c l1)) as (x & E & X).
        + intros L. rewrite lat_step_R, p_z, (Hl L), L, sin_0.
          replace ((N * (WB / WA) ^ 2 + h) * 0 + WA * (1 / w_of l1) * (1 - (WB / WA) ^ 2) * 0) with 0 by ring.
          unfold Ratan2. rewrite Rlt_bool_true by apply rad_pos. replace (0 / rad) with 0 by (unfold Rdiv; ring). rewrite atan_0. apply sin_0.
        + exists x. split; [|exact X]. rewrite <- E. reflexivity. }
    apply G. intros L. unfold l0. rewrite p_z, L, sin_0, Rmult_0_r. unfold Ratan2. rewrite Rlt_bool_true by apply rad_pos.
    replace (0 / rad) with 0 by (unfold Rdiv; ring). rewrite atan_0. apply sin_0. }
  destruct Z as (x & E & X). rewrite E in H. apply Done_inj in H. rewrite <- H. cbn [gd_latitude gd_height]. exists x. split; [reflexivity|].
  split; [|exact X]. now rewrite lat_c_R, geo_A_R.
Qed.
End RT.

(** Longitude survives the round trip geodetic -> ECF -> ECI -> geodetic, at every sidereal angle. *)
Theorem C42_longitude :
  forall (lat lon h gmst : R) fuel g',
    - (PI / 2) < lat < PI / 2 -> - PI < lon < PI -> 0 <= h ->
    eci_to_geodedic fuel (ecf_to_eci (geodedic_to_ecf (MkGeodedic lon lat h)) gmst) gmst = Done g' ->
    gd_longitude g' = lon.
Proof.
  intros lat lon h g fuel g' Hlat Hlon Hh H. apply C41_ranges in H. destruct H as ((X & Y) & _ & R & _).
  rewrite p_r in X, Y by assumption. rewrite p_x in X. rewrite p_y in Y. pose proof (rad_pos lat h Hlat Hh) as P.
  assert (C : cos (lon + g) = cos (gd_longitude g' + g)) by (apply (Rmult_eq_reg_l ((prime_vertical lat + h) * cos lat)); lra).
  assert (S : sin (lon + g) = sin (gd_longitude g' + g)) by (apply (Rmult_eq_reg_l ((prime_vertical lat + h) * cos lat)); lra).
  destruct (sc_eq _ _ C S) as [k K]. pose proof PI_RGT_0.
  assert (B : -1 < IZR k < 1) by (split; nra). destruct B as [B1 B2]. apply lt_IZR in B1, B2.
  assert (k = 0%Z) by lia. subst k. lra.
Qed.
Print Assumptions C42_longitude.

(** Latitude and height survive exactly on the equator and nowhere else (the iteration's c lacks a
    square root), even in exact arithmetic. *)
Theorem C42_latitude_height_only_on_equator :
  forall (lat lon h gmst : R) fuel g',
    - (PI / 2) < lat < PI / 2 -> 0 <= h ->
    eci_to_geodedic fuel (ecf_to_eci (geodedic_to_ecf (MkGeodedic lon lat h)) gmst) gmst = Done g' ->
    (gd_latitude g' = lat /\ gd_height g' = h) <-> lat = 0.
Proof.
  intros lat lon h g fuel g' Hlat Hh H. apply rt_shape in H; try assumption. destruct H as (x & L & HH & X0).
  pose proof (rad_pos lat h Hlat Hh) as P. pose proof (coslat lat Hlat) as CL. pose proof (Nh_pos lat h Hh) as NP.
  pose proof WA_pos as WAp. pose proof (w_pos x) as Wx. rewrite lat_step_R in L. rewrite p_z in L.
  split.
  - intros [E1 E2]. rewrite E1 in *. set (N := prime_vertical lat) in *.
    assert (AC : WA * (1 / w_of x) = N). { replace ((N + h) * cos lat / cos lat) with (N + h) in HH by (field; lra). lra. }
    rewrite AC in L. set (Y := (N * (WB / WA) ^ 2 + h) * sin lat + N * (1 - (WB / WA) ^ 2) * sin x) in *.
    destruct (Ratan2_polar Y ((N + h) * cos lat)) as [R1 R2]. rewrite <- L in R1, R2. set (rho := sqrt _) in *.
    assert (RH : rho = N + h) by (apply (Rmult_eq_reg_r (cos lat)); lra). rewrite RH in R2. unfold Y in R2.
    assert (NP0 : 0 < N) by apply prime_vertical_pos. pose proof E2_bounds as EB.
    assert (SX : sin x = sin lat). { apply (Rmult_eq_reg_l (N * (1 - (WB / WA) ^ 2))); [lra|]. apply Rgt_not_eq, Rmult_lt_0_compat; lra. }
    assert (WW : w_of x = w_of lat) by (unfold w_of; now rewrite SX). rewrite WW in AC. unfold N, prime_vertical in AC.
    pose proof (w_pos lat) as WL. pose proof (sqrt_w_pos lat) as SQ. pose proof (sqrt_sqrt (w_of lat) ltac:(lra)) as SS.
    assert (S1 : sqrt (w_of lat) = 1).
    { assert (T : 1 / w_of lat = / sqrt (w_of lat)) by (apply (Rmult_eq_reg_l WA); [exact AC|lra]).
      apply (f_equal (fun q => q * (w_of lat * sqrt (w_of lat)))) in T.
      replace (1 / w_of lat * (w_of lat * sqrt (w_of lat))) with (sqrt (w_of lat)) in T by (field; lra).
      replace (/ sqrt (w_of lat) * (w_of lat * sqrt (w_of lat))) with (w_of lat) in T by (field; lra). nra. }
    rewrite S1 in SS. assert (ZS : sin lat * sin lat = 0).
    { unfold w_of in SS. apply (Rmult_eq_reg_l (1 - (WB / WA) ^ 2)); lra. }
    assert (ZS0 : sin lat = 0) by nra. rewrite <- (asin_sin lat), ZS0; [apply asin_0|lra].
  - intros ->. specialize (X0 eq_refl). rewrite X0, sin_0 in L.
    assert (W1 : w_of x = 1) by (unfold w_of; rewrite X0; ring).
    assert (L0 : gd_latitude g' = 0).
    { rewrite L. replace ((prime_vertical 0 * (WB / WA) ^ 2 + h) * 0 + WA * (1 / w_of x) * (1 - (WB / WA) ^ 2) * 0) with 0 by ring.
      unfold Ratan2. rewrite Rlt_bool_true by exact P. replace (0 / ((prime_vertical 0 + h) * cos 0)) with 0 by (unfold Rdiv; ring). apply atan_0. }
    split; [exact L0|]. rewrite HH, L0, W1, cos_0. unfold prime_vertical, w_of. rewrite sin_0.
    replace (1 - (1 - (WB / WA) ^ 2) * (0 * 0)) with 1 by ring. rewrite sqrt_1. field.
Qed.
Print Assumptions C42_latitude_height_only_on_equator.

(** How wrong latitude and height come back: the latitude within 2.4e-5 radian (about 5 seconds of
    arc), the height low by 21.35 km times the squared sine of the latitude, within 2 percent for
    satellites in low orbit. *)
Lemma E2_tight : 669 / 100000 < 1 - (WB / WA) ^ 2 < 6695 / 1000000.
Proof. unfold WA, WB. lra. Qed.
Lemma loop_after (A e phi h : R) (HA : 0 < A) (He : 669 / 100000 < e < 6695 / 1000000)
  (Hphi : - (PI / 2) < phi < PI / 2) (Hh : 0 <= h) z r :
  r = (A / sqrt (1 - e * (sin phi * sin phi)) + h) * cos phi ->
  z = (A / sqrt (1 - e * (sin phi * sin phi)) * (1 - e) + h) * sin phi ->
  let step x := Ratan2 (z + A * (1 / (1 - e * (sin x * sin x))) * e * sin x) r in
  forall n x, Rabs (x - phi) <= 675 / 100000 * (cos phi * Rabs (sin phi)) ->
    Rabs (Nat.iter (S (S n)) step x - phi) <= 24 / 1000000 * (cos phi * Rabs (sin phi)).
Proof.
  intros Er Ez step n x Hx. assert (P : 0 <= cos phi * Rabs (sin phi)) by (apply Rmult_le_pos; [apply cos_ge_0; lra|apply Rabs_pos]).
  assert (ST : forall x m, 0 <= m -> Rabs (x - phi) <= m * (cos phi * Rabs (sin phi)) ->
     Rabs (step x - phi) <= (6905 / 1000000 * m + 2285 / 100000000) * (cos phi * Rabs (sin phi))).
  { intros y m Hm Hy. unfold step. rewrite Er, Ez. now apply ge_step. }
  induction n as [|n IH].
  - cbn [Nat.iter nat_rect]. pose proof (ST _ (675 / 100000) ltac:(lra) Hx) as S1. pose proof (ST _ (6905 / 1000000 * (675 / 100000) + 2285 / 100000000) ltac:(lra) S1) as S2.
    eapply Rle_trans; [exact S2|]. apply Rmult_le_compat_r; lra.
  - change (Nat.iter (S (S (S n))) step x) with (step (Nat.iter (S (S n)) step x)). pose proof (ST _ (24 / 1000000) ltac:(lra) IH) as S1.
    eapply Rle_trans; [exact S1|]. apply Rmult_le_compat_r; lra.
Qed.
Lemma iter_in {T} (f : T -> T) n x : Nat.iter n f (f x) = Nat.iter (S n) f x.
Proof. induction n as [|n IH]; [reflexivity|]. cbn [Nat.iter nat_rect] in *. unfold Nat.iter in IH. now rewrite IH. Qed.
Lemma lat_loop_iter step n (z r lat c : R) : (forall x, lat_step z r x = step x) ->
  lat_loop (S n) z r lat c = (Nat.iter (S n) step lat, lat_c (Nat.iter n step lat)).
Proof.
  intros E. revert lat c. induction n as [|n IH]; intros lat c; [cbn [lat_loop Nat.iter nat_rect]; now rewrite E|].
  change (lat_loop (S (S n)) z r lat c) with (lat_loop (S n) z r (lat_step z r lat) (lat_c lat)). now rewrite IH, E, !iter_in.
Qed.

Theorem C42_error_size :
  forall (lat lon h gmst : R) fuel g',
    - (PI / 2) < lat < PI / 2 -> 0 <= h ->
    eci_to_geodedic fuel (ecf_to_eci (geodedic_to_ecf (MkGeodedic lon lat h)) gmst) gmst = Done g' ->
    Rabs (gd_latitude g' - lat) <= 24 / 1000000 * (cos lat * Rabs (sin lat)) /\
    Rabs (gd_height g' - (h - 2135 / 100 * sin lat ^ 2)) <= (35 / 100 + h / 40000) * sin lat ^ 2.
Proof.
  intros lat lon h g fuel g' Hlat Hh H. unfold eci_to_geodedic in H. cbv zeta in H. rops_in H.
  rewrite !powerRZ_2, !p_r in H by assumption. rewrite p_z in H.
  destruct (normalize_long fuel _) as [l| |]; cbn [bindO] in H; try discriminate H.
  set (e := 1 - (WB / WA) ^ 2). assert (Ek : (WB / WA) ^ 2 = 1 - e) by (unfold e; ring).
  set (r := (prime_vertical lat + h) * cos lat) in *. set (z := (prime_vertical lat * (WB / WA) ^ 2 + h) * sin lat) in *.
  pose proof WA_pos as PA. pose proof E2_tight as ET. fold e in ET.
  assert (Er : r = (WA / sqrt (1 - e * (sin lat * sin lat)) + h) * cos lat) by reflexivity.
  assert (Ez : z = (WA / sqrt (1 - e * (sin lat * sin lat)) * (1 - e) + h) * sin lat) by (unfold z; rewrite Ek; reflexivity).
  set (step := fun x => Ratan2 (z + WA * (1 / (1 - e * (sin x * sin x))) * e * sin x) r).
  assert (ES : forall x, lat_step z r x = step x) by (intros x; rewrite lat_step_R; reflexivity).
  set (x0 := Ratan2 z r) in *.
  assert (S0 : Rabs (x0 - lat) <= 675 / 100000 * (cos lat * Rabs (sin lat))).
  { unfold x0. rewrite Er, Ez. now apply ge_start. }
  pose proof (loop_after WA e lat h PA ET Hlat Hh z r Er Ez 17 x0 S0) as S19.
  pose proof (loop_after WA e lat h PA ET Hlat Hh z r Er Ez 18 x0 S0) as S20. cbv zeta in S19, S20. fold step in S19, S20.
  pose proof (lat_loop_iter step 19 z r x0 0 ES) as LI.
  revert S19 S20 LI. generalize (Nat.iter 19 step x0) as x19, (Nat.iter 20 step x0) as x20. intros x19 x20 S19 S20 LI.
  rewrite LI, lat_c_R, geo_A_R in H. apply Done_inj in H.
  rewrite <- H. cbn [gd_latitude gd_height]. split; [exact S20|].
  pose proof (ge_height WA e lat h PA ET Hlat Hh x19 x20 S19 S20) as GH. cbv beta zeta in GH. rewrite <- Er in GH.
  change (1 - e * (sin x19 * sin x19)) with (w_of x19) in GH. set (v := r / cos x20 - WA * (1 / w_of x19)) in *.
  replace (sin lat * sin lat) with (sin lat ^ 2) in GH by ring. set (s2 := sin lat ^ 2) in *.
  assert (P2 : 0 <= s2) by apply pow2_ge_0. assert (HS : 0 <= h * s2) by (apply Rmult_le_pos; lra).
  assert (AE : 2134 / 100 <= WA * e / 2 <= 2136 / 100) by (unfold e, WA, WB; lra).
  assert (AB : WA * (533 / 10000000) <= 34 / 100) by (unfold WA; lra).
  apply Rabs_le_inv in GH. apply Rabs_le. 
  assert (M1 : WA * e / 2 * s2 <= 2136 / 100 * s2) by (apply Rmult_le_compat_r; lra).
  assert (M2 : 2134 / 100 * s2 <= WA * e / 2 * s2) by (apply Rmult_le_compat_r; lra).
  assert (M3 : WA * (533 / 10000000) * s2 <= 34 / 100 * s2) by (apply Rmult_le_compat_r; lra).
  rewrite Rmult_plus_distr_r in GH. lra.
Qed.
Print Assumptions C42_error_size.

(** So for any position off the polar axis and not below the ellipsoid: it has true geodetic
    coordinates (C40), and the ones returned are off by at most that much. *)
Theorem C42_every_position :
  forall (p : Vec3 R) (gmst : R) fuel g',
    1 <= (v_x p ^ 2 + v_y p ^ 2) / WA ^ 2 + v_z p ^ 2 / WB ^ 2 -> (v_x p <> 0 \/ v_y p <> 0) ->
    eci_to_geodedic fuel p gmst = Done g' ->
    exists lat lon h, 0 <= h /\ - (PI / 2) < lat < PI / 2 /\ - PI < lon <= PI /\
      geodedic_to_ecf (MkGeodedic lon lat h) = eci_to_ecf p gmst /\
      (lon < PI -> gd_longitude g' = lon) /\
      Rabs (gd_latitude g' - lat) <= 24 / 1000000 * (cos lat * Rabs (sin lat)) /\
      Rabs (gd_height g' - (h - 2135 / 100 * sin lat ^ 2)) <= (35 / 100 + h / 40000) * sin lat ^ 2.
Proof.
  intros p g fuel g' HO HX H. pose proof PI_RGT_0.
  assert (R2 : v_x (eci_to_ecf p g) ^ 2 + v_y (eci_to_ecf p g) ^ 2 = v_x p ^ 2 + v_y p ^ 2).
  { unfold eci_to_ecf. cbv zeta. cbn [v_x v_y]. rops. pose proof (sc2 g) as S.
    transitivity ((v_x p ^ 2 + v_y p ^ 2) * (sin g * sin g + cos g * cos g)); [ring|rewrite S; ring]. }
  assert (Z2 : v_z (eci_to_ecf p g) = v_z p) by reflexivity.
  destruct (C40_everywhere (eci_to_ecf p g)) as (lat & lon & h & B1 & B2 & B3 & E); [rewrite R2, Z2; exact HO|].
  assert (EI : ecf_to_eci (geodedic_to_ecf (MkGeodedic lon lat h)) g = p) by (rewrite E; apply C39_inverse).
  assert (NP : - (PI / 2) < lat < PI / 2).
  { assert (cos lat <> 0).
    { intros C. assert (v_x (eci_to_ecf p g) ^ 2 + v_y (eci_to_ecf p g) ^ 2 = 0).
      { rewrite <- E, to_ecf_R. cbn [v_x v_y gd_latitude gd_longitude gd_height]. rewrite C. ring. }
      rewrite R2 in *. pose proof (pow2_ge_0 (v_x p)). pose proof (pow2_ge_0 (v_y p)).
      destruct HX as [N|N]; apply N; apply Rsqr_0_uniq; rewrite Rsqr_pow2; lra. }
    destruct (Req_dec lat (PI / 2)) as [->|]; [rewrite cos_PI2 in *; lra|].
    destruct (Req_dec lat (- (PI / 2))) as [->|]; [rewrite cos_neg, cos_PI2 in *; lra|]. lra. }
  rewrite <- EI in H. exists lat, lon, h. repeat split; try (exact E || lra).
  - intros L. apply C42_longitude in H; [exact H|exact NP|lra|exact B3].
  - now apply C42_error_size in H.
  - now apply C42_error_size in H.
Qed.
Print Assumptions C42_every_position.

(** Non-vacuity, and the size of the error: binary64 at latitude 45 degrees, height 0 km: the
    recovered height is off by more than 10 km. *)
Example C42_example :
  (match @eci_to_geodedic _ (B64Ops the_libm) 3 (geodedic_to_ecf (MkGeodedic (lit 0 0) (lit 785398163397448 (-15)) (lit 0 0))) (lit 0 0) with
   | Done g => flt (gd_height g) (lit (-10) 0) | _ => false end) = true /\
  exists g', eci_to_geodedic 1 (ecf_to_eci (geodedic_to_ecf (MkGeodedic 0 (PI / 4) 0)) 0) 0 = Done g' /\ gd_longitude g' = 0.
Proof.
  split; [vm_compute; reflexivity|]. pose proof PI_RGT_0.
  destruct (C41_terminates 1 (ecf_to_eci (geodedic_to_ecf (MkGeodedic 0 (PI / 4) 0)) 0) 0) as [g G].
  { pose proof (Ratan2_range (v_y (ecf_to_eci (geodedic_to_ecf (MkGeodedic 0 (PI / 4) 0)) 0)) (v_x (ecf_to_eci (geodedic_to_ecf (MkGeodedic 0 (PI / 4) 0)) 0))).
    rewrite Rminus_0_r. cbn [INR]. apply Rabs_le. lra. }
  exists g. split; [exact G|]. apply C42_longitude in G; [exact G|lra|lra|lra].
Qed.
