(** * C59: the inverse geodetic transform in binary64 is accurate *)
From Coq Require Import ZArith QArith Reals Qreals Bool Lra Lia Psatz.
From Flocq Require Import Core IEEE754.BinarySingleNaN.
From Verif.Model Require Import Float Constants Vec3 Transforms.
From Verif.Spec Require Import LibmAccuracy.
From Verif.Inst Require Import RInst RTac B64 B64Facts B64Calc Atan2.
From Verif.Proofs Require Import CalcFun CalcPow CalcAngle LibmExists TransformFacts FrameR LongFacts GeodeticError GeoAcc.
From Verif.Props Require Import C39 C40 C41 C42 C45 C56.
Local Open Scope R_scope.

(** a position between 6000 and 100000 km from the centre, and off the poles (no closer to the axis than a
    thousandth of its distance to the centre) *)
Definition axis_distance (p : Vec3 R) : R := sqrt (v_x p * v_x p + v_y p * v_y p).
Definition centre_distance (p : Vec3 R) : R := sqrt (axis_distance p * axis_distance p + v_z p * v_z p).
Definition ordinary (p : Vec3 R) : Prop := 6000 <= centre_distance p <= 100000 /\ centre_distance p <= 1000 * axis_distance p.
Definition finite_vec (p : Vec3 b64) : Prop := is_finite (v_x p) = true /\ is_finite (v_y p) = true /\ is_finite (v_z p) = true.

(** The computed latitude and longitude are within 1e-14 of those of the same computation without rounding
    (longitude up to whole turns: the cut at 180 degrees), the height within 2e-14 R^2/rho km, R the distance
    to the centre and rho to the axis: a millimetre at R = 7000 km, one degree off the pole. *)
Theorem C59_inverse_accuracy :
  forall (lm : libm) (p : Vec3 b64) (gmst : b64) (fuel : nat),
    accurate lm -> finite_vec p -> within 7 gmst -> ordinary (exact_vec p) -> (2 <= fuel)%nat ->
    exists g g', eci_to_geodedic (FO := B64Ops lm) fuel p gmst = Done g /\
      eci_to_geodedic (FO := ROps) fuel (exact_vec p) (B2R gmst) = Done g' /\
      close (1 / 10 ^ 14) (gd_latitude g) (gd_latitude g') /\
      (is_finite (gd_longitude g) = true /\ turns_within (1 / 10 ^ 14) (B2R (gd_longitude g)) (gd_longitude g')) /\
      close (2 / 10 ^ 14 * (centre_distance (exact_vec p) ^ 2 / axis_distance (exact_vec p))) (gd_height g) (gd_height g').
Proof.
  intros lm p gmst fuel ACC (Fx & Fy & Fz) [Fg Bg] [O1 O2] Hf.
  destruct (C41_terminates fuel (exact_vec p) (B2R gmst)) as [g' G'].
  { pose proof (Ratan2_range (v_y (exact_vec p)) (v_x (exact_vec p))) as RG. pose proof pi_num as PN. apply Rabs_le_inv in Bg. apply (le_INR 2) in Hf. cbn [INR] in Hf. apply Rabs_le. split; nra. }
  set (x := v_x p) in *. set (y := v_y p) in *. set (z := v_z p) in *.
  set (rho := axis_distance (exact_vec p)) in *. set (Rr := centre_distance (exact_vec p)) in *.
  assert (RP : 0 <= rho) by apply sqrt_pos. assert (R0 : 0 < rho) by lra.
  assert (QR : rho * rho = B2R x * B2R x + B2R y * B2R y) by (apply sqrt_sqrt; nra).
  assert (QC : Rr * Rr = rho * rho + B2R z * B2R z) by (apply sqrt_sqrt; nra).
  assert (XY : B2R x * B2R x + B2R y * B2R y <= 10 ^ 10) by nra.
  assert (XB : Rabs (B2R x) <= 2 ^ 300 /\ Rabs (B2R y) <= 2 ^ 300).
  { assert (100000 <= 2 ^ 300) by (apply Rle_trans with (2 ^ 20); [cbn -[IZR]; lra|apply Rle_pow; [lra|lia]]). split; (apply Rle_trans with 100000; [apply Rabs_le; nra|assumption]). }
  assert (P800 : 10 ^ 10 <= 2 ^ 800) by (apply Rle_trans with (2 ^ 40); [cbn -[IZR]; lra|apply Rle_pow; [lra|lia]]).
  assert (S1 : 1 <= B2R x * B2R x + B2R y * B2R y) by nra.
  destruct (norm2 lm _ _ _ _ (rap_mul lm x Fx (proj1 XB)) (rap_mul lm y Fy (proj2 XB)) S1 ltac:(lra)) as [FN EN].
  destruct (norm2 lm _ _ _ _ (rap_sq lm ACC x Fx (proj1 XB)) (rap_sq lm ACC y Fy (proj2 XB)) S1 ltac:(lra)) as [FM EM].
  change (sqrt (B2R x * B2R x + B2R y * B2R y)) with rho in EN, EM.
  (* longitude *)
  destruct (acc_atan2 lm ACC y x Fy Fx) as [FA EA]; [destruct (Req_dec (B2R y) 0) as [E|E]; [right; intros E'; nra|now left]|].
  set (a := lm_atan2 lm y x) in *. pose proof (Ratan2_range (B2R y) (B2R x)) as RG. pose proof pi_num as PN.
  assert (AE : exists j : BinNums.Z, Rabs (B2R a - (Ratan2 (B2R y) (B2R x) + 2 * PI * IZR j)) <= / 2 ^ 50 /\ Rabs (B2R a) <= 32 / 10).
  { assert (/ 2 ^ 50 <= 1 / 1000) by (cbn -[IZR]; lra). destruct EA as [EA|(E1 & E2 & EA)].
    - exists 0%Z. replace (Ratan2 (B2R y) (B2R x) + 2 * PI * 0) with (Ratan2 (B2R y) (B2R x)) by ring. split; [exact EA|]. apply Rabs_le_inv in EA. apply Rabs_le. lra.
    - exists (-1)%Z. assert (T : Ratan2 (B2R y) (B2R x) = PI).
      { unfold Ratan2. rewrite Rlt_bool_false by lra. rewrite Rlt_bool_true by lra. rewrite E1. rewrite Rle_bool_true by lra. replace (0 / B2R x) with 0 by (unfold Rdiv; ring). rewrite atan_0. ring. }
      rewrite T. replace (B2R a - (PI + 2 * PI * -1)) with (B2R a + PI) by ring. split; [exact EA|]. apply Rabs_le_inv in EA. apply Rabs_le. lra. }
  destruct AE as (j & AE & BA). apply Rabs_le_inv in BA, Bg.
  destruct (sub_fin lm a gmst FA Fg) as [VS FS].
  { apply Rle_trans with 11; [apply Rabs_le; lra|]. apply Rle_trans with (bpow radix2 4); [cbn; lra|apply bpow_le; lia]. }
  pose proof (round_11 (B2R a - B2R gmst) ltac:(apply Rabs_le; lra)) as RE. rewrite <- VS in RE.
  destruct (normalize_acc lm fuel (@fsub _ (B64Ops lm) a gmst) FS) as (lon & EL & FL & k & K); [|exact Hf|].
  { rewrite VS in RE |- *. apply Rabs_le_inv in RE. apply Rabs_le. cbn -[IZR] in RE. lra. }
  destruct (C41_ranges _ _ _ _ G') as (_ & (k' & K') & _).
  (* latitude and height *)
  set (r := @fsqrt _ (B64Ops lm) (@fadd _ (B64Ops lm) (@fmul _ (B64Ops lm) x x) (@fmul _ (B64Ops lm) y y))) in *.
  set (r2 := @fsqrt _ (B64Ops lm) (@fadd _ (B64Ops lm) (@fpowi _ (B64Ops lm) x 2) (@fpowi _ (B64Ops lm) y 2))) in *.
  assert (L0 : rel (@fatan2 _ (B64Ops lm) z r2) (Ratan2 (B2R z) rho) LB).
  { rewrite <- (Rplus_0_r (B2R z)) at 1. apply half_acc; try assumption; [now rewrite Rabs_R0; lra|]. replace (B2R z - (B2R z + 0)) with 0 by ring. rewrite Rabs_R0. cbn -[IZR]; lra. }
  assert (SH : shape z rho (Ratan2 (B2R z) rho)) by (exists 0; rewrite Rplus_0_r; split; [rewrite Rabs_R0; lra|reflexivity]).
  assert (C0 : rel (@L _ (B64Ops lm) 0 0) (@L _ ROps 0 0) CB) by (eapply rel_weaken; [crel|vm_compute; reflexivity..]).
  destruct (loop_acc lm ACC z rho Fz R0 O1 O2 20 _ _ _ _ r L0 SH C0 FN EN) as (LA & SA & CA).
  pose proof (height_acc lm ACC z rho R0 O1 O2 _ _ _ _ r LA SA CA FN EN) as HA. cbv zeta in HA. fold Rr in HA.
  fold Rr in HA. destruct (@lat_loop _ (B64Ops lm) 20 z r (@fatan2 _ (B64Ops lm) z r2) (@L _ (B64Ops lm) 0 0)) as [la c] eqn:EB.
  assert (Z0 : @L _ ROps 0 0 = 0) by (rops; lra). rewrite Z0 in LA, SA, CA, HA.
  destruct (@lat_loop _ ROps 20 (B2R z) rho (Ratan2 (B2R z) rho) 0) as [la' c'] eqn:ER. cbn [fst snd] in LA, CA, HA.
  eexists. exists g'. split.
  { unfold eci_to_geodedic. cbv zeta. fold x y z r r2. change (@fatan2 _ (B64Ops lm) y x) with a. rewrite EL. cbn [bindO]. rewrite EB. reflexivity. }
  split; [exact G'|]. unfold eci_to_geodedic in G'. cbv zeta in G'. rops_in G'. rewrite !powerRZ_2 in G'. cbn [v_x v_y v_z exact_vec] in G'. fold x y z in G'. change (sqrt (B2R x * B2R x + B2R y * B2R y)) with rho in G'.
  destruct (normalize_long fuel (Ratan2 (B2R y) (B2R x) - B2R gmst)) as [lon'| |]; cbn [bindO] in G'; try discriminate G'.
  rewrite ER in G'. apply Done_inj in G'. subst g'. cbn [gd_latitude gd_longitude gd_height] in *.
  split; [|split].
  - destruct LA as (FLA & _ & ELA). split; [exact FLA|]. eapply Rle_trans; [exact ELA|]. cbn [er LB]. unfold Q2R; cbn -[IZR]; lra.
  - split; [exact FL|]. exists (j + k - k')%Z. rewrite K'. cbn [v_x v_y exact_vec]. fold x y. rewrite minus_IZR, plus_IZR.
    apply Rabs_le_inv in K, RE, AE. apply Rabs_le. cbn -[IZR PI] in K, RE, AE |- *. lra.
  - destruct HA as [HA1 HA2]. split; [exact HA1|]. replace (Rr ^ 2) with (Rr * Rr) by ring. exact HA2.
Qed.
Print Assumptions C59_inverse_accuracy.

(** Against the true geodetic coordinates of the position, on or above the ellipsoid: the rounding errors add
    to those of the formula (which lacks a square root, C42). *)
Theorem C59_geodetic_coordinates :
  forall (lm : libm) (p : Vec3 b64) (gmst : b64) (fuel : nat),
    accurate lm -> finite_vec p -> within 7 gmst -> ordinary (exact_vec p) -> (2 <= fuel)%nat ->
    let q := exact_vec p in
    1 <= (v_x q ^ 2 + v_y q ^ 2) / WA ^ 2 + v_z q ^ 2 / WB ^ 2 ->
    exists g, eci_to_geodedic (FO := B64Ops lm) fuel p gmst = Done g /\
    exists lat lon h, 0 <= h /\ - (PI / 2) < lat < PI / 2 /\ - PI < lon <= PI /\
      geodedic_to_ecf (MkGeodedic lon lat h) = eci_to_ecf q (B2R gmst) /\
      (is_finite (gd_longitude g) = true /\ turns_within (1 / 10 ^ 14) (B2R (gd_longitude g)) lon) /\
      close (24 / 10 ^ 6 * (cos lat * Rabs (sin lat)) + 1 / 10 ^ 14) (gd_latitude g) lat /\
      close ((35 / 100 + h / 40000) * sin lat ^ 2 + 2 / 10 ^ 14 * (centre_distance q ^ 2 / axis_distance q))
        (gd_height g) (h - 2135 / 100 * sin lat ^ 2).
Proof.
  intros lm p gmst fuel ACC F W O Hf q HO. destruct (C59_inverse_accuracy lm p gmst fuel ACC F W O Hf) as (g & g' & G & G' & (A1 & A2) & (A3 & A4) & A5 & A6).
  exists g. split; [exact G|]. change (exact_vec p) with q in G', O, A6.
  assert (NP : v_x q <> 0 \/ v_y q <> 0).
  { destruct (Req_dec (v_x q) 0) as [E1|E1]; [|now left]. right. intros E2. destruct O as [O1 O2]. unfold axis_distance in O2. rewrite E1, E2 in O2.
    replace (0 * 0 + 0 * 0) with 0 in O2 by ring. rewrite sqrt_0 in O2. lra. }
  destruct (C42_every_position q (B2R gmst) fuel g' HO NP G') as (lat & lon & h & B1 & B2 & B3 & E & _ & B5 & B6).
  exists lat, lon, h. do 4 (split; [assumption|]). split; [|split].
  - split; [exact A3|]. destruct (C41_ranges _ _ _ _ G') as ((X & Y) & _).
    assert (QE : ecf_to_eci (geodedic_to_ecf (MkGeodedic lon lat h)) (B2R gmst) = q) by (rewrite E; apply C39_inverse).
    rewrite <- QE in X, Y. rewrite p_r, ?p_x in X by assumption. rewrite p_r, ?p_y in Y by assumption. pose proof (rad_pos lat h B2 B1) as P.
    destruct (sc_eq (gd_longitude g' + B2R gmst) (lon + B2R gmst)) as [k K].
    { apply (Rmult_eq_reg_l ((prime_vertical lat + h) * cos lat)); lra. }
    { apply (Rmult_eq_reg_l ((prime_vertical lat + h) * cos lat)); lra. }
    destruct A4 as [j J]. exists (j + k)%Z. rewrite plus_IZR. replace (B2R (gd_longitude g) - lon - 2 * PI * (IZR j + IZR k)) with (B2R (gd_longitude g) - gd_longitude g' - 2 * PI * IZR j) by lra. exact J.
  - split; [exact A1|]. replace (B2R (gd_latitude g) - lat) with ((B2R (gd_latitude g) - gd_latitude g') + (gd_latitude g' - lat)) by ring.
    eapply Rle_trans; [apply Rabs_triang|]. replace (24 / 10 ^ 6) with (24 / 1000000) by (cbn -[IZR]; lra). lra.
  - split; [exact A5|]. set (hh := h - 2135 / 100 * sin lat ^ 2) in *. replace (B2R (gd_height g) - hh) with ((B2R (gd_height g) - gd_height g') + (gd_height g' - hh)) by ring.
    eapply Rle_trans; [apply Rabs_triang|]. lra.
Qed.
Print Assumptions C59_geodetic_coordinates.

(** The hypotheses are met: a correctly rounding library; the position (5000, -4000, 3000) km. *)
Example C59_example :
  accurate exact_lm /\
  let p := MkVec3 (b64_lit 5000 0) (b64_lit (-4000) 0) (b64_lit 3000 0) in
  let q := exact_vec p in
  finite_vec p /\ within 7 (b64_lit 3 0) /\ ordinary q /\ 1 <= (v_x q ^ 2 + v_y q ^ 2) / WA ^ 2 + v_z q ^ 2 / WB ^ 2.
Proof.
  split; [exact exact_lm_accurate|]. cbv zeta.
  assert (L : forall n : Z, (-7000 <= n <= 7000)%Z -> B2R (b64_lit n 0) = IZR n /\ is_finite (b64_lit n 0) = true).
  { intros n Hn. exact (lit_int_fin exact_lm n ltac:(lia)). }
  destruct (L 5000%Z ltac:(lia)) as [V1 F1]. destruct (L (-4000)%Z ltac:(lia)) as [V2 F2]. destruct (L 3000%Z ltac:(lia)) as [V3 F3]. destruct (L 3%Z ltac:(lia)) as [V4 F4].
  unfold finite_vec, within, ordinary, centre_distance, axis_distance, exact_vec. cbn [v_x v_y v_z]. rewrite V1, V2, V3, V4.
  split; [tauto|]. split; [split; [exact F4|apply Rabs_le; lra]|].
  assert (SQ : sqrt (5000 * 5000 + -4000 * -4000) * sqrt (5000 * 5000 + -4000 * -4000) = 41000000) by (rewrite sqrt_sqrt; lra). rewrite SQ.
  set (a := sqrt (5000 * 5000 + -4000 * -4000)) in *. assert (0 <= a) by apply sqrt_pos. clearbody a.
  assert (S2 : sqrt (41000000 + 3000 * 3000) * sqrt (41000000 + 3000 * 3000) = 50000000) by (rewrite sqrt_sqrt; lra). set (b := sqrt (41000000 + 3000 * 3000)) in *. assert (0 <= b) by apply sqrt_pos. clearbody b.
  split; [split; [split; nra|nra]|]. unfold WA, WB. lra.
Qed.
