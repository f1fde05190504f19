(** * C40: geodetic coordinates and the reference ellipsoid *)
From Coq Require Import ZArith List Bool Reals Lra Lia Psatz.
From Flocq Require Import Core.Raux.
From Verif.Model Require Import Float Constants Vec3 Transforms.
From Verif.Inst Require Import RInst RTac Atan2.
From Verif.Spec Require Import Vectors3.
From Verif.Proofs Require Import TransformFacts FrameR.
Local Open Scope R_scope.

(** WGS84 equatorial and polar radii, km *)
Definition WA : R := 6378.137.
Definition WB : R := 6356.7523142.
(** the ellipsoid, and the direction a plumb line points away from (the geodetic vertical) *)
Definition on_ellipsoid (p : Vec3 R) : Prop := (v_x p ^ 2 + v_y p ^ 2) / WA ^ 2 + v_z p ^ 2 / WB ^ 2 = 1.
Definition up (lat lon : R) : Vec3 R := MkVec3 (cos lat * cos lon) (cos lat * sin lon) (sin lat).

Lemma E2_R : @geo_E2 R ROps = 1 - (WB / WA) ^ 2.
Proof. unfold geo_E2, geo_F, geo_A, geo_B, WA, WB. rops. unfold Q2R. cbn [QArith_base.Qnum QArith_base.Qden]. field. Qed.
Lemma WA_pos : 0 < WA. Proof. unfold WA. lra. Qed.
Lemma WB_pos : 0 < WB. Proof. unfold WB. lra. Qed.
Lemma E2_bounds : 0 < 1 - (WB / WA) ^ 2 < 7 / 1000.
Proof. unfold WA, WB. lra. Qed.
(** w = 1 - e^2 sin^2(lat), and the radius of curvature in the prime vertical *)
Definition w_of (lat : R) : R := 1 - (1 - (WB / WA) ^ 2) * (sin lat * sin lat).
Definition prime_vertical (lat : R) : R := WA / sqrt (w_of lat).
Lemma w_pos lat : 99 / 100 < w_of lat <= 1.
Proof. pose proof E2_bounds. unfold w_of. pose proof (sc2 lat). assert (0 <= sin lat * sin lat <= 1) by nra. nra. Qed.
Lemma sqrt_w_pos lat : 0 < sqrt (w_of lat).
Proof. apply sqrt_lt_R0. pose proof (w_pos lat). lra. Qed.
Lemma prime_vertical_pos lat : 0 < prime_vertical lat.
Proof. apply Rdiv_lt_0_compat; [apply WA_pos|apply sqrt_w_pos]. Qed.
Lemma prime_vertical_sqr lat : prime_vertical lat * prime_vertical lat * w_of lat = WA ^ 2.
Proof.
  unfold prime_vertical. pose proof (sqrt_w_pos lat). pose proof (sqrt_sqrt (w_of lat) ltac:(pose proof (w_pos lat); lra)) as S.
  rewrite <- S at 3. field. lra.
Qed.

Lemma to_ecf_R (g : Geodedic R) : let lat := gd_latitude g in let lon := gd_longitude g in let h := gd_height g in
  geodedic_to_ecf g = MkVec3 ((prime_vertical lat + h) * cos lat * cos lon) ((prime_vertical lat + h) * cos lat * sin lon)
    ((prime_vertical lat * (WB / WA) ^ 2 + h) * sin lat).
Proof.
  cbv zeta. unfold geodedic_to_ecf. cbv zeta. rewrite E2_R. rops. rewrite Rpow_2.
  fold (w_of (gd_latitude g)). assert (EA : @geo_A R ROps = WA) by (unfold geo_A, WA; rops; lra).
  rewrite EA. fold (prime_vertical (gd_latitude g)). f_equal. ring.
Qed.

(** At height 0 the point is on the ellipsoid. *)
Theorem C40_on_ellipsoid :
  forall lat lon : R, on_ellipsoid (geodedic_to_ecf (MkGeodedic lon lat 0)).
Proof.
  intros lat lon. rewrite to_ecf_R. unfold on_ellipsoid. cbn [v_x v_y v_z gd_latitude gd_longitude gd_height].
  pose proof WA_pos. pose proof WB_pos. pose proof (sc2 lon) as L1. pose proof (sc2 lat) as L2.
  set (N := prime_vertical lat).
  transitivity (N * N * (cos lat * cos lat * (sin lon * sin lon + cos lon * cos lon) + (WB / WA) ^ 2 * (sin lat * sin lat)) / WA ^ 2).
  { field. lra. }
  rewrite L1. replace (cos lat * cos lat) with (1 - sin lat * sin lat) by lra.
  replace ((1 - sin lat * sin lat) * 1 + (WB / WA) ^ 2 * (sin lat * sin lat)) with (w_of lat) by (unfold w_of; ring).
  unfold N. rewrite prime_vertical_sqr. field. lra.
Qed.
Print Assumptions C40_on_ellipsoid.

(** The vertical is a unit vector normal to the ellipsoid there: it is the gradient of the ellipsoid's
    equation up to a positive factor; height h displaces the point by exactly h along it. *)
Theorem C40_vertical :
  forall lat lon h : R,
    let p := geodedic_to_ecf (MkGeodedic lon lat 0) in
    norm (up lat lon) = 1 /\
    (exists k, 0 < k /\ MkVec3 (v_x p / WA ^ 2) (v_y p / WA ^ 2) (v_z p / WB ^ 2) = scale k (up lat lon)) /\
    geodedic_to_ecf (MkGeodedic lon lat h) = plus p (scale h (up lat lon)).
Proof.
  intros lat lon h p. unfold p. rewrite !to_ecf_R. cbn [v_x v_y v_z gd_latitude gd_longitude gd_height].
  pose proof WA_pos. pose proof WB_pos. split; [|split].
  - unfold norm, dot, up. cbn [v_x v_y v_z]. pose proof (sc2 lon) as L1. pose proof (sc2 lat) as L2.
    replace (cos lat * cos lon * (cos lat * cos lon) + cos lat * sin lon * (cos lat * sin lon) + sin lat * sin lat)
      with (cos lat * cos lat * (sin lon * sin lon + cos lon * cos lon) + sin lat * sin lat) by ring.
    rewrite L1. replace (cos lat * cos lat * 1 + sin lat * sin lat) with 1 by lra. apply sqrt_1.
  - exists (prime_vertical lat / WA ^ 2). split.
    + apply Rdiv_lt_0_compat; [apply prime_vertical_pos|apply pow_lt; lra].
    + unfold scale, up. cbn [v_x v_y v_z]. f_equal; field; lra.
  - unfold plus, scale, up. cbn [v_x v_y v_z]. f_equal; ring.
Qed.
Print Assumptions C40_vertical.

(** Every point of the ellipsoid is reached, with latitude in [-pi/2, pi/2] and longitude in (-pi, pi]. *)
Theorem C40_surjective :
  forall p : Vec3 R, on_ellipsoid p ->
    exists lat lon, - (PI / 2) <= lat <= PI / 2 /\ - PI < lon <= PI /\ geodedic_to_ecf (MkGeodedic lon lat 0) = p.
Proof.
  intros p H. pose proof WA_pos as PA. pose proof WB_pos as PB. pose proof PI_RGT_0 as PP.
  set (rho := sqrt (v_x p * v_x p + v_y p * v_y p)).
  assert (Hr : 0 <= rho) by apply sqrt_pos.
  assert (Hr2 : rho * rho = v_x p * v_x p + v_y p * v_y p) by (apply sqrt_sqrt; nra).
  set (zz := v_z p / WB ^ 2). set (rr := rho / WA ^ 2).
  assert (Prr : 0 <= rr) by (apply Rle_mult_inv_pos; [lra|apply pow_lt; lra]).
  set (lat := Ratan2 zz rr). set (lon := Ratan2 (v_y p) (v_x p)).
  destruct (Ratan2_polar (v_y p) (v_x p)) as [X Y]. fold lon rho in X, Y.
  destruct (Ratan2_polar zz rr) as [R1 Z1]. fold lat in R1, Z1. set (k := sqrt (rr * rr + zz * zz)) in *.
  assert (E : rho * rho / WA ^ 2 + v_z p * v_z p / WB ^ 2 = 1).
  { rewrite <- H. unfold on_ellipsoid. rewrite Hr2. field. lra. }
  assert (Rho : rho = WA ^ 2 * k * cos lat) by (transitivity (WA ^ 2 * rr); [unfold rr; field; lra|rewrite R1 at 1; ring]).
  assert (Zz : v_z p = WB ^ 2 * k * sin lat) by (transitivity (WB ^ 2 * zz); [unfold zz; field; lra|rewrite Z1 at 1; ring]).
  assert (K : WA ^ 2 * (k * k) * w_of lat = 1).
  { rewrite <- E, Rho, Zz. unfold w_of. pose proof (sc2 lat) as S. replace (sin lat * sin lat) with (1 - cos lat * cos lat) by lra.
    transitivity (WA ^ 2 * (k * k) * (cos lat * cos lat) + WB ^ 2 * (k * k) * (sin lat * sin lat)).
    - replace (sin lat * sin lat) with (1 - cos lat * cos lat) by lra. field. lra.
    - field. lra. }
  assert (Kp : 0 <= k) by apply sqrt_pos.
  assert (N : prime_vertical lat = WA ^ 2 * k).
  { unfold prime_vertical. pose proof (sqrt_w_pos lat) as Q. pose proof (sqrt_sqrt (w_of lat) ltac:(pose proof (w_pos lat); lra)) as S.
    assert (T : WA * k * sqrt (w_of lat) = 1).
    { assert (T2 : (WA * k * sqrt (w_of lat)) * (WA * k * sqrt (w_of lat)) = 1).
      { transitivity (WA ^ 2 * (k * k) * (sqrt (w_of lat) * sqrt (w_of lat))); [ring|]. rewrite S. exact K. }
      assert (0 <= WA * k * sqrt (w_of lat)) by (apply Rmult_le_pos; [apply Rmult_le_pos; lra|lra]). nra. }
    replace WA with (WA * (WA * k * sqrt (w_of lat))) at 1 by (rewrite T; ring). field. lra. }
  exists lat, lon. split; [|split; [apply Ratan2_range|]].
  - unfold lat, Ratan2. pose proof (atan_bound (zz / rr)). case Rlt_bool_spec; intros; [lra|]. rewrite Rlt_bool_false by lra.
    case Rlt_bool_spec; intros; [lra|]. case Rlt_bool_spec; intros; lra.
  - rewrite to_ecf_R. cbn [gd_latitude gd_longitude gd_height]. rewrite N. apply vec_eq; cbn [v_x v_y v_z].
    + rewrite X, Rho. ring.
    + rewrite Y, Rho. ring.
    + rewrite Zz. field. lra.
Qed.
Print Assumptions C40_surjective.

(** Every point on or outside the ellipsoid has geodetic coordinates of height at least 0... *)
Lemma meridian_root (rho z : R) : 0 <= rho -> 0 <= z ->
  exists lat, 0 <= lat <= PI / 2 /\
    rho * sin lat - z * cos lat = (1 - (WB / WA) ^ 2) * prime_vertical lat * (sin lat * cos lat).
Proof.
  intros Hr Hz. pose proof PI_RGT_0 as PP. pose proof WA_pos.
  set (f := fun t => rho * sin t - z * cos t - (1 - (WB / WA) ^ 2) * (WA / sqrt (w_of t)) * (sin t * cos t)).
  assert (CF : continuity f).
  { assert (CW : continuity w_of) by (unfold w_of; reg).
    assert (CS : continuity (fun t => sqrt (w_of t))).
    { intros t. apply (continuity_pt_comp w_of sqrt); [apply CW|]. apply continuity_pt_sqrt. pose proof (w_pos t). lra. }
    assert (CN : continuity (fun t => / sqrt (w_of t))).
    { intros t. apply (continuity_pt_inv (fun t => sqrt (w_of t))); [apply CS|]. pose proof (sqrt_w_pos t). lra. }
    intros t. unfold f. apply continuity_pt_minus; [reg|]. apply continuity_pt_mult; [|reg]. apply continuity_pt_mult; [reg|].
    unfold Rdiv. apply continuity_pt_mult; [reg|apply CN]. }
  assert (F0 : f 0 = - z) by (unfold f; rewrite sin_0, cos_0; ring).
  assert (F1 : f (PI / 2) = rho) by (unfold f; rewrite sin_PI2, cos_PI2; ring).
  destruct (IVT_cor f 0 (PI / 2) CF ltac:(lra)) as (lat & B & E).
  { rewrite F0, F1. nra. }
  exists lat. split; [exact B|]. unfold f in E. unfold prime_vertical. lra.
Qed.
Lemma meridian_coordinates (rho z : R) : 0 <= rho -> 0 <= z -> 1 <= rho ^ 2 / WA ^ 2 + z ^ 2 / WB ^ 2 ->
  exists lat h, 0 <= lat <= PI / 2 /\ 0 <= h /\
    rho = (prime_vertical lat + h) * cos lat /\ z = (prime_vertical lat * (WB / WA) ^ 2 + h) * sin lat.
Proof.
  intros Hr Hz Ho. pose proof PI_RGT_0 as PP. pose proof WA_pos as PA. pose proof WB_pos as PB.
  destruct (meridian_root rho z Hr Hz) as (lat & B & E). pose proof (sc2 lat) as SC. pose proof (prime_vertical_pos lat) as NP.
  set (N := prime_vertical lat) in *. set (e := 1 - (WB / WA) ^ 2) in *. pose proof E2_bounds as EB. fold e in EB.
  set (h := rho * cos lat + z * sin lat - N * (1 - e * (sin lat * sin lat))).
  assert (ER : rho = (N + h) * cos lat).
  { transitivity (rho * (sin lat * sin lat + cos lat * cos lat)); [rewrite SC; ring|].
    transitivity ((rho * sin lat - z * cos lat) * sin lat + (rho * cos lat + z * sin lat) * cos lat); [ring|]. rewrite E. unfold h. ring. }
  assert (EZ : z = (N * (WB / WA) ^ 2 + h) * sin lat).
  { transitivity (z * (sin lat * sin lat + cos lat * cos lat)); [rewrite SC; ring|].
    transitivity (- (rho * sin lat - z * cos lat) * cos lat + (rho * cos lat + z * sin lat) * sin lat); [ring|]. rewrite E. unfold h.
    replace ((WB / WA) ^ 2) with (1 - e) by (unfold e; ring).
    transitivity ((rho * cos lat + z * sin lat) * sin lat - e * N * sin lat * (cos lat * cos lat)); [ring|].
    replace (cos lat * cos lat) with (1 - sin lat * sin lat) by lra. ring. }
  exists lat, h. split; [exact B|]. split; [|split; assumption].
  destruct (Rlt_le_dec h 0) as [L|L]; [exfalso|exact L].
  assert (CP : 0 <= cos lat) by (apply cos_ge_0; lra). assert (SP : 0 <= sin lat) by (apply sin_ge_0; lra).
  assert (KB : 99 / 100 < (WB / WA) ^ 2 < 1) by (unfold e in EB; lra).
  assert (E1 : N * N * (cos lat * cos lat) / WA ^ 2 + (N * (WB / WA) ^ 2) * (N * (WB / WA) ^ 2) * (sin lat * sin lat) / WB ^ 2 = 1).
  { transitivity (N * N * (cos lat * cos lat + (WB / WA) ^ 2 * (sin lat * sin lat)) / WA ^ 2); [field; lra|].
    replace (cos lat * cos lat) with (1 - sin lat * sin lat) by lra.
    replace (1 - sin lat * sin lat + (WB / WA) ^ 2 * (sin lat * sin lat)) with (w_of lat) by (unfold w_of; ring).
    unfold N. rewrite prime_vertical_sqr. field. lra. }
  set (k := (WB / WA) ^ 2) in *. set (C := cos lat) in *. set (S := sin lat) in *.
  assert (R1 : rho <= N * C) by (rewrite ER; apply Rmult_le_compat_r; lra).
  assert (Z1 : z <= N * k * S) by (rewrite EZ; apply Rmult_le_compat_r; lra).
  assert (ST : rho < N * C \/ z < N * k * S).
  { destruct (Rle_lt_or_eq_dec 0 C CP) as [K|K].
    - left. rewrite ER. apply Rmult_lt_compat_r; lra.
    - right. rewrite EZ. apply Rmult_lt_compat_r; [nra|lra]. }
  assert (IA : 0 < / WA ^ 2) by (apply Rinv_0_lt_compat, pow_lt; lra). assert (IB : 0 < / WB ^ 2) by (apply Rinv_0_lt_compat, pow_lt; lra).
  assert (R2 : rho ^ 2 <= N * N * (C * C)) by (replace (N * N * (C * C)) with ((N * C) ^ 2) by ring; apply pow_incr; lra).
  assert (Z2 : z ^ 2 <= N * k * (N * k) * (S * S)) by (replace (N * k * (N * k) * (S * S)) with ((N * k * S) ^ 2) by ring; apply pow_incr; lra).
  assert (rho ^ 2 < N * N * (C * C) \/ z ^ 2 < N * k * (N * k) * (S * S)) as [T|T].
  { destruct ST as [T|T]; [left|right].
    - replace (N * N * (C * C)) with ((N * C) ^ 2) by ring. simpl. nra.
    - replace (N * k * (N * k) * (S * S)) with ((N * k * S) ^ 2) by ring. simpl. nra. }
  - unfold Rdiv in *. apply (Rmult_lt_compat_r (/ WA ^ 2)) in T; [|exact IA]. apply (Rmult_le_compat_r (/ WB ^ 2)) in Z2; [|lra]. lra.
  - unfold Rdiv in *. apply (Rmult_lt_compat_r (/ WB ^ 2)) in T; [|exact IB]. apply (Rmult_le_compat_r (/ WA ^ 2)) in R2; [|lra]. lra.
Qed.

Theorem C40_everywhere :
  forall p : Vec3 R, 1 <= (v_x p ^ 2 + v_y p ^ 2) / WA ^ 2 + v_z p ^ 2 / WB ^ 2 ->
    exists lat lon h, - (PI / 2) <= lat <= PI / 2 /\ - PI < lon <= PI /\ 0 <= h /\
      geodedic_to_ecf (MkGeodedic lon lat h) = p.
Proof.
  intros p H. pose proof PI_RGT_0 as PP. set (rho := sqrt (v_x p * v_x p + v_y p * v_y p)).
  assert (Hr : 0 <= rho) by apply sqrt_pos.
  assert (Hr2 : rho ^ 2 = v_x p ^ 2 + v_y p ^ 2).
  { replace (rho ^ 2) with (rho * rho) by ring. unfold rho. rewrite sqrt_sqrt by nra. ring. }
  destruct (Ratan2_polar (v_y p) (v_x p)) as [X Y]. fold rho in X, Y. set (lon := Ratan2 (v_y p) (v_x p)) in *.
  assert (Za : Rabs (v_z p) ^ 2 = v_z p ^ 2) by (rewrite <- !Rsqr_pow2; symmetry; apply Rsqr_abs).
  destruct (meridian_coordinates rho (Rabs (v_z p)) Hr (Rabs_pos _)) as (lat & h & B & Hh & ER & EZ).
  { rewrite Za, Hr2. exact H. }
  destruct (Rle_lt_dec 0 (v_z p)) as [K|K].
  - rewrite (Rabs_pos_eq _ K) in EZ. exists lat, lon, h. split; [lra|]. split; [apply Ratan2_range|]. split; [exact Hh|].
    rewrite to_ecf_R. cbn [gd_latitude gd_longitude gd_height]. apply vec_eq; cbn [v_x v_y v_z].
    + rewrite <- ER. symmetry. exact X.
    + rewrite <- ER. symmetry. exact Y.
    + symmetry. exact EZ.
  - rewrite (Rabs_left _ K) in EZ. exists (- lat), lon, h. split; [lra|]. split; [apply Ratan2_range|]. split; [exact Hh|].
    assert (PV : prime_vertical (- lat) = prime_vertical lat) by (unfold prime_vertical, w_of; rewrite sin_neg; f_equal; f_equal; ring).
    rewrite to_ecf_R. cbn [gd_latitude gd_longitude gd_height]. rewrite PV, cos_neg, sin_neg. apply vec_eq; cbn [v_x v_y v_z].
    + rewrite <- ER. symmetry. exact X.
    + rewrite <- ER. symmetry. exact Y.
    + lra.
Qed.
Print Assumptions C40_everywhere.

(** ... and only one latitude and height; the longitude is free only on the polar axis. *)
Lemma lat_of_sin a b : - (PI / 2) <= a <= PI / 2 -> - (PI / 2) <= b <= PI / 2 -> sin a = sin b -> a = b.
Proof. intros A B E. rewrite <- (asin_sin a A), <- (asin_sin b B), E. reflexivity. Qed.

Theorem C40_unique :
  forall lat lon h lat' lon' h' : R,
    - (PI / 2) <= lat <= PI / 2 -> - PI < lon <= PI -> 0 <= h ->
    - (PI / 2) <= lat' <= PI / 2 -> - PI < lon' <= PI -> 0 <= h' ->
    geodedic_to_ecf (MkGeodedic lon lat h) = geodedic_to_ecf (MkGeodedic lon' lat' h') ->
    lat = lat' /\ h = h' /\ (- (PI / 2) < lat < PI / 2 -> lon = lon').
Proof.
  intros lat lon h lat' lon' h' Ha Hlo Hh Ha' Hlo' Hh' E. pose proof PI_RGT_0 as PP.
  destruct (C40_vertical lat lon h) as (U & (k & K & G) & D). destruct (C40_vertical lat' lon' h') as (U' & (k' & K' & G') & D').
  pose proof (C40_on_ellipsoid lat lon) as O. pose proof (C40_on_ellipsoid lat' lon') as O'.
  rewrite D, D' in E. clear D D'. set (p := geodedic_to_ecf (MkGeodedic lon lat 0)) in *. set (p' := geodedic_to_ecf (MkGeodedic lon' lat' 0)) in *.
  set (u := up lat lon) in *. set (u' := up lat' lon') in *. pose proof WA_pos as PA. pose proof WB_pos as PB.
  assert (N1 : dot u u = 1) by (apply (f_equal (fun t => t * t)) in U; unfold norm in U; rewrite sqrt_sqrt in U; [lra|unfold dot; nra]).
  assert (N2 : dot u' u' = 1) by (apply (f_equal (fun t => t * t)) in U'; unfold norm in U'; rewrite sqrt_sqrt in U'; [lra|unfold dot; nra]).
  destruct p as [x y z]. destruct p' as [x' y' z']. destruct u as [a b c] eqn:Eu. destruct u' as [a' b' c'] eqn:Eu'.
  unfold on_ellipsoid, plus, scale, dot in *. cbn [v_x v_y v_z] in *.
  pose proof (f_equal v_x G) as G1. pose proof (f_equal v_y G) as G2. pose proof (f_equal v_z G) as G3.
  pose proof (f_equal v_x G') as G1'. pose proof (f_equal v_y G') as G2'. pose proof (f_equal v_z G') as G3'.
  pose proof (f_equal v_x E) as E1. pose proof (f_equal v_y E) as E2. pose proof (f_equal v_z E) as E3. cbn [v_x v_y v_z] in *. clear G G' E.
  (* Cauchy: the other point lies below the tangent plane *)
  assert (CS : x * x' / WA ^ 2 + y * y' / WA ^ 2 + z * z' / WB ^ 2 <= 1).
  { assert (0 <= ((x - x') ^ 2 + (y - y') ^ 2) / WA ^ 2 + (z - z') ^ 2 / WB ^ 2).
    { pose proof (pow2_ge_0 (x - x')). pose proof (pow2_ge_0 (y - y')). pose proof (pow2_ge_0 (z - z')).
      apply Rplus_le_le_0_compat; (apply Rle_mult_inv_pos; [lra|apply pow_lt; lra]). }
    assert (ER : ((x - x') ^ 2 + (y - y') ^ 2) / WA ^ 2 + (z - z') ^ 2 / WB ^ 2
      = ((x ^ 2 + y ^ 2) / WA ^ 2 + z ^ 2 / WB ^ 2) + ((x' ^ 2 + y' ^ 2) / WA ^ 2 + z' ^ 2 / WB ^ 2)
        - 2 * (x * x' / WA ^ 2 + y * y' / WA ^ 2 + z * z' / WB ^ 2)) by (field; lra).
    rewrite O, O' in ER. lra. }
  assert (B1 : k * (a * (x' - x) + b * (y' - y) + c * (z' - z)) <= 0).
  { replace (k * (a * (x' - x) + b * (y' - y) + c * (z' - z))) with (k * a * (x' - x) + k * b * (y' - y) + k * c * (z' - z)) by ring.
    rewrite <- G1, <- G2, <- G3.
    replace (x / WA ^ 2 * (x' - x) + y / WA ^ 2 * (y' - y) + z / WB ^ 2 * (z' - z))
      with ((x * x' / WA ^ 2 + y * y' / WA ^ 2 + z * z' / WB ^ 2) - ((x ^ 2 + y ^ 2) / WA ^ 2 + z ^ 2 / WB ^ 2)) by (field; lra). lra. }
  assert (B2 : k' * (a' * (x - x') + b' * (y - y') + c' * (z - z')) <= 0).
  { replace (k' * (a' * (x - x') + b' * (y - y') + c' * (z - z'))) with (k' * a' * (x - x') + k' * b' * (y - y') + k' * c' * (z - z')) by ring.
    rewrite <- G1', <- G2', <- G3'.
    replace (x' / WA ^ 2 * (x - x') + y' / WA ^ 2 * (y - y') + z' / WB ^ 2 * (z - z'))
      with ((x * x' / WA ^ 2 + y * y' / WA ^ 2 + z * z' / WB ^ 2) - ((x' ^ 2 + y' ^ 2) / WA ^ 2 + z' ^ 2 / WB ^ 2)) by (field; lra). lra. }
  assert (B3 : a * (x' - x) + b * (y' - y) + c * (z' - z) <= 0) by (apply (Rmult_le_reg_l k); lra).
  assert (B4 : a' * (x - x') + b' * (y - y') + c' * (z - z') <= 0) by (apply (Rmult_le_reg_l k'); lra).
  assert (SQ : (x' - x) * (x' - x) + (y' - y) * (y' - y) + (z' - z) * (z' - z) <= 0).
  { assert (Q : (x' - x) * (x' - x) + (y' - y) * (y' - y) + (z' - z) * (z' - z)
      = h * (a * (x' - x) + b * (y' - y) + c * (z' - z)) + h' * (a' * (x - x') + b' * (y - y') + c' * (z - z'))).
    { replace (x' - x) with (h * a - h' * a') at 1 by lra. replace (y' - y) with (h * b - h' * b') at 1 by lra.
      replace (z' - z) with (h * c - h' * c') at 1 by lra. ring. }
    rewrite Q. assert (h * (a * (x' - x) + b * (y' - y) + c * (z' - z)) <= h * 0) by (apply Rmult_le_compat_l; lra).
    assert (h' * (a' * (x - x') + b' * (y - y') + c' * (z - z')) <= h' * 0) by (apply Rmult_le_compat_l; lra). lra. }
  pose proof (Rle_0_sqr (x' - x)) as S1. pose proof (Rle_0_sqr (y' - y)) as S2. pose proof (Rle_0_sqr (z' - z)) as S3. unfold Rsqr in S1, S2, S3.
  assert (X : x' - x = 0) by (apply Rsqr_0_uniq; unfold Rsqr; lra). assert (Y : y' - y = 0) by (apply Rsqr_0_uniq; unfold Rsqr; lra).
  assert (Z : z' - z = 0) by (apply Rsqr_0_uniq; unfold Rsqr; lra). clear S1 S2 S3 SQ.
  apply Rminus_diag_uniq in X, Y, Z. subst x' y' z'.
  assert (KK : k * k = k' * k').
  { transitivity ((k * a) * (k * a) + (k * b) * (k * b) + (k * c) * (k * c)); [transitivity (k * k * (a * a + b * b + c * c)); [rewrite N1|]; ring|].
    transitivity ((k' * a') * (k' * a') + (k' * b') * (k' * b') + (k' * c') * (k' * c')); [|transitivity (k' * k' * (a' * a' + b' * b' + c' * c')); [|rewrite N2]; ring].
    rewrite <- G1, <- G2, <- G3, <- G1', <- G2', <- G3'. reflexivity. }
  assert (k' = k) by nra. subst k'.
  assert (A1 : a' = a) by (apply (Rmult_eq_reg_l k); lra). assert (A2 : b' = b) by (apply (Rmult_eq_reg_l k); lra).
  assert (A3 : c' = c) by (apply (Rmult_eq_reg_l k); lra). subst a' b' c'.
  unfold u, up in Eu. unfold u', up in Eu'. injection Eu as U1 U2 U3. injection Eu' as V1 V2 V3.
  assert (LL : lat = lat') by (apply lat_of_sin; [assumption|assumption|congruence]).
  split; [exact LL|]. split.
  - assert (h * (a * a + b * b + c * c) = h' * (a * a + b * b + c * c)); [|rewrite N1 in *; lra].
    transitivity (a * (h * a) + b * (h * b) + c * (h * c)); [ring|]. replace (h * a) with (h' * a) by lra. replace (h * b) with (h' * b) by lra.
    replace (h * c) with (h' * c) by lra. ring.
  - intros B. subst lat'. assert (CP : 0 < cos lat) by (apply cos_gt_0; lra).
    assert (C1 : cos lon = cos lon') by (apply (Rmult_eq_reg_l (cos lat)); lra).
    assert (C2 : sin lon = sin lon') by (apply (Rmult_eq_reg_l (cos lat)); lra).
    destruct (sc_eq _ _ C1 C2) as [j J]. assert (-1 < IZR j < 1) as [J1 J2] by (split; nra). apply lt_IZR in J1, J2.
    assert (j = 0%Z) by lia. subst j. lra.
Qed.
Print Assumptions C40_unique.

(** Non-vacuity: the equator at longitude 0 and the north pole. *)
Example C40_example :
  geodedic_to_ecf (MkGeodedic 0 0 1) = MkVec3 (WA + 1) 0 0 /\
  v_z (geodedic_to_ecf (MkGeodedic 0 (PI / 2) 0)) = WB.
Proof.
  pose proof WA_pos. pose proof WB_pos. rewrite !to_ecf_R. cbn [v_z gd_latitude gd_longitude gd_height].
  rewrite cos_0, sin_0, sin_PI2. unfold prime_vertical, w_of. rewrite sin_0, sin_PI2. split.
  - apply vec_eq; cbn [v_x v_y v_z]; try ring. replace (1 - (1 - (WB / WA) ^ 2) * (0 * 0)) with 1 by ring. rewrite sqrt_1. field.
  - replace (1 - (1 - (WB / WA) ^ 2) * (1 * 1)) with (WB / WA * (WB / WA)) by ring. rewrite sqrt_square; [field; lra|].
    apply Rlt_le, Rdiv_lt_0_compat; lra.
Qed.

(** Non-vacuity: a position 7071 km from the centre is outside, and two different pairs of angles name the pole. *)
Example C40_example_outside :
  1 <= ((4000 : R) ^ 2 + 3000 ^ 2) / WA ^ 2 + 5000 ^ 2 / WB ^ 2 /\
  geodedic_to_ecf (MkGeodedic 0 (PI / 2) 1) = geodedic_to_ecf (MkGeodedic 1 (PI / 2) 1).
Proof.
  split; [unfold WA, WB; lra|]. rewrite !to_ecf_R. cbn [gd_latitude gd_longitude gd_height]. rewrite cos_PI2. f_equal; ring.
Qed.
