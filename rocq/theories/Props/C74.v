(** * C74: a satellite stands in the zenith of the coordinates returned for it *)
From Coq Require Import ZArith List Bool Reals Lra Lia Psatz.
From Flocq Require Import Core.Raux IEEE754.BinarySingleNaN.
From Verif.Model Require Import Float Str Satrec Constants Vec3 Ext Gstime Transforms Io Propagate Sgp4 Sgp4init.
From Verif.Inst Require Import RInst RTac Atan2 B64.
From Verif.Spec Require Import LibmAccuracy Vectors3 Visibility Calendar Str3Api NearAccuracy DeepAccuracy PeriodicSpec TleSpec.
From Verif.Spec Require Str3.
From Verif.Proofs Require CalcFun.
From Verif.Proofs Require Import TransformFacts FrameR GeodeticError.
From Verif.Props Require Import C08 C15 C22 C39 C40 C41 C42 C43 C44 C54 C55 C56 C58 C59 C61 C63 C65 C68 C72.
Local Open Scope R_scope.

Local Notation e2 := (1 - (WB / WA) ^ 2).
Lemma q_bounds x : 994 / 1000 <= sqrt (w_of x) <= 1 /\ sqrt (w_of x) * sqrt (w_of x) = w_of x /\ prime_vertical x * sqrt (w_of x) = WA.
Proof.
  pose proof (w_pos x) as W. pose proof (sqrt_w_pos x). split; [split|split].
  - replace (994 / 1000) with (sqrt ((994 / 1000) * (994 / 1000))) by (rewrite sqrt_square; lra). apply sqrt_le_1_alt. lra.
  - rewrite <- sqrt_1. apply sqrt_le_1_alt. lra.
  - apply sqrt_sqrt. lra.
  - unfold prime_vertical. field. lra.
Qed.
Lemma pv_bound x : 0 < prime_vertical x <= 6417.
Proof. destruct (q_bounds x) as (Q & _ & N). pose proof (prime_vertical_pos x). unfold WA in N. split; [assumption|]. nra. Qed.
Lemma pv_lip x y : Rabs (prime_vertical x - prime_vertical y) <= 44 * Rabs (x - y).
Proof.
  destruct (q_bounds x) as (Q & QQ & N). destruct (q_bounds y) as (Q' & QQ' & N'). pose proof (pv_bound y) as PB. pose proof E2_tight as E.
  set (n := prime_vertical x) in *. set (n' := prime_vertical y) in *. set (q := sqrt (w_of x)) in *. set (q' := sqrt (w_of y)) in *.
  assert (W : (q' - q) * (q' + q) = e2 * ((sin x - sin y) * (sin x + sin y))).
  { replace ((q' - q) * (q' + q)) with (q' * q' - q * q) by ring. rewrite QQ, QQ'. unfold w_of. ring. }
  pose proof (sin_lip x y) as L. pose proof (SIN_bound x). pose proof (SIN_bound y).
  assert (S2 : Rabs (sin x + sin y) <= 2) by (apply Rabs_le; lra).
  assert (A : Rabs (q' - q) * 1988 / 1000 <= 6695 / 1000000 * (Rabs (x - y) * 2)).
  { apply Rle_trans with (Rabs ((q' - q) * (q' + q))).
    - rewrite Rabs_mult, (Rabs_pos_eq (q' + q)) by lra. pose proof (Rabs_pos (q' - q)). nra.
    - rewrite W, !Rabs_mult, (Rabs_pos_eq e2) by lra. apply Rmult_le_compat; [lra|apply Rmult_le_pos; apply Rabs_pos|lra|]. apply Rmult_le_compat; [apply Rabs_pos|apply Rabs_pos|exact L|exact S2]. }
  assert (Z : (n - n') * q = n' * (q' - q)) by (replace ((n - n') * q) with (n * q - n' * q) by ring; rewrite N, <- N'; ring).
  assert (B : Rabs (n - n') * (994 / 1000) <= 6417 * Rabs (q' - q)).
  { apply Rle_trans with (Rabs ((n - n') * q)).
    - rewrite Rabs_mult, (Rabs_pos_eq q) by lra. pose proof (Rabs_pos (n - n')). nra.
    - rewrite Z, Rabs_mult, (Rabs_pos_eq n') by lra. apply Rmult_le_compat_r; [apply Rabs_pos|lra]. }
  set (u := Rabs (q' - q)) in *. set (v := Rabs (n - n')) in *. set (d := Rabs (x - y)) in *. assert (0 <= d) by apply Rabs_pos. clearbody u v d. clear - A B H1. lra.
Qed.

Section Zenith.
Variables (lat lat' lon h : R).
Let N := prime_vertical lat. Let N' := prime_vertical lat'. Let dl := lat' - lat.
Let D := minus (geodedic_to_ecf (MkGeodedic lon lat h)) (geodedic_to_ecf (MkGeodedic lon lat' 0)).
Lemma lon2 : cos lon * cos lon + sin lon * sin lon = 1. Proof. pose proof (sin2_cos2 lon) as H. unfold Rsqr in H. lra. Qed.
Lemma south_D : dot (south lat' lon) D = (N + h) * sin dl + e2 * cos lat' * (N * sin lat - N' * sin lat').
Proof.
  unfold D, dl. rewrite !to_ecf_R. cbn [gd_longitude gd_latitude gd_height]. fold N N'. unfold dot, minus, plus, scale, south. cbn [v_x v_y v_z]. rewrite sin_minus.
  set (b := (WB / WA) ^ 2). pose proof lon2 as L.
  transitivity (sin lat' * ((N + h) * cos lat - N' * cos lat') * (cos lon * cos lon + sin lon * sin lon) - cos lat' * ((N * b + h) * sin lat - N' * b * sin lat')); [ring|]. rewrite L. ring.
Qed.
Lemma east_D : dot (east lon) D = 0.
Proof. unfold D. rewrite !to_ecf_R. cbn [gd_longitude gd_latitude gd_height]. unfold dot, minus, plus, scale, east. cbn [v_x v_y v_z]. ring. Qed.
Lemma up_D : dot (up lat' lon) D = (N + h) * cos dl - N' - e2 * sin lat' * (N * sin lat - N' * sin lat').
Proof.
  unfold D, dl. rewrite !to_ecf_R. cbn [gd_longitude gd_latitude gd_height]. fold N N'. unfold dot, minus, plus, scale, up. cbn [v_x v_y v_z]. rewrite cos_minus.
  set (b := (WB / WA) ^ 2). pose proof lon2 as L. pose proof (sin2_cos2 lat') as L'. unfold Rsqr in L'.
  transitivity (cos lat' * ((N + h) * cos lat - N' * cos lat') * (cos lon * cos lon + sin lon * sin lon) + sin lat' * ((N * b + h) * sin lat - N' * b * sin lat')); [ring|]. rewrite L.
  replace N' with (N' * (sin lat' * sin lat' + cos lat' * cos lat')) at 3 by (rewrite L'; ring). ring.
Qed.
Hypothesis Hh : 0 <= h.
Hypothesis Hd : Rabs dl <= 13 / 1000000.
Lemma Ns_lip : Rabs (N * sin lat - N' * sin lat') <= 6461 * Rabs dl.
Proof.
  replace (N * sin lat - N' * sin lat') with (N * (sin lat - sin lat') + (N - N') * sin lat') by ring. eapply Rle_trans; [apply Rabs_triang|]. rewrite !Rabs_mult.
  pose proof (pv_bound lat) as P. fold N in P. rewrite (Rabs_pos_eq N) by lra. pose proof (sin_lip lat lat') as L. pose proof (pv_lip lat lat') as PL. fold N N' in PL.
  replace (Rabs (lat - lat')) with (Rabs dl) in L, PL by (unfold dl; apply Rabs_minus_sym). pose proof (SIN_bound lat'). assert (Rabs (sin lat') <= 1) by (apply Rabs_le; lra).
  pose proof (Rabs_pos dl). pose proof (Rabs_pos (sin lat')). pose proof (Rabs_pos (N - N')).
  assert (N * Rabs (sin lat - sin lat') <= 6417 * Rabs dl) by (apply Rmult_le_compat; [lra|apply Rabs_pos|lra|exact L]).
  assert (Rabs (N - N') * Rabs (sin lat') <= 44 * Rabs dl * 1) by (apply Rmult_le_compat; assumption). lra.
Qed.
Lemma e2_part c : Rabs c <= 1 -> Rabs (e2 * c * (N * sin lat - N' * sin lat')) <= 44 * Rabs dl.
Proof.
  intros C. rewrite !Rabs_mult. pose proof E2_tight. rewrite (Rabs_pos_eq e2) by lra. pose proof Ns_lip as L. pose proof (Rabs_pos dl). pose proof (Rabs_pos c).
  assert (e2 * Rabs c <= 6695 / 1000000 * 1) by (apply Rmult_le_compat; lra).
  apply Rle_trans with (6695 / 1000000 * 1 * (6461 * Rabs dl)); [apply Rmult_le_compat; [apply Rmult_le_pos; lra|apply Rabs_pos|assumption|exact L]|lra].
Qed.
Lemma south_small : Rabs (dot (south lat' lon) D) <= (6461 + h) * Rabs dl.
Proof.
  rewrite south_D. eapply Rle_trans; [apply Rabs_triang|]. rewrite Rabs_mult. pose proof (pv_bound lat) as P. fold N in P. rewrite (Rabs_pos_eq (N + h)) by lra.
  assert (S : Rabs (sin dl) <= Rabs dl) by (pose proof (sin_lip dl 0) as L; rewrite sin_0, !Rminus_0_r in L; exact L).
  pose proof (COS_bound lat'). pose proof (e2_part (cos lat') ltac:(apply Rabs_le; lra)). pose proof (Rabs_pos dl).
  assert ((N + h) * Rabs (sin dl) <= (6417 + h) * Rabs dl) by (apply Rmult_le_compat; [lra|apply Rabs_pos|lra|exact S]). lra.
Qed.
Lemma up_large : Rabs (dot (up lat' lon) D - h) <= 89 * Rabs dl + h / 10 ^ 10 * 2.
Proof.
  rewrite up_D. pose proof (pv_bound lat) as P. fold N in P. pose proof (pv_lip lat lat') as PL. fold N N' in PL.
  replace (Rabs (lat - lat')) with (Rabs dl) in PL by (unfold dl; apply Rabs_minus_sym).
  pose proof (SIN_bound lat'). pose proof (e2_part (sin lat') ltac:(apply Rabs_le; lra)) as EP.
  assert (C : Rabs (1 - cos dl) <= Rabs dl * (13 / 1000000)).
  { pose proof (cos_lip_at dl 0 (Rabs dl)) as L. rewrite sin_0, cos_0, Rminus_0_r, Rabs_R0, Rplus_0_l in L. rewrite Rabs_minus_sym. specialize (L (Rle_refl _)).
    eapply Rle_trans; [exact L|]. apply Rmult_le_compat_l; [apply Rabs_pos|exact Hd]. }
  replace ((N + h) * cos dl - N' - e2 * sin lat' * (N * sin lat - N' * sin lat') - h) with (- ((N + h) * (1 - cos dl)) + ((N - N') + - (e2 * sin lat' * (N * sin lat - N' * sin lat')))) by ring.
  eapply Rle_trans; [apply Rabs_triang|]. rewrite Rabs_Ropp, Rabs_mult, (Rabs_pos_eq (N + h)) by lra.
  eapply Rle_trans; [apply Rplus_le_compat_l; apply Rabs_triang|]. rewrite (Rabs_Ropp (e2 * _ * _)). pose proof (Rabs_pos dl).
  assert (A : (N + h) * Rabs (1 - cos dl) <= (6417 + h) * (Rabs dl * (13 / 1000000))) by (apply Rmult_le_compat; [lra|apply Rabs_pos|lra|exact C]).
  assert (Hdd : h * (Rabs dl * (13 / 1000000)) <= h / 10 ^ 10 * 2) by (replace (h / 10 ^ 10 * 2) with (h * (2 / 10 ^ 10)) by field; apply Rmult_le_compat_l; [exact Hh|lra]). lra.
Qed.
End Zenith.

(** Exact arithmetic, every position at a geodetic height of [h] >= 1 km off the polar axis and the date line, every sidereal
    angle: convert the inertial position to geodetic coordinates, put an observer on the ground there, and look at the
    satellite from that site.  It is above the horizon and in sight; its horizontal distance from the vertical line is at most
    1.2e-5 (6461 km + h), its vertical distance is h within 2 m; so the zenith angle has a sine of at most 1.3e-5 (6461 / h + 1). *)
Theorem C74_zenith :
  forall (lat lon h gmst : R) fuel g',
    - (PI / 2) < lat < PI / 2 -> - PI < lon < PI -> 1 <= h ->
    let p := ecf_to_eci (geodedic_to_ecf (MkGeodedic lon lat h)) gmst in
    eci_to_geodedic fuel p gmst = Done g' ->
    let site := MkGeodedic (gd_longitude g') (gd_latitude g') 0 in
    let b := ecf_to_look_angles site (eci_to_ecf p gmst) in
    0 < be_elevation b <= PI / 2 /\
    0 <= be_range b * cos (be_elevation b) <= 12 / 10 ^ 6 * (6461 + h) /\
    Rabs (be_range b * sin (be_elevation b) - h) <= 2 / 1000 + h / 10 ^ 9 /\
    sin (PI / 2 - be_elevation b) <= 13 / 10 ^ 6 * (6461 / h + 1) /\
    in_sight (geodedic_to_ecf site) (eci_to_ecf p gmst).
Proof.
  intros lat lon h gmst fuel g' HL HO HH p HG. cbv zeta.
  pose proof (C42_longitude lat lon h gmst fuel g' HL HO ltac:(lra) HG) as LO. destruct (C42_error_size lat lon h gmst fuel g' HL ltac:(lra) HG) as [LA _].
  assert (EP : eci_to_ecf p gmst = geodedic_to_ecf (MkGeodedic lon lat h)) by (unfold p; apply C39_inverse).
  rewrite EP, LO. set (lat' := gd_latitude g') in *. clearbody lat'. clear HG EP p.
  assert (SC : cos lat * Rabs (sin lat) <= 1 / 2).
  { assert (0 < cos lat) by (apply cos_gt_0; lra). pose proof (sin2_cos2 lat) as T. unfold Rsqr in T. assert (A : Rabs (sin lat) * Rabs (sin lat) = sin lat * sin lat) by (rewrite <- Rabs_mult; apply Rabs_pos_eq; nra).
    pose proof (Rle_0_sqr (cos lat - Rabs (sin lat))) as Q. unfold Rsqr in Q. nra. }
  assert (Hd : Rabs (lat' - lat) <= 12 / 1000000) by lra.
  pose proof (south_small lat lat' lon h ltac:(lra)) as SS. pose proof (east_D lat lat' lon h) as ES. pose proof (up_large lat lat' lon h ltac:(lra) ltac:(lra)) as US.
  set (q := geodedic_to_ecf (MkGeodedic lon lat h)) in *. set (g := MkGeodedic lon lat' 0) in *. set (D := minus q (geodedic_to_ecf g)) in *.
  pose proof (Rabs_pos (lat' - lat)) as DP.
  assert (SS2 : Rabs (dot (south lat' lon) D) <= 12 / 10 ^ 6 * (6461 + h)).
  { eapply Rle_trans; [exact SS|]. rewrite Rmult_comm. apply Rmult_le_compat_r; lra. }
  assert (US2 : Rabs (dot (up lat' lon) D - h) <= 2 / 1000 + h / 10 ^ 9) by lra.
  assert (UP : 998 / 1000 * h - h / 10 ^ 9 <= dot (up lat' lon) D) by (apply Rabs_le_inv in US2; lra).
  assert (NE : q <> geodedic_to_ecf g).
  { intros E. assert (Z : dot (up lat' lon) D = 0) by (unfold D; rewrite E; unfold dot, minus, plus, scale; cbn [v_x v_y v_z]; ring). lra. }
  destruct (C44_look_angles g q NE) as (_ & R0 & RE & _ & K1 & K2 & K3). cbv zeta in *. cbn [gd_latitude gd_longitude g] in K1, K2, K3. fold g D in K1, K2, K3.
  set (rg := be_range _) in *. set (a := be_elevation _) in *. set (z := be_azimuth _) in *.
  assert (SP : 0 < sin a) by nra. assert (CP : 0 <= cos a) by (apply cos_ge_0; lra).
  assert (AP : 0 < a) by (destruct (Rlt_or_le 0 a) as [|Q]; [assumption|exfalso]; assert (0 <= sin (- a)) by (apply sin_ge_0; lra); rewrite sin_neg in *; lra).
  assert (HC : rg * cos a = Rabs (dot (south lat' lon) D)).
  { rewrite dot_scale_l in K1 || (rewrite dot_comm, dot_scale_r, dot_comm in K1). rewrite ES in K2. pose proof (sin2_cos2 z) as T. unfold Rsqr in T.
    set (k := rg * cos a) in *. set (w := dot (south lat' lon) D) in *. assert (k * k = w * w) by (replace (k * k) with (k * cos z * (k * cos z) + k * sin z * (k * sin z)) by (transitivity (k * k * (sin z * sin z + cos z * cos z)); [ring|rewrite T; ring]); rewrite K1, K2; ring).
    assert (0 <= k) by (unfold k; apply Rmult_le_pos; lra). apply Rsqr_inj; [assumption|apply Rabs_pos|]. rewrite <- Rsqr_abs. exact H. }
  split; [lra|]. split; [rewrite HC; split; [apply Rabs_pos|exact SS2]|]. split; [rewrite K3; exact US2|]. split.
  - rewrite sin_shift. pose proof (SIN_bound a). assert (RG : 99 / 100 * h <= rg) by nra.
    apply Rmult_le_reg_r with (99 / 100 * h); [lra|]. apply Rle_trans with (rg * cos a); [rewrite Rmult_comm; apply Rmult_le_compat_r; lra|].
    rewrite HC. eapply Rle_trans; [exact SS2|]. replace (13 / 10 ^ 6 * (6461 / h + 1) * (99 / 100 * h)) with (13 / 10 ^ 6 * (99 / 100) * (6461 + h)) by (field; lra). apply Rmult_le_compat_r; lra.
  - apply (C72_above_horizon g q); [cbn; lra|exact NE|fold a; lra].
Qed.
Print Assumptions C74_zenith.

(** Off the exact coordinates: the site at [lat'], [lon'], the satellite within [e] of the point at [lat], [lon], [h]. *)
Lemma dot_unit (u d : Vec3 R) e : dot u u = 1 -> norm d <= e -> Rabs (dot u d) <= e.
Proof. intros U H. pose proof (dot_le u d) as L. rewrite (unit_norm u U), Rmult_1_l in L. lra. Qed.
Lemma dot_minus u a b : dot u (minus a b) = dot u a - dot u b.
Proof. unfold minus. rewrite dot_plus_r, dot_scale_r. ring. Qed.
Lemma sc_half x : - (PI / 2) < x < PI / 2 -> cos x * Rabs (sin x) <= 1 / 2.
Proof.
  intros H. assert (0 < cos x) by (apply cos_gt_0; lra). pose proof (sin2_cos2 x) as T. unfold Rsqr in T. assert (A : Rabs (sin x) * Rabs (sin x) = sin x * sin x) by (rewrite <- Rabs_mult; apply Rabs_pos_eq; nra).
  pose proof (Rle_0_sqr (cos x - Rabs (sin x))) as Q. unfold Rsqr in Q. nra.
Qed.
Lemma meridian_shift lat lon lon' h (k : Z) u : 0 <= h -> Rabs (lon' - lon - 2 * PI * IZR k) <= 1 / 10 ^ 14 -> dot u u = 1 ->
  Rabs (dot u (minus (geodedic_to_ecf (MkGeodedic lon lat h)) (geodedic_to_ecf (MkGeodedic lon' lat h)))) <= 2 / 10 ^ 14 * (6417 + h).
Proof.
  intros Hh HK HU. rewrite !to_ecf_R. cbn [gd_longitude gd_latitude gd_height]. unfold dot, minus, plus, scale. cbn [v_x v_y v_z].
  set (m := prime_vertical lat + h). pose proof (pv_bound lat) as PB. set (n := prime_vertical lat) in *.
  assert (P : cos lon' = cos (lon' - 2 * PI * IZR k) /\ sin lon' = sin (lon' - 2 * PI * IZR k)).
  { split; [rewrite <- (CalcFun.cos_turn (lon' - 2 * PI * IZR k) k)|rewrite <- (CalcFun.sin_turn (lon' - 2 * PI * IZR k) k)]; f_equal; ring. }
  destruct P as [-> ->]. set (l := lon' - 2 * PI * IZR k). assert (L : Rabs (lon - l) <= 1 / 10 ^ 14) by (rewrite Rabs_minus_sym; unfold l; replace (lon' - 2 * PI * IZR k - lon) with (lon' - lon - 2 * PI * IZR k) by ring; exact HK).
  pose proof (sin_lip lon l) as LS. pose proof (CalcFun.cos_lip lon l) as LC.
  replace (v_x u * (m * cos lat * cos lon + -1 * (m * cos lat * cos l)) + v_y u * (m * cos lat * sin lon + -1 * (m * cos lat * sin l)) + v_z u * ((n * (WB / WA) ^ 2 + h) * sin lat + -1 * ((n * (WB / WA) ^ 2 + h) * sin lat)))
    with (m * (cos lat * (v_x u * (cos lon - cos l) + v_y u * (sin lon - sin l)))) by ring.
  unfold dot in HU. assert (UX : Rabs (v_x u) <= 1) by (apply Rabs_le; nra). assert (UY : Rabs (v_y u) <= 1) by (apply Rabs_le; nra).
  pose proof (COS_bound lat) as CB. assert (CL : Rabs (cos lat) <= 1) by (apply Rabs_le; lra).
  assert (A : Rabs (v_x u * (cos lon - cos l)) <= 1 * (1 / 10 ^ 14)) by (rewrite Rabs_mult; apply Rmult_le_compat; [apply Rabs_pos|apply Rabs_pos|exact UX|lra]).
  assert (B : Rabs (v_y u * (sin lon - sin l)) <= 1 * (1 / 10 ^ 14)) by (rewrite Rabs_mult; apply Rmult_le_compat; [apply Rabs_pos|apply Rabs_pos|exact UY|lra]).
  set (X := v_x u * (cos lon - cos l)) in *. set (Y := v_y u * (sin lon - sin l)) in *. pose proof (Rabs_triang X Y) as T.
  rewrite !Rabs_mult, (Rabs_pos_eq m) by (unfold m; lra). rewrite Rmult_comm. apply Rmult_le_compat; [apply Rmult_le_pos; apply Rabs_pos|unfold m; lra| |unfold m; lra].
  apply Rle_trans with (1 * (2 / 10 ^ 14)); [apply Rmult_le_compat; [apply Rabs_pos|apply Rabs_pos|exact CL|lra]|lra].
Qed.

(** A site on the ground at binary64 coordinates [g] and a point [Q] (kilometres): what "overhead" means for a satellite at
    geodetic height [h] whose position is known within [e]. *)
Definition overhead_of (e h : R) (g : Geodedic b64) (Q : Vec3 R) : Prop :=
  let site := MkGeodedic (B2R (gd_longitude g)) (B2R (gd_latitude g)) 0 in
  let b := ecf_to_look_angles (FO := ROps) site Q in
  0 < be_elevation b <= PI / 2 /\
  be_range b * cos (be_elevation b) <= 13 / 10 ^ 6 * (6461 + h) + 2 * e /\
  Rabs (be_range b * sin (be_elevation b) - h) <= 2 / 1000 + h / 10 ^ 9 + e /\
  in_sight (geodedic_to_ecf (FO := ROps) site) Q.

Lemma overhead_site lat lon lat' lon' h e Q (k : Z) : - (PI / 2) < lat < PI / 2 -> 1 <= h -> 0 <= e <= 1 / 100 ->
  norm (minus (geodedic_to_ecf (MkGeodedic lon lat h)) Q) <= e -> Rabs (lon' - lon - 2 * PI * IZR k) <= 1 / 10 ^ 14 ->
  Rabs (lat' - lat) <= 24 / 10 ^ 6 * (cos lat * Rabs (sin lat)) + 1 / 10 ^ 14 ->
  let site := MkGeodedic lon' lat' 0 in let b := ecf_to_look_angles site Q in
  0 < be_elevation b <= PI / 2 /\ be_range b * cos (be_elevation b) <= 13 / 10 ^ 6 * (6461 + h) + 2 * e /\
  Rabs (be_range b * sin (be_elevation b) - h) <= 2 / 1000 + h / 10 ^ 9 + e /\ in_sight (geodedic_to_ecf site) Q.
Proof.
  intros HL HH HE HQ HK LA. cbv zeta. pose proof (sc_half lat HL) as SC.
  assert (Hd : Rabs (lat' - lat) <= 12001 / 10 ^ 9) by lra.
  pose proof (south_small lat lat' lon' h ltac:(lra)) as SS. pose proof (east_D lat lat' lon' h) as ES. pose proof (up_large lat lat' lon' h ltac:(lra) ltac:(lra)) as US.
  set (P := geodedic_to_ecf (MkGeodedic lon lat h)) in *. set (P' := geodedic_to_ecf (MkGeodedic lon' lat h)) in *. set (g := MkGeodedic lon' lat' 0) in *. set (S := geodedic_to_ecf g) in *.
  pose proof (Rabs_pos (lat' - lat)) as DP.
  destruct (C43_basis lat' lon') as (B1 & B2 & B3 & _). cbv zeta in B1, B2, B3.
  assert (MV : forall u, dot u u = 1 -> Rabs (dot u (minus Q S) - dot u (minus P' S)) <= e + 2 / 10 ^ 14 * (6417 + h)).
  { intros u U. pose proof (meridian_shift lat lon lon' h k u ltac:(lra) HK U) as M. fold P P' in M. pose proof (dot_unit u _ e U HQ) as Z. rewrite !dot_minus in *.
    apply Rabs_le_inv in M. apply Rabs_le_inv in Z. apply Rabs_le. lra. }
  pose proof (MV _ B1) as M1. pose proof (MV _ B2) as M2. pose proof (MV _ B3) as M3. clear MV. rewrite ES, Rminus_0_r in M2.
  set (D := minus Q S) in *. set (D0 := minus P' S) in *.
  assert (S0 : (6461 + h) * Rabs (lat' - lat) <= 12001 / 10 ^ 9 * (6461 + h)) by (rewrite Rmult_comm; apply Rmult_le_compat_r; lra).
  assert (SS2 : Rabs (dot (south lat' lon') D) <= 12002 / 10 ^ 9 * (6461 + h) + e).
  { replace (dot (south lat' lon') D) with ((dot (south lat' lon') D - dot (south lat' lon') D0) + dot (south lat' lon') D0) by ring. eapply Rle_trans; [apply Rabs_triang|]. lra. }
  assert (US2 : Rabs (dot (up lat' lon') D - h) <= 2 / 1000 + h / 10 ^ 9 + e).
  { replace (dot (up lat' lon') D - h) with ((dot (up lat' lon') D - dot (up lat' lon') D0) + (dot (up lat' lon') D0 - h)) by ring. eapply Rle_trans; [apply Rabs_triang|]. lra. }
  assert (UP : 9 / 10 * h <= dot (up lat' lon') D) by (apply Rabs_le_inv in US2; lra).
  assert (NE : Q <> S).
  { intros E. assert (Z : dot (up lat' lon') D = 0) by (unfold D; rewrite E; unfold dot, minus, plus, scale; cbn [v_x v_y v_z]; ring). lra. }
  destruct (C44_look_angles g Q NE) as (_ & R0 & RE & _ & K1 & K2 & K3). cbv zeta in *. cbn [gd_latitude gd_longitude g] in K1, K2, K3. fold g S D in K1, K2, K3.
  set (rg := be_range _) in *. set (a := be_elevation _) in *. set (z := be_azimuth _) in *.
  assert (SP : 0 < sin a) by nra. assert (CP : 0 <= cos a) by (apply cos_ge_0; lra).
  assert (AP : 0 < a) by (destruct (Rlt_or_le 0 a) as [|X]; [assumption|exfalso]; assert (0 <= sin (- a)) by (apply sin_ge_0; lra); rewrite sin_neg in *; lra).
  split; [lra|]. split; [|split; [rewrite K3; exact US2|apply (C72_above_horizon g Q); [cbn; lra|exact NE|fold a; lra]]].
  rewrite dot_scale_l in K1. pose proof (sin2_cos2 z) as T. unfold Rsqr in T. set (c := rg * cos a) in *. assert (C0 : 0 <= c) by (unfold c; apply Rmult_le_pos; lra).
  set (x := dot (south lat' lon') D) in *. set (y := dot (east lon') D) in *.
  assert (CC : c * c = x * x + y * y) by (replace (c * c) with (c * cos z * (c * cos z) + c * sin z * (c * sin z)) by (transitivity (c * c * (sin z * sin z + cos z * cos z)); [ring|rewrite T; ring]); rewrite K1, K2; ring).
  apply Rle_trans with (Rabs x + Rabs y); [|lra].
  pose proof (Rabs_pos x). pose proof (Rabs_pos y). assert (X2 : x * x = Rabs x * Rabs x) by (rewrite <- Rabs_mult; symmetry; apply Rabs_pos_eq; nra). assert (Y2 : y * y = Rabs y * Rabs y) by (rewrite <- Rabs_mult; symmetry; apply Rabs_pos_eq; nra).
  apply Rsqr_incr_0_var; [|lra]. unfold Rsqr. rewrite CC, X2, Y2. assert (0 <= Rabs x * Rabs y) by (apply Rmult_le_pos; lra). lra.
Qed.
(** [subpoint_of] (C65) and its true height *)
Lemma overhead_subpoint e g Q : 0 <= e <= 1 / 100 -> subpoint_of e g Q ->
  exists h, (exists lat lon, norm (minus (geodedic_to_ecf (FO := ROps) (MkGeodedic lon lat h)) Q) <= e) /\ (1 <= h -> overhead_of e h g Q).
Proof.
  intros HE (lat & lon & h & H0 & H1 & H2 & H3 & (_ & k & H4) & (_ & H5) & _). exists h. split; [exists lat, lon; exact H3|]. intros HH.
  exact (overhead_site lat lon _ _ h e Q k H1 HH HE H3 H4 H5).
Qed.

(** From the text of a set to the zenith, near-Earth: the coordinates returned for a date are those of a place over which the
    theory's position stands. *)
Theorem C74_text_near :
  forall (lm : libm), accurate lm ->
  forall (full : bool) (fuel fuel' fuel2 : nat) (l1 l2 : str) (t : tle) (s : Satrec b64),
    well_written l1 l2 t -> usual t -> perigee_class full (tle_elements t) -> (2 <= fuel2)%nat ->
    twoline2satrec (FO := B64Ops lm) fuel l1 l2 = Done (Ok s) ->
    let el := tle_elements t in
      forall (d : DateTime) (m : R) (n : Z), civil d -> in_span d -> minutes_since_epoch t d m -> Rabs m <= span (tle_elements t) - 1 ->
        days_from (Date 2000 1 1) (dt_date d) n ->
        let jd := 2451544.5 + IZR n + IZR (tod d) / 86400 in
        exists tm, Rabs (tm - m) <= 4 / 1000000 /\
          let i := Str3.i0 el in
          (- (1 / 1000) + 1 / 1000000000 <= Str3.e_unclamped el full tm 0 -> exists E u,
             kepler_angle (Str3.axN el full tm 0) (Str3.ayN el full tm 0 i) (Str3.U el full tm 0 i) E /\
             sin u = Str3.sin_u el full tm 0 i E /\ cos u = Str3.cos_u el full tm 0 i E /\
             (10002 / 10000 <= Str3.rk el full tm 0 i E u -> off_axis (Str3.position el full tm 0 i E u) ->
              let Q := earth_fixed (gmst_angle jd) (Str3.position el full tm 0 i E u) in
              exists v g h, propogate_datetime (FO := B64Ops lm) fuel' s d = Done (Ok v) /\
                eci_to_geodedic (FO := B64Ops lm) fuel2 (g4_position v) (gstime_datetime (FO := B64Ops lm) d) = Done g /\
                (exists lat lon, norm (minus (geodedic_to_ecf (FO := ROps) (MkGeodedic lon lat h)) Q) <= 51 / 100000) /\
                (1 <= h -> overhead_of (51 / 100000) h g Q))).
Proof.
  intros lm ACC full fuel fuel' fuel2 l1 l2 t s W U P F T el d m n Cd Sd Md Hm HN jd.
  destruct (C65_text_to_subpoint lm ACC full fuel fuel' fuel2 l1 l2 t s W U P F T d m n Cd Sd Md Hm HN) as (tm & E1 & K). exists tm. split; [exact E1|]. cbv zeta in *.
  intros HE. destruct (K HE) as (E & u & O1 & O2 & O3 & O4). exists E, u. split; [exact O1|]. split; [exact O2|]. split; [exact O3|]. intros HR HA. destruct (O4 HR HA) as (v & g & PR & G & SB).
  destruct (overhead_subpoint (51 / 100000) g _ ltac:(lra) SB) as (h & H1 & H2). exists v, g, h. exact (conj PR (conj G (conj H1 H2))).
Qed.
Print Assumptions C74_text_near.

(** ... deep space *)
Theorem C74_text_deep :
  forall (lm : libm), accurate lm ->
  forall (fuel fuel' fuel2 : nat) (l1 l2 : str) (t : tle) (x : R) (s : Satrec b64),
    well_written l1 l2 t -> deep_usual t -> epoch_days t x -> (60 <= fuel')%nat -> (2 <= fuel2)%nat ->
    twoline2satrec (FO := B64Ops lm) fuel l1 l2 = Done (Ok s) ->
    let el := tle_elements t in
    forall fuelR s0R (sR : Satrec R) rR, sgp4init (FO := ROps) fuelR s0R (text_options t x) = Done (sR, rR) ->
      forall (d : DateTime) (m : R) (n : Z), civil d -> in_span d -> minutes_since_epoch t d m -> -43199 <= m <= 43199 ->
        days_from (Date 2000 1 1) (dt_date d) n ->
        let jd := 2451544.5 + IZR n + IZR (tod d) / 86400 in
        exists tm, Rabs (tm - m) <= 4 / 1000000 /\
          let de := sr_dedt sR * tm in
          let i := Rabs (Str3.i0 el + d_incl sR tm) in
          (- (1 / 1000) + 1 / 1000000000 <= Str3.e_unclamped el false tm de -> 1 / 1000000000 <= Str3.e el false tm de + d_ecc sR tm ->
           exists v E u,
             propogate_datetime (FO := B64Ops lm) fuel' s d = Done (Ok v) /\
             kepler_angle (Str3.axN el false tm de) (Str3.ayN el false tm de i) (Str3.U el false tm de i) E /\
             sin u = Str3.sin_u el false tm de i E /\ cos u = Str3.cos_u el false tm de i E /\
             (off_axis (Str3.position el false tm de i E u) ->
              let Q := earth_fixed (gmst_angle jd) (Str3.position el false tm de i E u) in
              exists g h, eci_to_geodedic (FO := B64Ops lm) fuel2 (g4_position v) (gstime_datetime (FO := B64Ops lm) d) = Done g /\
                (exists lat lon, norm (minus (geodedic_to_ecf (FO := ROps) (MkGeodedic lon lat h)) Q) <= 51 / 100000) /\
                (1 <= h -> overhead_of (51 / 100000) h g Q))).
Proof.
  intros lm ACC fuel fuel' fuel2 l1 l2 t x s W U X F F2 T el fuelR s0R sR rR I d m n Cd Sd Md Hm HN jd.
  destruct (C65_text_to_deep_subpoint lm ACC fuel fuel' fuel2 l1 l2 t x s W U X F F2 T fuelR s0R sR rR I d m n Cd Sd Md Hm HN) as (tm & E1 & K). exists tm. split; [exact E1|]. cbv zeta in *.
  intros H1 H2. destruct (K H1 H2) as (v & E & u & PR & O1 & O2 & O3 & L). exists v, E, u. split; [exact PR|]. split; [exact O1|]. split; [exact O2|]. split; [exact O3|].
  intros HA. destruct (L HA) as (g & G & SB). destruct (overhead_subpoint (51 / 100000) g _ ltac:(lra) SB) as (h & P1 & P2). exists g, h. exact (conj G (conj P1 P2)).
Qed.
Print Assumptions C74_text_deep.

(** Non-vacuity: a satellite 400 km over 45 degrees north, 10 degrees east, at any sidereal angle: the conversion returns, and the
    zenith angle at the place returned is below 2.3e-4 (0.013 degrees). *)
Theorem C74_example :
  forall gmst, Rabs gmst <= 7 ->
    let p := ecf_to_eci (FO := ROps) (geodedic_to_ecf (MkGeodedic (PI / 18) (PI / 4) 400)) gmst in
    exists g', eci_to_geodedic (FO := ROps) 2 p gmst = Done g' /\
      sin (PI / 2 - be_elevation (ecf_to_look_angles (FO := ROps) (MkGeodedic (gd_longitude g') (gd_latitude g') 0) (eci_to_ecf p gmst))) <= 23 / 100000.
Proof.
  intros gmst HG p. pose proof PI_RGT_0.
  assert (T : exists g', eci_to_geodedic (FO := ROps) 2 p gmst = Done g').
  { apply C41_terminates. pose proof (Ratan2_range (v_y p) (v_x p)) as B. pose proof PI2_3_2. apply Rabs_le_inv in HG. cbn [INR]. apply Rabs_le. unfold PI2 in *. lra. }
  destruct T as (g' & T). exists g'. split; [exact T|].
  destruct (C74_zenith (PI / 4) (PI / 18) 400 gmst 2 g' ltac:(lra) ltac:(lra) ltac:(lra) T) as (_ & _ & _ & Z & _). cbv zeta in Z. fold p in Z. lra.
Qed.
Print Assumptions C74_example.
