(** * C65: from the text of an element set to the geodetic coordinates of the satellite in binary64 *)
From Coq Require Import ZArith List Bool Reals Qreals Lra Lia Psatz.
From Flocq Require Import Core.Raux IEEE754.BinarySingleNaN.
From Verif.Model Require Import Float Str Satrec Constants Vec3 Ext Gstime Transforms Io Propagate Sgp4 Sgp4init.
From Verif.Inst Require Import RInst RTac B64.
From Verif.Proofs Require Import TransformFacts FrameR.
From Verif.Spec Require Import LibmAccuracy Vectors3 Calendar Str3Api NearAccuracy DeepAccuracy PeriodicSpec TleSpec.
From Verif.Spec Require Str3.
From Verif.Props Require Import C08 C15 C22 C40 C54 C55 C56 C58 C59 C61 C63.
From Verif.Props Require C25 C28 C60.
From Verif.Proofs Require LibmExists CalendarFacts CalcFun.
Local Open Scope R_scope.

(** What returned coordinates say about the Earth-fixed position [Q] (km): some point within [e] of [Q] has the geodetic coordinates [lat], [lon], [h] on the WGS-84 ellipsoid; the returned longitude is [lon] within
    1e-14 up to whole turns, the latitude is [lat] within 24 millionths of cos lat * |sin lat| (plus 1e-14), and
    the height is [h] less 21.35 km * sin^2 lat, within 0.35 km * sin^2 lat, a 40000th of [h] * sin^2 lat, and
    3 mm. *)
Definition subpoint_of (e : R) (g : Geodedic b64) (Q : Vec3 R) : Prop :=
  exists lat lon h, 0 <= h /\ - (PI / 2) < lat < PI / 2 /\ - PI < lon <= PI /\
    norm (minus (geodedic_to_ecf (FO := ROps) (MkGeodedic lon lat h)) Q) <= e /\
    (is_finite (gd_longitude g) = true /\ turns_within (1 / 10 ^ 14) (B2R (gd_longitude g)) lon) /\
    close (24 / 10 ^ 6 * (cos lat * Rabs (sin lat)) + 1 / 10 ^ 14) (gd_latitude g) lat /\
    close ((35 / 100 + h / 40000) * sin lat ^ 2 + 3 / 10 ^ 6) (gd_height g) (h - 2135 / 100 * sin lat ^ 2).

(** satellites over the polar caps (3.8 arc minutes around the poles) are left out *)
Definition off_axis (P : Vec3 R) : Prop := norm P <= 900 * sqrt (v_x P * v_x P + v_y P * v_y P).

Lemma centre_norm q : centre_distance q = norm q.
Proof. unfold centre_distance, axis_distance, norm, dot. rewrite sqrt_sqrt; [reflexivity|]. pose proof (Rle_0_sqr (v_x q)). pose proof (Rle_0_sqr (v_y q)). unfold Rsqr in *. lra. Qed.
Lemma axis_norm q : axis_distance q = norm (MkVec3 (v_x q) (v_y q) 0).
Proof. unfold axis_distance, norm, dot. cbn [v_x v_y v_z]. f_equal. ring. Qed.
Lemma outside_ellipsoid q : WA <= norm q -> 1 <= (v_x q ^ 2 + v_y q ^ 2) / WA ^ 2 + v_z q ^ 2 / WB ^ 2.
Proof.
  intros H. assert (A : 0 < WA) by (unfold WA; lra). assert (B : 0 < WB <= WA) by (unfold WA, WB; lra).
  assert (Z : v_z q ^ 2 / WA ^ 2 <= v_z q ^ 2 / WB ^ 2).
  { unfold Rdiv. apply Rmult_le_compat_l; [apply pow2_ge_0|]. apply Rinv_le_contravar; [apply pow_lt; lra|]. apply pow_incr. lra. }
  apply Rle_trans with ((v_x q ^ 2 + v_y q ^ 2) / WA ^ 2 + v_z q ^ 2 / WA ^ 2); [|lra].
  replace ((v_x q ^ 2 + v_y q ^ 2) / WA ^ 2 + v_z q ^ 2 / WA ^ 2) with (dot q q / WA ^ 2) by (unfold dot; field; lra).
  rewrite <- norm_sqr. apply (Rmult_le_reg_r (WA ^ 2)); [apply pow_lt; lra|]. unfold Rdiv. rewrite Rmult_assoc, Rinv_l by (apply pow_nonzero; lra). nra.
Qed.

(** A binary64 position within [c] of [P] in every coordinate, [P] between 6379 and [X] km from the Earth's centre,
    and a binary64 sidereal angle within 4e-9 of [th] up to whole turns. *)
Theorem C65_subpoint :
  forall (lm : libm), accurate lm ->
  forall (v : Vec3 b64) (P : Vec3 R) (c X e : R) (gm : b64) (th : R) (fuel : nat),
    NearAccuracy.close c v P -> 6379 <= norm P <= X -> off_axis P ->
    0 <= c -> X <= 90000 -> 7 / 4 * c + 4 / 10 ^ 9 * X <= e -> e <= 1 / 100 ->
    within 7 gm -> turns_close (B2R gm) th (4 / 10 ^ 9) -> (2 <= fuel)%nat ->
    exists g, eci_to_geodedic (FO := B64Ops lm) fuel v gm = Done g /\ subpoint_of e g (earth_fixed th P).
Proof.
  intros lm ACC v P c X e gm th fuel HV HP HO HC HX HB HE HG (k & HK) Hf.
  set (q := exact_vec v).
  assert (N0 : forall d1 d2 d3, Rabs d1 <= c -> Rabs d2 <= c -> Rabs d3 <= c -> norm (MkVec3 d1 d2 d3) <= 7 / 4 * c).
  { intros d1 d2 d3 H1 H2 H3. apply Rabs_le_inv in H1, H2, H3. apply norm_le3; [lra|].
    assert (SQ : forall d, - c <= d <= c -> d * d <= c * c) by (intros; nra). pose proof (SQ _ H1). pose proof (SQ _ H2). pose proof (SQ _ H3). nra. }
  destruct HV as ((F1 & E1) & (F2 & E2) & (F3 & E3)).
  assert (N2 : norm (minus q P) <= 7 / 4 * c).
  { replace (minus q P) with (MkVec3 (B2R (v_x v) - v_x P) (B2R (v_y v) - v_y P) (B2R (v_z v) - v_z P)) by (apply vec_eq; unfold minus, plus, scale, q, exact_vec; cbn [v_x v_y v_z]; ring). now apply N0. }
  assert (A2 : Rabs (axis_distance q - axis_distance P) <= 7 / 4 * c).
  { rewrite !axis_norm. eapply Rle_trans; [apply norm_diff|].
    replace (minus (MkVec3 (v_x q) (v_y q) 0) (MkVec3 (v_x P) (v_y P) 0)) with (MkVec3 (B2R (v_x v) - v_x P) (B2R (v_y v) - v_y P) 0) by (apply vec_eq; unfold minus, plus, scale, q, exact_vec; cbn [v_x v_y v_z]; ring).
    apply N0; [exact E1|exact E2|rewrite Rabs_R0; exact HC]. }
  pose proof (norm_diff q P) as ND. assert (ND' : Rabs (norm q - norm P) <= 7 / 4 * c) by lra. apply Rabs_le_inv in ND', A2. clear ND.
  unfold off_axis in HO. fold (axis_distance P) in HO.
  assert (OR : C59.ordinary q). { unfold C59.ordinary. rewrite centre_norm. lra. }
  assert (EL : 1 <= (v_x q ^ 2 + v_y q ^ 2) / WA ^ 2 + v_z q ^ 2 / WB ^ 2) by (apply outside_ellipsoid; unfold WA; lra).
  destruct (C59_geodetic_coordinates lm v gm fuel ACC (conj F1 (conj F2 F3)) HG OR Hf EL) as (g & G & lat & lon & h & K1 & K2 & K3 & K4 & K5 & K6 & K7 & K8).
  exists g. split; [exact G|]. exists lat, lon, h. split; [exact K1|]. split; [exact K2|]. split; [exact K3|]. split.
  - rewrite K4. fold q. set (G0 := B2R gm) in *.
    assert (R1 : @eci_to_ecf _ ROps q G0 = earth_fixed G0 q) by (unfold eci_to_ecf, earth_fixed; rops; f_equal; ring). rewrite R1.
    assert (N3 : norm (minus (earth_fixed G0 P) (earth_fixed th P)) <= 4 / 10 ^ 9 * X).
    { replace (earth_fixed th P) with (earth_fixed (th + 2 * PI * IZR k) P).
      2:{ unfold earth_fixed. rewrite CalcFun.cos_turn, CalcFun.sin_turn. reflexivity. }
      eapply Rle_trans; [apply turn_angle|]. apply Rmult_le_compat; [apply Rabs_pos|apply norm_nonneg|exact HK|lra]. }
    replace (minus (earth_fixed G0 q) (earth_fixed th P)) with (plus (minus (earth_fixed G0 q) (earth_fixed G0 P)) (minus (earth_fixed G0 P) (earth_fixed th P)))
      by (unfold minus, plus, scale; cbn [v_x v_y v_z]; f_equal; ring).
    eapply Rle_trans; [apply triangle|]. rewrite turn_minus, turn_norm. lra.
  - split; [exact K5|]. split; [exact K6|]. split; [exact K7|]. eapply Rle_trans; [exact K8|]. apply Rplus_le_compat_l.
    assert (AP : 6 <= axis_distance q) by lra.
    apply (Rmult_le_reg_r (axis_distance q)); [lra|]. fold q. rewrite centre_norm.
    replace (2 / 10 ^ 14 * (norm q ^ 2 / axis_distance q) * axis_distance q) with (2 / 10 ^ 14 * norm q * norm q) by (field; lra).
    apply Rle_trans with (2 / 10 ^ 14 * 100000 * norm q); [apply Rmult_le_compat_r; [lra|]; apply Rmult_le_compat_l; lra|].
    lra.
Qed.
Print Assumptions C65_subpoint.

Lemma gst_within (y : b64) : is_nan y = true \/ (is_finite y = true /\ 0 <= B2R y <= TPI) -> is_finite y = true -> within 7 y.
Proof.
  intros [N|(_ & H)] F; [destruct y; discriminate|]. split; [exact F|]. pose proof TPI_bounds. unfold TPI in H. apply Rabs_le. lra.
Qed.
Lemma gst_jd {F} {FO : FloatOps F} d : gstime_datetime d = gstime (jday_datetime d).
Proof. reflexivity. Qed.
Lemma sidereal lm d n : civil d -> in_span d -> days_from (Date 2000 1 1) (dt_date d) n ->
  within 7 (gstime_datetime (FO := B64Ops lm) d) /\ turns_close (B2R (gstime_datetime (FO := B64Ops lm) d)) (gmst_angle (2451544.5 + IZR n + IZR (tod d) / 86400)) (4 / 10 ^ 9).
Proof.
  intros (V & Hh & Hmi & Hs) (B1 & B2) HN. destruct (C55_gstime_datetime lm d n V B1 B2 Hh Hmi ltac:(lia) HN) as (F & TC). cbv zeta in F, TC.
  replace (2451544.5 + IZR n + (IZR (dt_hour d) + IZR (dt_minute d) / 60 + IZR (dt_second d) / 3600) / 24) with (2451544.5 + IZR n + IZR (tod d) / 86400) in TC by (unfold tod; rewrite !plus_IZR, !mult_IZR; field).
  split; [|exact TC]. revert F. clear. rewrite gst_jd. generalize (@jday_datetime _ (B64Ops lm) d). intros j F. exact (gst_within _ (proj1 (C15_binary64_range lm j)) F).
Qed.

(** Near-earth sets: decode, propagate to a date within a day of the epoch (three weeks, from 400 km up), and convert to geodetic coordinates
    with the sidereal time of that date, all in binary64.  The satellite must be 1.3 km above the equatorial
    radius at least and off the polar caps. *)
Theorem C65_text_to_subpoint :
  forall (lm : libm), accurate lm ->
  forall (full : bool) (fuel fuel' fuel2 : nat) (l1 l2 : str) (t : tle) (s : Satrec b64),
    well_written l1 l2 t -> usual t -> perigee_class full (tle_elements t) -> (2 <= fuel2)%nat ->
    twoline2satrec (FO := B64Ops lm) fuel l1 l2 = Done (Ok s) ->
    let el := tle_elements t in
      forall (d : DateTime) (m : R) (n : Z), civil d -> in_span d -> minutes_since_epoch t d m -> Rabs m <= span (tle_elements t) - 1 ->
        days_from (Date 2000 1 1) (dt_date d) n ->
        let jd := 2451544.5 + IZR n + IZR (tod d) / 86400 in
        exists tm, Rabs (tm - m) <= 4 / 1000000 /\
          let i := Str3.i0 el in
          (- (1 / 1000) + 1 / 1000000000 <= Str3.e_unclamped el full tm 0 -> exists E u,
             kepler_angle (Str3.axN el full tm 0) (Str3.ayN el full tm 0 i) (Str3.U el full tm 0 i) E /\
             sin u = Str3.sin_u el full tm 0 i E /\ cos u = Str3.cos_u el full tm 0 i E /\
             (10002 / 10000 <= Str3.rk el full tm 0 i E u -> off_axis (Str3.position el full tm 0 i E u) ->
              exists v g, propogate_datetime (FO := B64Ops lm) fuel' s d = Done (Ok v) /\
                eci_to_geodedic (FO := B64Ops lm) fuel2 (g4_position v) (gstime_datetime (FO := B64Ops lm) d) = Done g /\
                subpoint_of (51 / 100000) g (earth_fixed (gmst_angle jd) (Str3.position el full tm 0 i E u)))).
Proof.
  intros lm ACC full fuel fuel' fuel2 l1 l2 t s W U P F2 T.
  destruct (C58_text_to_binary64_state lm ACC full fuel fuel' l1 l2 t W U P) as (r0 & _ & TE & TO). intros el. fold el in TE, TO.
  destruct r0 as [v0|e]; [|rewrite (TE e eq_refl) in T; discriminate]. destruct (TO v0 eq_refl) as (s2 & T2 & K). rewrite T in T2. injection T2 as <-. clear TE TO T.
  intros d m n Cd Sd Md Hm HN jd. destruct (K d m Cd Sd Md Hm) as (tm & res & E1 & PR & O). exists tm. split; [exact E1|]. cbv zeta. intros HE.
  destruct O as (_ & O). destruct (O HE) as (E & u & O1 & O2 & O3 & RB & _ & O4). clear O. exists E, u. split; [exact O1|]. split; [exact O2|]. split; [exact O3|].
  intros HR HO. destruct (O4 ltac:(lra)) as (v & -> & PV & _). destruct (sidereal lm d n Cd Sd HN) as (G1 & G2).
  assert (NB : 6379 <= norm (Str3.position el full tm 0 (Str3.i0 el) E u) <= 19500) by (rewrite C60.norm_position, Rabs_pos_eq by lra; unfold Str3.aE; lra).
  destruct (C65_subpoint lm ACC (g4_position v) _ (12 / 100000) 19500 (51 / 100000) _ _ fuel2 PV NB HO ltac:(lra) ltac:(lra) ltac:(lra) ltac:(lra) G1 G2 F2) as (g & G & SP).
  exists v, g. split; [exact PR|]. split; [exact G|exact SP].
Qed.
Print Assumptions C65_text_to_subpoint.

(** Deep-space sets, within a month of the epoch. *)
Theorem C65_text_to_deep_subpoint :
  forall (lm : libm), accurate lm ->
  forall (fuel fuel' fuel2 : nat) (l1 l2 : str) (t : tle) (x : R) (s : Satrec b64),
    well_written l1 l2 t -> deep_usual t -> epoch_days t x -> (60 <= fuel')%nat -> (2 <= fuel2)%nat ->
    twoline2satrec (FO := B64Ops lm) fuel l1 l2 = Done (Ok s) ->
    let el := tle_elements t in
    forall fuelR s0R (sR : Satrec R) rR, sgp4init (FO := ROps) fuelR s0R (text_options t x) = Done (sR, rR) ->
      forall (d : DateTime) (m : R) (n : Z), civil d -> in_span d -> minutes_since_epoch t d m -> -43199 <= m <= 43199 ->
        days_from (Date 2000 1 1) (dt_date d) n ->
        let jd := 2451544.5 + IZR n + IZR (tod d) / 86400 in
        exists tm, Rabs (tm - m) <= 4 / 1000000 /\
          let de := sr_dedt sR * tm in
          let i := Rabs (Str3.i0 el + d_incl sR tm) in
          (- (1 / 1000) + 1 / 1000000000 <= Str3.e_unclamped el false tm de -> 1 / 1000000000 <= Str3.e el false tm de + d_ecc sR tm ->
           exists v E u,
             propogate_datetime (FO := B64Ops lm) fuel' s d = Done (Ok v) /\
             kepler_angle (Str3.axN el false tm de) (Str3.ayN el false tm de i) (Str3.U el false tm de i) E /\
             sin u = Str3.sin_u el false tm de i E /\ cos u = Str3.cos_u el false tm de i E /\
             (off_axis (Str3.position el false tm de i E u) ->
              exists g, eci_to_geodedic (FO := B64Ops lm) fuel2 (g4_position v) (gstime_datetime (FO := B64Ops lm) d) = Done g /\
                subpoint_of (51 / 100000) g (earth_fixed (gmst_angle jd) (Str3.position el false tm de i E u)))).
Proof.
  intros lm ACC fuel fuel' fuel2 l1 l2 t x s W U HX HF F2 T el fuelR s0R sR rR HR.
  destruct (C63_text_to_deep_state lm ACC fuel fuel' l1 l2 t x W U HX HF) as (r0 & _ & TR). destruct (TR _ _ _ _ HR) as (_ & TE & TO). clear TR. fold el in TO.
  destruct r0 as [v0|e]; [|rewrite (TE e eq_refl) in T; discriminate]. destruct (TO v0 eq_refl) as (s2 & T2 & K). rewrite T in T2. injection T2 as <-. clear TE TO T.
  intros d m n Cd Sd Md Hm HN jd. destruct (K d m Cd Sd Md Hm) as (tm & res & E1 & PR & O). exists tm. split; [exact E1|]. intros de i HE HP.
  destruct O as (_ & _ & O1). destruct (O1 HE HP) as (v & E & u & -> & K1 & K2 & K3 & RB & PV & _). clear O1.
  exists v, E, u. split; [exact PR|]. split; [exact K1|]. split; [exact K2|]. split; [exact K3|]. intros HO. destruct (sidereal lm d n Cd Sd HN) as (G1 & G2).
  assert (NB : 6379 <= norm (Str3.position el false tm de i E u) <= 64101) by (fold de in RB; fold i in RB; clearbody i de; clear - RB; rewrite C60.norm_position; rewrite Rabs_pos_eq; unfold Str3.aE; lra).
  destruct (C65_subpoint lm ACC (g4_position v) _ (14 / 100000) 64101 (51 / 100000) _ _ fuel2 PV NB HO ltac:(lra) ltac:(lra) ltac:(lra) ltac:(lra) G1 G2 F2) as (g & G & SP).
  exists g. split; [exact G|exact SP].
Qed.
Print Assumptions C65_text_to_deep_subpoint.

(** Non-vacuity: the ISS set and the geostationary set with their dates (C58_example, C63_example); a position
    622 km above the equator meets the hypotheses of C65_subpoint. *)
Example C65_example :
  accurate LibmExists.exact_lm /\
  (well_written C25.iss1 C25.iss2 C28.iss /\ usual C28.iss /\ perigee_class true (tle_elements C28.iss) /\ civil noon /\ in_span noon /\
   exists m, minutes_since_epoch C28.iss noon m /\ 207 <= m <= 208) /\
  (well_written C25.iss1 C54.geo2 C54.geo /\ deep_usual C54.geo /\ (exists x, epoch_days C54.geo x /\ 25007 <= x <= 25008) /\ civil july /\ in_span july /\
   exists m, minutes_since_epoch C54.geo july m /\ 30447 <= m <= 30448) /\
  let v := MkVec3 (b64_lit 7000 0) (b64_lit 1000 0) (b64_lit 0 0) in let P := exact_vec v in
  NearAccuracy.close (12 / 100000) v P /\ 6379 <= norm P <= 19500 /\ off_axis P /\ within 7 (b64_lit 0 0) /\ turns_close (B2R (b64_lit 0 0)) 0 (4 / 10 ^ 9).
Proof.
  destruct C58_example as (X1 & XB & X5 & X6 & X7 & _). destruct (XB true) as (X2 & X3 & X4). destruct C63_example as (_ & Y2 & Y3 & Y4 & Y5 & Y6 & Y7).
  split; [exact X1|]. split; [tauto|]. split; [tauto|]. cbv zeta.
  assert (L : forall n : Z, (0 <= n <= 7000)%Z -> B2R (b64_lit n 0) = IZR n /\ is_finite (b64_lit n 0) = true).
  { intros n Hn. exact (B64Facts.lit_int_fin LibmExists.exact_lm n ltac:(lia)). }
  destruct (L 0%Z ltac:(lia)) as [Z1 Z2]. destruct (L 7000%Z ltac:(lia)) as [A1 A2]. destruct (L 1000%Z ltac:(lia)) as [B1 B2].
  unfold exact_vec, off_axis, NearAccuracy.close, within, norm, dot. cbn [v_x v_y v_z]. rewrite Z1, A1, B1.
  rewrite !Rminus_diag_eq, Rabs_R0 by reflexivity. split; [repeat split; try assumption; lra|].
  assert (S : 7000 <= sqrt (7000 * 7000 + 1000 * 1000 + 0 * 0) <= 8000).
  { split; [apply Rle_trans with (sqrt (7000 * 7000)); [rewrite sqrt_square; lra|apply sqrt_le_1_alt; lra]|apply Rle_trans with (sqrt (8000 * 8000)); [apply sqrt_le_1_alt; lra|rewrite sqrt_square; lra]]. }
  split; [lra|]. split; [assert (7000 <= sqrt (7000 * 7000 + 1000 * 1000)) by (apply Rle_trans with (sqrt (7000 * 7000)); [rewrite sqrt_square; lra|apply sqrt_le_1_alt; lra]); lra|].
  split; [split; [assumption|lra]|]. exists 0%Z. rewrite Rmult_0_r, Rplus_0_r, Rminus_0_r, Rabs_R0. lra.
Qed.
