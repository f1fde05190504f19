(** * C61: from the text of an element set and an observer's coordinates to range and direction in binary64 *)
From Coq Require Import ZArith List Bool Reals Qreals Lra Lia Psatz.
From Flocq Require Import Core.Raux IEEE754.BinarySingleNaN.
From Verif.Model Require Import Float Str Satrec Constants Vec3 Ext Gstime Transforms Io Propagate Sgp4.
From Verif.Inst Require Import RInst RTac B64.
From Verif.Proofs Require Import TransformFacts FrameR.
From Verif.Spec Require Import LibmAccuracy Vectors3 Calendar Str3Api NearAccuracy TleSpec.
From Verif.Spec Require Str3.
From Verif.Props Require Import C08 C15 C22 C40 C43 C44 C54 C55 C56 C58.
From Verif.Props Require C25 C28 C60.
From Verif.Proofs Require LibmExists CalendarFacts.
From Verif.Inst Require B64Facts.
From Verif.Proofs Require GeodeticError CalcFun.
Local Open Scope R_scope.

(** the inertial position [p] in the frame turned with the Earth by the angle [th] *)
Definition earth_fixed (th : R) (p : Vec3 R) : Vec3 R :=
  MkVec3 (v_x p * cos th + v_y p * sin th) (- v_x p * sin th + v_y p * cos th) (v_z p).

Lemma dot_le a b : Rabs (dot a b) <= norm a * norm b.
Proof.
  apply Rabs_le. pose proof (cauchy a b) as C. pose proof (cauchy (scale (-1) a) b) as D. rewrite norm_opp in D.
  replace (dot (scale (-1) a) b) with (- dot a b) in D by (unfold dot, scale; cbn [v_x v_y v_z]; ring). lra.
Qed.
Lemma norm_le3 x y z d : 0 <= d -> x * x + y * y + z * z <= d * d -> norm (MkVec3 x y z) <= d.
Proof. intros D H. unfold norm, dot. cbn [v_x v_y v_z]. apply Rle_trans with (sqrt (d * d)); [now apply sqrt_le_1_alt|rewrite sqrt_square; lra]. Qed.
Lemma norm_diff a b : Rabs (norm a - norm b) <= norm (minus a b).
Proof.
  apply Rabs_le. pose proof (triangle (minus a b) b) as T1. pose proof (triangle (scale (-1) (minus a b)) a) as T2. rewrite norm_opp in T2.
  assert (E1 : plus (minus a b) b = a) by (apply vec_eq; unfold minus, plus, scale; cbn [v_x v_y v_z]; ring).
  assert (E2 : plus (scale (-1) (minus a b)) a = b) by (apply vec_eq; unfold minus, plus, scale; cbn [v_x v_y v_z]; ring).
  rewrite E1 in T1. rewrite E2 in T2. lra.
Qed.

(** turning by a slightly different angle *)
Lemma chord a b : (cos a - cos b) * (cos a - cos b) + (sin a - sin b) * (sin a - sin b) <= (a - b) * (a - b).
Proof.
  replace ((cos a - cos b) * (cos a - cos b) + (sin a - sin b) * (sin a - sin b)) with ((sin a * sin a + cos a * cos a) + (sin b * sin b + cos b * cos b) - 2 * (cos a * cos b + sin a * sin b)) by ring.
  rewrite !sc2, <- cos_minus. set (x := a - b). replace x with (2 * (x / 2)) at 1 by field. rewrite cos_2a_sin.
  assert (S : Rabs (sin (x / 2)) <= Rabs (x / 2)) by (pose proof (GeodeticError.sin_lip (x / 2) 0) as L; now rewrite sin_0, !Rminus_0_r in L).
  assert (Q : sin (x / 2) * sin (x / 2) <= x / 2 * (x / 2)). { apply Rsqr_le_abs_1 in S. exact S. }
  lra.
Qed.
Lemma chord_cos a b : Rabs (cos a - cos b) <= Rabs (a - b).
Proof. rewrite <- !sin_shift. eapply Rle_trans; [apply GeodeticError.sin_lip|]. right. rewrite <- Rabs_Ropp. f_equal. ring. Qed.
Lemma bessel a b w : dot a a = 1 -> dot b b = 1 -> dot a b = 0 -> dot a w * dot a w + dot b w * dot b w <= dot w w.
Proof.
  intros AA BB AB. set (x := dot a w). set (y := dot b w). set (h := plus (scale x a) (scale y b)).
  assert (HW : dot h w = x * x + y * y) by (unfold h, x, y; rewrite dot_plus_l, !dot_scale_l; ring).
  assert (HH : dot h h = x * x + y * y) by (unfold h; rewrite !dot_plus_l, !dot_plus_r, !dot_scale_l, !dot_scale_r, (dot_comm b a), AA, BB, AB; ring).
  pose proof (cauchy h w) as C. pose proof (norm_sqr h) as S1. pose proof (norm_sqr w) as S2. pose proof (norm_nonneg h). pose proof (norm_nonneg w). rewrite HW in C. rewrite HH in S1. rewrite <- S1 in *. rewrite <- S2.
  destruct (Rle_lt_or_eq_dec 0 (norm h) ltac:(assumption)) as [P|P]; [|rewrite <- P; nra].
  assert (norm h <= norm w) by (apply (Rmult_le_reg_l (norm h)); lra). nra.
Qed.
Lemma turn_norm th p : norm (earth_fixed th p) = norm p.
Proof.
  unfold norm. f_equal. unfold dot, earth_fixed. cbn [v_x v_y v_z].
  transitivity ((v_x p * v_x p + v_y p * v_y p) * (sin th * sin th + cos th * cos th) + v_z p * v_z p); [ring|rewrite sc2; ring].
Qed.
Lemma turn_minus th p q : minus (earth_fixed th p) (earth_fixed th q) = earth_fixed th (minus p q).
Proof. unfold minus, plus, scale, earth_fixed. cbn [v_x v_y v_z]. f_equal; ring. Qed.
Lemma turn_angle a b p : norm (minus (earth_fixed a p) (earth_fixed b p)) <= Rabs (a - b) * norm p.
Proof.
  pose proof (chord a b) as C. set (c := cos a - cos b) in *. set (s := sin a - sin b) in *.
  replace (minus (earth_fixed a p) (earth_fixed b p)) with (MkVec3 (v_x p * c + v_y p * s) (- v_x p * s + v_y p * c) 0)
    by (unfold minus, plus, scale, earth_fixed, c, s; cbn [v_x v_y v_z]; f_equal; ring).
  apply norm_le3; [apply Rmult_le_pos; [apply Rabs_pos|apply norm_nonneg]|].
  replace (Rabs (a - b) * norm p * (Rabs (a - b) * norm p)) with (Rabs (a - b) * Rabs (a - b) * (norm p * norm p)) by ring.
  rewrite norm_sqr. assert (AA : Rabs (a - b) * Rabs (a - b) = (a - b) * (a - b)) by (rewrite <- Rabs_mult; apply Rabs_pos_eq; nra). rewrite AA.
  unfold dot. pose proof (Rle_0_sqr (v_x p)). pose proof (Rle_0_sqr (v_y p)). pose proof (Rle_0_sqr (v_z p)). unfold Rsqr in *.
  replace ((v_x p * c + v_y p * s) * (v_x p * c + v_y p * s) + (- v_x p * s + v_y p * c) * (- v_x p * s + v_y p * c) + 0 * 0) with ((v_x p * v_x p + v_y p * v_y p) * (c * c + s * s)) by ring.
  assert (0 <= c * c + s * s) by nra. nra.
Qed.

(** What a bearing says about the vector [D] (km) from a site at latitude [lat] and longitude [lon] to a
    satellite at least [r0] away whose position is known within [e]: its length within [e] + 1 cm; and, unless it
    is within about a thousandth of the vertical, the sine of the elevation within (2 e + 4 cm) / length, and the
    direction of its horizontal part [d] (cosine and sine of the azimuth, from north over east) within
    (2 e + 4 cm) / d.  For [e] = 0.51 m these are 0.52 m and 1.06 m. *)
Definition bearing_of (e r0 : R) (b : Bearing b64) (lat lon : R) (D : Vec3 R) : Prop :=
  let U := up lat lon in let E := east lon in let N := scale (-1) (south lat lon) in
  let r := norm D in let d := sqrt (dot N D * dot N D + dot E D * dot E D) in
  r0 <= r ->
  is_finite (be_range b) = true /\ Rabs (B2R (be_range b) - r) <= e + 1 / 100000 /\
  (r / 900 <= d ->
   is_finite (be_elevation b) = true /\ Rabs (B2R (be_elevation b)) <= 1571 / 1000 /\
   Rabs (sin (B2R (be_elevation b)) - dot U D / r) <= (2 * e + 4 / 100000) / r /\
   is_finite (be_azimuth b) = true /\
   Rabs (cos (B2R (be_azimuth b)) - dot N D / d) <= (2 * e + 4 / 100000) / d /\
   Rabs (sin (B2R (be_azimuth b)) - dot E D / d) <= (2 * e + 4 / 100000) / d).
Lemma unit_norm a : dot a a = 1 -> norm a = 1.
Proof. intros H. unfold norm. rewrite H. apply sqrt_1. Qed.
(** quotients of nearby numbers by nearby lengths *)
Lemma ratio_close x n x' n' e : 0 < n -> 0 < n' -> Rabs (x' - x) <= e -> Rabs (n' - n) <= e -> Rabs x' <= n' -> Rabs (x' / n' - x / n) <= 2 * e / n.
Proof.
  intros Hn Hn' H1 H2 H3. replace (x' / n' - x / n) with (((x' - x) - x' / n' * (n' - n)) * / n) by (field; lra).
  rewrite Rabs_mult, (Rabs_pos_eq (/ n)) by (left; now apply Rinv_0_lt_compat). unfold Rdiv at 2. apply Rmult_le_compat_r; [left; now apply Rinv_0_lt_compat|].
  assert (Q : Rabs (x' / n') <= 1). { unfold Rdiv. rewrite Rabs_mult, (Rabs_pos_eq (/ n')) by (left; now apply Rinv_0_lt_compat). apply (Rmult_le_reg_r n'); [exact Hn'|]. rewrite Rmult_assoc, Rinv_l by lra. lra. }
  assert (T : Rabs (x' / n' * (n' - n)) <= e). { rewrite Rabs_mult. pose proof (Rabs_pos (n' - n)). pose proof (Rabs_pos (x' / n')). nra. }
  apply Rabs_le_inv in H1, T. apply Rabs_le. lra.
Qed.

(** ** One step: a binary64 state and a binary64 sidereal angle, looked at from a binary64 site *)
Section Look.
Context (lm : libm) (ACC : accurate lm).
Notation B := (B64Ops lm).
Context (g : Geodedic b64) (HG : ok_geo g) (v : Vec3 b64) (P : Vec3 R) (c X : R) (HC : 0 <= c) (HX : 0 <= X <= 90000)
  (e r0 : R) (HB : 7 / 4 * c + 4 / 10 ^ 9 * X + 1 / 1000000 <= e) (HE : e <= 1 / 100) (HV : NearAccuracy.close c v P) (HP : norm P <= X)
  (gm : b64) (th : R) (HT : is_finite gm = true /\ turns_close (B2R gm) th (4 / 10 ^ 9)).
Context (HR0 : 10 <= r0) (HE0 : 19600 * e <= r0).
Let p := @eci_to_ecf _ B v gm.
Lemma coord_le q : Rabs (v_x q) <= norm q /\ Rabs (v_y q) <= norm q /\ Rabs (v_z q) <= norm q.
Proof.
  pose proof (norm_nonneg q) as N. pose proof (norm_sqr q) as S. unfold dot in S.
  pose proof (Rle_0_sqr (v_x q)). pose proof (Rle_0_sqr (v_y q)). pose proof (Rle_0_sqr (v_z q)). unfold Rsqr in *.
  assert (K : forall x, x * x <= norm q * norm q -> Rabs x <= norm q) by (intros x Hx; apply Rsqr_le_abs_0 in Hx; now rewrite (Rabs_pos_eq (norm q)) in Hx).
  repeat split; apply K; lra.
Qed.
Lemma vec_bound : within 90001 (v_x v) /\ within 90001 (v_y v) /\ within 90001 (v_z v).
Proof.
  destruct (coord_le P) as (A1 & A2 & A3). destruct HV as ((F1 & E1) & (F2 & E2) & (F3 & E3)).
  assert (K : forall x q, Rabs (x - q) <= c -> Rabs q <= norm P -> Rabs x <= 90001).
  { intros x q H1 H2. apply Rabs_le_inv in H1, H2. apply Rabs_le. lra. }
  repeat split; try assumption; eapply K; eassumption.
Qed.
Lemma turned_err : norm (minus (exact_vec p) (earth_fixed th P)) <= 7 / 4 * c + 4 / 10 ^ 9 * X + 2 / 10 ^ 9.
Proof.
  destruct vec_bound as ((F1 & B1) & (F2 & B2) & (F3 & _)). destruct HT as (Fg & k & HK).
  destruct (C56_rotation lm v gm ACC Fg ltac:(split; [exact F1|lra]) ltac:(split; [exact F2|lra]) F3) as (((_ & R1) & (_ & R2) & R3) & _). cbv zeta in R1, R2, R3. fold p in R1, R2, R3.
  set (q := exact_vec v). set (G := B2R gm) in *.
  assert (N1 : norm (minus (exact_vec p) (earth_fixed G q)) <= 2 / 10 ^ 9).
  { unfold minus, plus, scale, earth_fixed, exact_vec, q. cbn [v_x v_y v_z exact_vec]. rewrite R3. apply Rabs_le_inv in R1, R2. cbn [v_x v_y v_z] in *.
    apply norm_le3; [lra|]. set (a := B2R (v_x p)) in *. set (b := B2R (v_y p)) in *. set (a' := B2R (v_x v) * cos G + _) in *. set (b' := - B2R (v_x v) * sin G + _) in *. clearbody a b a' b'. nra. }
  assert (N2 : norm (minus (earth_fixed G q) (earth_fixed G P)) <= 7 / 4 * c).
  { rewrite turn_minus, turn_norm. destruct HV as ((_ & E1) & (_ & E2) & (_ & E3)). apply Rabs_le_inv in E1, E2, E3.
    unfold minus, plus, scale, q, exact_vec. cbn [v_x v_y v_z]. apply norm_le3; [lra|]. set (a := B2R (v_x v)) in *. set (b := B2R (v_y v)) in *. set (z := B2R (v_z v)) in *. clearbody a b z.
    assert (SQ : forall d, - c <= d <= c -> d * d <= c * c) by (intros; nra). pose proof (SQ _ E1). pose proof (SQ _ E2). pose proof (SQ _ E3). nra. }
  assert (N3 : norm (minus (earth_fixed G P) (earth_fixed th P)) <= 4 / 10 ^ 9 * X).
  { replace (earth_fixed th P) with (earth_fixed (th + 2 * PI * IZR k) P).
    2:{ unfold earth_fixed. rewrite CalcFun.cos_turn, CalcFun.sin_turn. reflexivity. }
    eapply Rle_trans; [apply turn_angle|]. apply Rmult_le_compat; [apply Rabs_pos|apply norm_nonneg|exact HK|exact HP]. }
  replace (minus (exact_vec p) (earth_fixed th P)) with (plus (minus (exact_vec p) (earth_fixed G q)) (plus (minus (earth_fixed G q) (earth_fixed G P)) (minus (earth_fixed G P) (earth_fixed th P))))
    by (unfold minus, plus, scale; cbn [v_x v_y v_z]; f_equal; ring).
  eapply Rle_trans; [apply triangle|]. eapply Rle_trans; [apply Rplus_le_compat_l, triangle|]. lra.
Qed.
Lemma fixed_err : norm (minus (exact_vec p) (earth_fixed th P)) <= e.
Proof. eapply Rle_trans; [exact turned_err|lra]. Qed.

Let lat := B2R (gd_latitude g). Let lon := B2R (gd_longitude g).
Let site := @geodedic_to_ecf _ ROps (exact_geo g).
Let D := minus (earth_fixed th P) site.
Let D' := minus (exact_vec p) site.
Lemma D_err : norm (minus D' D) <= e.
Proof.
  replace (minus D' D) with (minus (exact_vec p) (earth_fixed th P)); [exact fixed_err|]. unfold D', D, minus, plus, scale. cbn [v_x v_y v_z]. f_equal; ring.
Qed.
Lemma dot_err a : dot a a = 1 -> Rabs (dot a D' - dot a D) <= e.
Proof.
  intros H. replace (dot a D' - dot a D) with (dot a (minus D' D)) by (unfold dot, minus, plus, scale; cbn [v_x v_y v_z]; ring).
  eapply Rle_trans; [apply dot_le|]. rewrite (unit_norm a H), Rmult_1_l. exact D_err.
Qed.
Lemma p_bound : within 100000 (v_x p) /\ within 100000 (v_y p) /\ within 100000 (v_z p).
Proof.
  destruct vec_bound as ((F1 & B1) & (F2 & B2) & (F3 & B3)). destruct HT as (Fg & _).
  destruct (C56_rotation lm v gm ACC Fg ltac:(split; [exact F1|lra]) ltac:(split; [exact F2|lra]) F3) as (((G1 & _) & (G2 & _) & G3) & _). fold p in G1, G2, G3.
  assert (NB : norm (exact_vec p) <= 90001).
  { replace (exact_vec p) with (plus (minus (exact_vec p) (earth_fixed th P)) (earth_fixed th P)) by (apply vec_eq; unfold minus, plus, scale; cbn [v_x v_y v_z]; ring).
    eapply Rle_trans; [apply triangle|]. rewrite turn_norm. pose proof fixed_err. lra. }
  destruct (coord_le (exact_vec p)) as (A1 & A2 & A3). cbn [exact_vec v_x v_y v_z] in A1, A2, A3.
  split; [|split]; (split; [assumption || (rewrite G3; exact F3)|lra]).
Qed.
Lemma look_ok : bearing_of e r0 (@ecf_to_look_angles _ B g p) lat lon D.
Proof.
  unfold bearing_of. set (U := up lat lon). set (E := east lon). set (S := south lat lon). set (N := scale (-1) S). intros HR.
  destruct p_bound as (B1 & B2 & B3). destruct (C56_look_angles lm g p ACC HG B1 B2 B3) as (_ & L2 & L3). cbv zeta in L2, L3.
  destruct (C43_coordinates (exact_geo g) (exact_vec p)) as (T1 & T2 & T3 & _). cbv zeta in T1, T2, T3.
  change (south (gd_latitude (exact_geo g)) (gd_longitude (exact_geo g))) with S in T1. change (east (gd_longitude (exact_geo g))) with E in T2.
  change (up (gd_latitude (exact_geo g)) (gd_longitude (exact_geo g))) with U in T3. fold site in T1, T2, T3. fold D' in T1, T2, T3.
  set (te := @topocentric _ ROps (exact_geo g) (exact_vec p)) in *.
  destruct (C43_basis lat lon) as (SS & EE & UU & SE & _). cbv zeta in SS, EE, UU, SE. fold S in SS, SE. fold E in EE, SE. fold U in UU.
  assert (ND : Rabs (norm D' - norm D) <= e) by (eapply Rle_trans; [apply norm_diff|exact D_err]).
  assert (NE : exact_vec p <> geodedic_to_ecf (exact_geo g)).
  { intros XE. assert (Z : norm D' = 0) by (apply norm_zero; unfold D', site; rewrite XE; unfold minus, plus, scale; cbn [v_x v_y v_z]; f_equal; ring). apply Rabs_le_inv in ND. lra. }
  destruct (C44_look_angles (exact_geo g) (exact_vec p) NE) as (K1 & K2 & K3 & K4 & K5 & K6 & K7). cbv zeta in K1, K2, K3, K4, K5, K6, K7.
  change (south (gd_latitude (exact_geo g)) (gd_longitude (exact_geo g))) with S in K5. change (east (gd_longitude (exact_geo g))) with E in K6.
  change (up (gd_latitude (exact_geo g)) (gd_longitude (exact_geo g))) with U in K7. fold site in K1, K5, K6, K7. fold D' in K5, K6, K7. fold N in K5.
  set (be := @ecf_to_look_angles _ ROps (exact_geo g) (exact_vec p)) in *. set (b := @ecf_to_look_angles _ B g p) in *.
  assert (RD : be_range be = norm D').
  { rewrite K1, vrange_norm, <- norm_opp. f_equal. unfold D', minus, plus, scale. cbn [v_x v_y v_z]. f_equal; ring. }
  rewrite RD in K2, K5, K6, K7, L2, L3. clearbody te be. clear K1.
  assert (NN : dot N N = 1) by (unfold N; rewrite dot_scale_l, dot_scale_r, SS; ring).
  assert (NEa : dot N E = 0) by (unfold N; rewrite dot_scale_l, SE; ring).
  pose proof (dot_err N NN) as EN. pose proof (dot_err E EE) as EEr. pose proof (dot_err U UU) as EU.
  assert (DS : tc_top_s te * tc_top_s te + tc_top_e te * tc_top_e te = dot N D' * dot N D' + dot E D' * dot E D') by (rewrite T1, T2; unfold N; rewrite dot_scale_l; ring).
  rewrite DS in L3. clear DS T1 T2 T3.
  set (d := sqrt (dot N D * dot N D + dot E D * dot E D)). set (d' := sqrt (dot N D' * dot N D' + dot E D' * dot E D')) in *.
  assert (HD : Rabs (d' - d) <= e).
  { pose proof (norm_close (dot N D) (dot E D) 0 (dot N D') (dot E D') 0 e ltac:(lra)) as NC. rewrite !Rmult_0_l, !Rplus_0_r in NC. apply NC.
    rewrite Rminus_0_r, Rmult_0_l, Rplus_0_r. assert (EW : forall a, dot a D' - dot a D = dot a (minus D' D)) by (intros a; unfold dot, minus, plus, scale; cbn [v_x v_y v_z]; ring).
    rewrite !EW. eapply Rle_trans; [exact (bessel N E _ NN EE NEa)|]. rewrite <- norm_sqr. pose proof D_err as DE. pose proof (norm_nonneg (minus D' D)). nra. }
  pose proof ND as ND'. pose proof HD as HD'. apply Rabs_le_inv in ND', HD'.
  set (n := norm D) in *. set (n' := norm D') in *.
  specialize (L2 ltac:(lra)). destruct L2 as (G1 & G2). split; [exact G1|]. split; [apply Rabs_le_inv in G2; apply Rabs_le; lra|]. intros HH.
  destruct (L3 ltac:(lra) ltac:(lra)) as ((G3 & G4) & G5 & k & G6). clear L3.
  assert (DP : 1 / 100 <= d') by lra. assert (DQ : 1 / 100 <= d) by lra.
  assert (DC : n' * cos (be_elevation be) = d').
  { unfold d'. rewrite <- K5, <- K6. set (cc := n' * cos (be_elevation be)). assert (0 <= cc) by (apply Rmult_le_pos; [lra|apply cos_ge_0; apply K3]).
    replace (cc * cos (be_azimuth be) * (cc * cos (be_azimuth be)) + cc * sin (be_azimuth be) * (cc * sin (be_azimuth be))) with (cc * cc * (sin (be_azimuth be) * sin (be_azimuth be) + cos (be_azimuth be) * cos (be_azimuth be))) by ring.
    rewrite sc2, Rmult_1_r. symmetry. now apply sqrt_square. }
  rewrite DC in K5, K6. clear DC.
  assert (I1 : 25 / 10 ^ 9 / d' <= 3 / 1000000 / n * 10).
  { unfold Rdiv at 1 3. apply (Rmult_le_reg_r d'); [lra|]. rewrite Rmult_assoc, Rinv_l, Rmult_1_r by lra.
    apply (Rmult_le_reg_r n); [lra|]. replace (3 / 1000000 * / n * 10 * d' * n) with (3 / 100000 * d') by (field; lra). lra. }
  assert (I2 : 1 / 10 ^ 8 / d' <= 1 / 1000000 / d).
  { apply (Rmult_le_reg_r (d' * d)); [nra|]. replace (1 / 10 ^ 8 / d' * (d' * d)) with (1 / 10 ^ 8 * d) by (field; lra). replace (1 / 1000000 / d * (d' * d)) with (1 / 1000000 * d') by (field; lra). lra. }
  split; [exact G3|]. split.
  { apply Rabs_le_inv in G4. assert (I3 : 25 / 10 ^ 9 / d' <= 25 / 10 ^ 7). { apply (Rmult_le_reg_r d'); [lra|]. unfold Rdiv at 1. rewrite Rmult_assoc, Rinv_l by lra. lra. }
    pose proof CalcFun.pi_num. apply Rabs_le. lra. }
  split.
  { pose proof (ratio_close (dot U D) n (dot U D') n' e ltac:(lra) ltac:(lra) EU ND) as RC.
    assert (UB : Rabs (dot U D') <= n') by (pose proof (dot_le U D') as XL; rewrite (unit_norm U UU), Rmult_1_l in XL; exact XL). specialize (RC UB).
    rewrite <- K7 in RC. replace (n' * sin (be_elevation be) / n') with (sin (be_elevation be)) in RC by (field; lra).
    pose proof (GeodeticError.sin_lip (B2R (be_elevation b)) (be_elevation be)) as SL.
    assert (TT : 25 / 10 ^ 9 / d' + 2 * e / n <= (2 * e + 4 / 100000) / n).
    { eapply Rle_trans; [apply Rplus_le_compat_r, I1|]. replace (3 / 1000000 / n * 10 + 2 * e / n) with ((2 * e + 3 / 100000) / n) by (field; lra). unfold Rdiv at 1 3. apply Rmult_le_compat_r; [left; apply Rinv_0_lt_compat; lra|lra]. }
    apply Rabs_le_inv in RC. assert (SL' : Rabs (sin (B2R (be_elevation b)) - sin (be_elevation be)) <= 25 / 10 ^ 9 / d') by lra. apply Rabs_le_inv in SL'. apply Rabs_le. lra. }
  split; [exact G5|].
  assert (AB : forall x, Rabs x <= sqrt (x * x + 0) ) by (intros x; rewrite Rplus_0_r; fold (Rsqr x); rewrite sqrt_Rsqr_abs; lra).
  assert (NB : Rabs (dot N D') <= d') by (eapply Rle_trans; [apply AB|]; unfold d'; apply sqrt_le_1_alt; nra).
  assert (EB : Rabs (dot E D') <= d') by (eapply Rle_trans; [apply AB|]; unfold d'; apply sqrt_le_1_alt; nra).
  pose proof (ratio_close (dot N D) d (dot N D') d' e ltac:(lra) ltac:(lra) EN HD NB) as RN. pose proof (ratio_close (dot E D) d (dot E D') d' e ltac:(lra) ltac:(lra) EEr HD EB) as RE.
  rewrite <- K5 in RN. rewrite <- K6 in RE. replace (d' * cos (be_azimuth be) / d') with (cos (be_azimuth be)) in RN by (field; lra). replace (d' * sin (be_azimuth be) / d') with (sin (be_azimuth be)) in RE by (field; lra).
  assert (TT : 1 / 1000000 / d + 2 * e / d <= (2 * e + 4 / 100000) / d).
  { replace (1 / 1000000 / d + 2 * e / d) with ((2 * e + 1 / 1000000) / d) by (field; lra). unfold Rdiv at 1 3. apply Rmult_le_compat_r; [left; apply Rinv_0_lt_compat; lra|lra]. }
  set (a := B2R (be_azimuth b)) in *. assert (AZ : Rabs (a - (be_azimuth be + 2 * PI * IZR k)) <= 1 / 1000000 / d) by (replace (a - (be_azimuth be + 2 * PI * IZR k)) with (a - be_azimuth be - 2 * PI * IZR k) by ring; lra).
  pose proof (GeodeticError.sin_lip a (be_azimuth be + 2 * PI * IZR k)) as SL. pose proof (chord_cos a (be_azimuth be + 2 * PI * IZR k)) as CL. rewrite CalcFun.sin_turn in SL. rewrite CalcFun.cos_turn in CL.
  apply Rabs_le_inv in RN, RE. assert (SL' : Rabs (sin a - sin (be_azimuth be)) <= 1 / 1000000 / d) by lra. assert (CL' : Rabs (cos a - cos (be_azimuth be)) <= 1 / 1000000 / d) by lra. apply Rabs_le_inv in SL', CL'.
  split; apply Rabs_le; lra.
Qed.
End Look.

(** A binary64 position within [c] of [P] in every coordinate, [P] at most [X] from the Earth's centre, and a
    binary64 sidereal angle within 4e-9 of [th] (up to whole turns), turned into the Earth-fixed frame and looked
    at from a site.  The condition on [c] and [X] holds with [e] = 0.51 m for 12 cm and 19500 km, and for 14 cm and
    64100 km. *)
Theorem C61_bearing :
  forall (lm : libm), accurate lm ->
  forall (g : Geodedic b64) (v : Vec3 b64) (P : Vec3 R) (c X e r0 : R) (gm : b64) (th : R),
    ok_geo g -> NearAccuracy.close c v P -> norm P <= X ->
    0 <= c -> 0 <= X <= 90000 -> 7 / 4 * c + 4 / 10 ^ 9 * X + 1 / 1000000 <= e -> e <= 1 / 100 -> 10 <= r0 -> 19600 * e <= r0 ->
    is_finite gm = true -> turns_close (B2R gm) th (4 / 10 ^ 9) ->
    bearing_of e r0 (ecf_to_look_angles (FO := B64Ops lm) g (eci_to_ecf (FO := B64Ops lm) v gm))
      (B2R (gd_latitude g)) (B2R (gd_longitude g))
      (minus (earth_fixed th P) (geodedic_to_ecf (FO := ROps) (exact_geo g))).
Proof. intros lm ACC g v P c X e r0 gm th HG HV HP HC HX HB HE HR HE0 F HT. exact (look_ok lm ACC g HG v P c X HC HX e r0 HB HE HV HP gm th (conj F HT) HR HE0). Qed.
Print Assumptions C61_bearing.

(** Decode a well-written set, propagate it to a date, compute the sidereal time of that date, and look at
    the satellite from a site, all in binary64 with any accurate library: range and direction are those of
    the published theory's position, carried by the Earth's rotation (IAU-82 sidereal time), seen from the
    site on the WGS-84 ellipsoid. *)
Theorem C61_text_to_bearing :
  forall (lm : libm), accurate lm ->
  forall (full : bool) (fuel fuel' : nat) (l1 l2 : str) (t : tle) (s : Satrec b64),
    well_written l1 l2 t -> usual t -> perigee_class full (tle_elements t) ->
    twoline2satrec (FO := B64Ops lm) fuel l1 l2 = Done (Ok s) ->
    let el := tle_elements t in
      forall (d : DateTime) (m : R) (n : Z), civil d -> in_span d -> minutes_since_epoch t d m -> Rabs m <= span (tle_elements t) - 1 ->
        days_from (Date 2000 1 1) (dt_date d) n ->
        let jd := 2451544.5 + IZR n + IZR (tod d) / 86400 in
        exists tm, Rabs (tm - m) <= 4 / 1000000 /\
          let i := Str3.i0 el in
          (- (1 / 1000) + 1 / 1000000000 <= Str3.e_unclamped el full tm 0 -> exists E u,
             kepler_angle (Str3.axN el full tm 0) (Str3.ayN el full tm 0 i) (Str3.U el full tm 0 i) E /\
             sin u = Str3.sin_u el full tm 0 i E /\ cos u = Str3.cos_u el full tm 0 i E /\
             (1 + 1 / 100000000 <= Str3.rk el full tm 0 i E u ->
              exists v, propogate_datetime (FO := B64Ops lm) fuel' s d = Done (Ok v) /\
                forall g : Geodedic b64, ok_geo g ->
                  let gm := gstime_datetime (FO := B64Ops lm) d in
                  bearing_of (51 / 100000) 10 (ecf_to_look_angles (FO := B64Ops lm) g (eci_to_ecf (FO := B64Ops lm) (g4_position v) gm))
                    (B2R (gd_latitude g)) (B2R (gd_longitude g))
                    (minus (earth_fixed (gmst_angle jd) (Str3.position el full tm 0 i E u)) (geodedic_to_ecf (FO := ROps) (exact_geo g))))).
Proof.
  intros lm ACC full fuel fuel' l1 l2 t s W U P T.
  destruct (C58_text_to_binary64_state lm ACC full fuel fuel' l1 l2 t W U P) as (r0 & _ & TE & TO). intros el. fold el in TE, TO.
  destruct r0 as [v0|e]; [|rewrite (TE e eq_refl) in T; discriminate]. destruct (TO v0 eq_refl) as (s2 & T2 & K). rewrite T in T2. injection T2 as <-. clear TE TO T.
  intros d m n Cd Sd Md Hm HN jd. destruct (K d m Cd Sd Md Hm) as (tm & res & E1 & PR & O). exists tm. split; [exact E1|]. cbv zeta. intros HE.
  destruct O as (_ & O). destruct (O HE) as (E & u & O1 & O2 & O3 & RB & _ & O4). clear O. exists E, u. split; [exact O1|]. split; [exact O2|]. split; [exact O3|].
  intros HR. destruct (O4 HR) as (v & -> & PV & _). exists v. split; [exact PR|]. intros g HG.
  destruct Cd as (V & Hh & Hmi & Hs). destruct Sd as (B1 & B2).
  destruct (C55_gstime_datetime lm d n V B1 B2 Hh Hmi ltac:(lia) HN) as (F & TC). cbv zeta in F, TC.
  replace (2451544.5 + IZR n + (IZR (dt_hour d) + IZR (dt_minute d) / 60 + IZR (dt_second d) / 3600) / 24) with jd in TC by (unfold jd, tod; rewrite !plus_IZR, !mult_IZR; field).
  apply (C61_bearing lm ACC g (g4_position v) _ (12 / 100000) 19500 (51 / 100000) 10 _ _ HG PV); [|lra..|exact F|exact TC].
  rewrite C60.norm_position, Rabs_pos_eq by lra. unfold Str3.aE. lra.
Qed.
Print Assumptions C61_text_to_bearing.

(** Non-vacuity: the ISS set of C28 looked at on the day of its epoch (C58_example) from a site on the
    equator; and the hypotheses of C61_bearing with a satellite 622 km up and 1000 km east of that site. *)
Definition origin : Geodedic b64 := MkGeodedic (b64_lit 0 0) (b64_lit 0 0) (b64_lit 0 0).
Example C61_example :
  accurate LibmExists.exact_lm /\ well_written C25.iss1 C25.iss2 C28.iss /\ usual C28.iss /\ perigee_class true (tle_elements C28.iss) /\
  civil noon /\ in_span noon /\ days_from (Date 2000 1 1) (dt_date noon) 6744 /\ (exists m, minutes_since_epoch C28.iss noon m /\ 207 <= m <= 208) /\ ok_geo origin /\
  let v := MkVec3 (b64_lit 7000 0) (b64_lit 1000 0) (b64_lit 0 0) in
  let P := exact_vec v in
  let D := minus (earth_fixed 0 P) (geodedic_to_ecf (FO := ROps) (exact_geo origin)) in
  NearAccuracy.close (12 / 100000) v P /\ norm P <= 19500 /\ 10 <= norm D /\
  norm D / 900 <= sqrt (dot (scale (-1) (south 0 0)) D * dot (scale (-1) (south 0 0)) D + dot (east 0) D * dot (east 0) D).
Proof.
  destruct C58_example as (X1 & XB & X5 & X6 & X7 & _). destruct (XB true) as (X2 & X3 & X4). repeat (split; [assumption|]).
  split; [apply CalendarFacts.days_from_iff; [unfold valid; cbn; lia|unfold valid; cbn; lia|reflexivity]|]. split; [exact X7|].
  assert (L : forall n : Z, (0 <= n <= 7000)%Z -> B2R (b64_lit n 0) = IZR n /\ is_finite (b64_lit n 0) = true).
  { intros n Hn. exact (B64Facts.lit_int_fin LibmExists.exact_lm n ltac:(lia)). }
  destruct (L 0%Z ltac:(lia)) as [Z1 Z2]. destruct (L 7000%Z ltac:(lia)) as [A1 A2]. destruct (L 1000%Z ltac:(lia)) as [B1 B2].
  split. { unfold ok_geo, origin, within. cbn [gd_longitude gd_latitude gd_height]. rewrite Z1, Rabs_R0. repeat split; try assumption; lra. }
  cbv zeta. unfold exact_vec, exact_geo, origin. cbn [v_x v_y v_z gd_longitude gd_latitude gd_height]. rewrite Z1, A1, B1.
  split. { unfold NearAccuracy.close. cbn [v_x v_y v_z]. rewrite Z1, A1, B1, !Rminus_diag_eq, Rabs_R0 by reflexivity. repeat split; try assumption; lra. }
  split. { apply norm_le3; lra. }
  assert (D0 : minus (earth_fixed 0 (MkVec3 7000 1000 0)) (geodedic_to_ecf (MkGeodedic 0 0 0)) = MkVec3 (7000 - WA) 1000 0).
  { rewrite to_ecf_R. cbn [gd_longitude gd_latitude gd_height]. unfold prime_vertical, w_of, earth_fixed, minus, plus, scale. cbn [v_x v_y v_z]. rewrite sin_0, cos_0, !Rmult_0_r, Rminus_0_r, sqrt_1. f_equal; field. }
  rewrite D0. unfold WA.
  split. { unfold norm, dot. cbn [v_x v_y v_z]. apply Rle_trans with (sqrt (10 * 10)); [rewrite sqrt_square; lra|]. apply sqrt_le_1_alt. lra. }
  unfold south, east, scale, dot. cbn [v_x v_y v_z]. rewrite sin_0, cos_0.
  apply Rle_trans with 10.
  - assert (norm (MkVec3 (7000 - 6378.137) 1000 0) <= 9000) by (apply norm_le3; lra). lra.
  - apply Rle_trans with (sqrt (10 * 10)); [rewrite sqrt_square; lra|]. apply sqrt_le_1_alt. lra.
Qed.
