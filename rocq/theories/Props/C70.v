(** * C70: energy and angular momentum of a propagated state *)
From Coq Require Import ZArith List Bool String Reals Lra Psatz.
From Flocq Require Import Core.Raux IEEE754.BinarySingleNaN.
From Verif.Model Require Import Float Str Satrec Constants Ext Vec3 Sgp4 Sgp4init Propagate Io.
From Verif.Inst Require Import RInst RTac B64.
From Verif.Spec Require Import Calendar TextSpec NumText TleSpec Str3Api Sgp4Spec PeriodicSpec LibmAccuracy NearAccuracy DeepAccuracy Vectors3 Energy.
From Verif.Spec Require Str3.
From Verif.Proofs Require Import VisViva FrameR TransformFacts.
From Verif.Props Require Import C08 C28 C50 C54 C56 C58 C61 C63 C67 C69.
From Verif.Golden Require Import RSat RDeep.
From Verif.Proofs Require NumFacts ParseFacts LibmExists.
From Verif.Props Require C25 C51.
Import ListNotations.
Local Open Scope R_scope.

Lemma latus_737 x : 4701 <= Re * x -> 737 / 1000 <= x.
Proof. unfold Re. intros. lra. Qed.

(** Exact arithmetic, near the Earth: whatever calls have been made, a returned state has the energy and the angular
    momentum of the ellipse of the theory's semi-major axis and semi-latus rectum at that time, within 3.01
    J2 (Re/p)^2 and 3.5 J2 (Re/p)^2. *)
Theorem C70_near_earth :
  forall (fuel : nat) (s0 s : Satrec R) (o : SGP4InitOptions R) r calls s1 fuel' (t : R) s' v,
    sgp4init fuel s0 o = Done (s, r) -> after_calls s calls = Done s1 -> sgp4 fuel' s1 t = Done (s', Ok v) ->
    let el := elements o in
    orbital el -> period el < 225 ->
    let full := Rle_bool 220 (Str3.perigee_height el) in
    let a := Re * Str3.at_ el full t in
    let p := Re * Str3.pL el full t 0 (Str3.i0 el) in
    4701 <= p -> keplerian (1 / 10 ^ 15) a p (g4_position v) (g4_velocity v).
Proof.
  intros fuel s0 s o r calls s1 fuel' t s' v H A P el HO HP full a p L. apply latus_737 in L.
  destruct (C50_near_earth_state _ _ _ _ _ _ _ _ _ _ _ H A P HO HP) as (K1 & _ & K3). fold el full in K1, K3.
  assert (EO : ecc_ok (Str3.e_unclamped el full t 0)).
  { unfold ecc_ok in *. destruct (Rle_dec (- (1 / 1000)) (Str3.e_unclamped el full t 0)); [|assert (Q : Ok v = Err Eccentricty) by (apply K1; tauto); discriminate Q].
    destruct (Rlt_dec (Str3.e_unclamped el full t 0) 1); [tauto|assert (Q : Ok v = Err Eccentricty) by (apply K1; tauto); discriminate Q]. }
  destruct (K3 EO ltac:(lra)) as (E & u & _ & _ & _ & D1 & D2).
  destruct (Rlt_le_dec (Str3.rk el full t 0 (Str3.i0 el) E u) 1) as [Q|Q]; [specialize (D1 Q); discriminate D1|]. specialize (D2 Q). injection D2 as ->. cbn [g4_position g4_velocity].
  exact (theory_vis_viva el full t 0 (Str3.i0 el) E u (exp_pos _) L).
Qed.
Print Assumptions C70_near_earth.

(** The same in deep space; [i] is the inclination with the lunar-solar periodics, [de] the secular change of the
    eccentricity. *)
Theorem C70_deep_space :
  forall (fuel : nat) (s0 s : Satrec R) (o : SGP4InitOptions R) r calls s1 fuel' (t : R) s' v,
    sgp4init fuel s0 o = Done (s, r) -> after_calls s calls = Done s1 -> sgp4 fuel' s1 t = Done (s', Ok v) ->
    let el := elements o in
    orbital el -> 225 <= period el ->
    let de := sr_dedt s * t in
    let i := Rabs (Str3.i0 el + d_incl s t) in
    let a := Re * Str3.at_ el false t in
    let p := Re * Str3.pL el false t de i in
    4701 <= p -> keplerian (1 / 10 ^ 15) a p (g4_position v) (g4_velocity v).
Proof.
  intros fuel s0 s o r calls s1 fuel' t s' v H A P el HO HP de i a p L. apply latus_737 in L.
  destruct (C50_deep_space_state _ _ _ _ _ _ _ _ _ _ _ H A P HO HP) as (K1 & K2 & _ & K3). fold el de i in K1, K2, K3.
  assert (EO : ecc_ok (Str3.e_unclamped el false t de)).
  { unfold ecc_ok in *. destruct (Rle_dec (- (1 / 1000)) (Str3.e_unclamped el false t de)); [|assert (Q : Ok v = Err Eccentricty) by (apply K1; tauto); discriminate Q].
    destruct (Rlt_dec (Str3.e_unclamped el false t de) 1); [tauto|assert (Q : Ok v = Err Eccentricty) by (apply K1; tauto); discriminate Q]. }
  assert (EP : 0 <= Str3.e el false t de + d_ecc s t <= 1).
  { destruct (Rle_dec 0 (Str3.e el false t de + d_ecc s t)); [|assert (Q : Ok v = Err Ep) by (apply K2; tauto); discriminate Q].
    destruct (Rle_dec (Str3.e el false t de + d_ecc s t) 1); [tauto|assert (Q : Ok v = Err Ep) by (apply K2; tauto); discriminate Q]. }
  destruct (K3 EO EP ltac:(lra)) as (E & u & _ & _ & _ & D1 & D2).
  destruct (Rlt_le_dec (Str3.rk el false t de i E u) 1) as [Q|Q]; [specialize (D1 Q); discriminate D1|]. specialize (D2 Q). injection D2 as ->. cbn [g4_position g4_velocity].
  exact (theory_vis_viva el false t de i E u (exp_pos _) L).
Qed.
Print Assumptions C70_deep_space.

(** What it means for the speed: it is below 11.22 km/s, and below the escape velocity unless the orbit's
    semi-major axis is more than 82 Earth radii. *)
Theorem C70_speed :
  forall (slack a p : R) (r v : Vec3 R),
    keplerian slack a p r v -> 0 <= slack <= 2 / 10 ^ 5 -> 4701 <= p -> 0 < a -> 6378 <= norm r ->
    norm v <= 1122 / 100 /\ (a <= 82 * Re -> norm v ^ 2 < 2 * mu / norm r).
Proof.
  intros slack a p r v (K & _) HS HP HA HR. unfold vis_viva in K. apply Rabs_le_inv in K.
  assert (W : 0 <= 301 / 100 * J2 * (Re / p) ^ 2 <= 600 / 100000).
  { assert (Q : 0 <= Re / p <= 13568 / 10000).
    { split; [apply Rmult_le_pos; [unfold Re; lra|left; apply Rinv_0_lt_compat; lra]|]. apply Rmult_le_reg_r with p; [lra|]. unfold Rdiv. rewrite Rmult_assoc, Rinv_l by lra. unfold Re. lra. }
    assert (J : 0 <= 301 / 100 * J2 <= 3259 / 1000000) by (unfold J2; lra). assert (Q2 : 0 <= (Re / p) ^ 2 <= 184091 / 100000) by nra. nra. }
  set (w := 301 / 100 * J2 * (Re / p) ^ 2) in *. clearbody w. set (N := norm r) in *. clearbody N.
  assert (M : 0 < mu / N <= 625 / 10). { split; [apply Rdiv_lt_0_compat; unfold mu; lra|]. apply Rmult_le_reg_r with N; [lra|]. unfold Rdiv. rewrite Rmult_assoc, Rinv_l by lra. unfold mu. lra. }
  assert (A0 : 0 < mu / (2 * a)) by (apply Rdiv_lt_0_compat; unfold mu; lra). pose proof (norm_nonneg v) as NV.
  assert (WM : (w + slack) * (mu / N) <= 602 / 100000 * (mu / N)) by (apply Rmult_le_compat_r; lra).
  split; [nra|]. intros HB. replace (2 * mu / N) with (2 * (mu / N)) by (field; lra).
  assert (B : 602 / 100000 * (mu / N) < mu / (2 * a)).
  { assert (I : / 6378 >= / N) by (apply Rle_ge, Rinv_le; lra). assert (I2 : / (2 * (82 * Re)) <= / (2 * a)) by (apply Rinv_le; lra).
    assert (mu / N <= mu / 6378) by (unfold Rdiv; apply Rmult_le_compat_l; [unfold mu|]; lra). assert (mu / (2 * (82 * Re)) <= mu / (2 * a)) by (unfold Rdiv; apply Rmult_le_compat_l; [unfold mu|]; lra).
    unfold mu, Re in *. lra. }
  lra.
Qed.
Print Assumptions C70_speed.

(** ** Binary64 *)
Lemma cross_le a b : norm (cross a b) <= norm a * norm b.
Proof.
  pose proof (norm_nonneg a) as A. pose proof (norm_nonneg b) as B. pose proof (norm_nonneg (cross a b)) as C.
  assert (L : norm (cross a b) * norm (cross a b) <= (norm a * norm b) * (norm a * norm b)).
  { replace (norm a * norm b * (norm a * norm b)) with ((norm a * norm a) * (norm b * norm b)) by ring. rewrite !norm_sqr.
    pose proof (Rle_0_sqr (dot a b)) as Q. unfold Rsqr in Q. unfold dot, cross in *. cbn [v_x v_y v_z] in *. lra. }
  apply Rsqr_incr_0_var; [exact L|nra].
Qed.
Lemma close_norm e v v' : 0 <= e -> NearAccuracy.close e v v' -> norm (minus (exact_vec v) v') <= 7 / 4 * e.
Proof.
  intros E ((_ & X) & (_ & Y) & (_ & Z)). unfold minus, exact_vec. apply norm_le3; [lra|]. unfold plus, scale. cbn [v_x v_y v_z].
  assert (S : forall x, Rabs x <= e -> x * x <= e * e) by (intros x H; apply Rabs_le_inv in H; nra). apply S in X, Y, Z. assert (0 <= e * e) by nra. nra.
Qed.

(** a state within the given errors of one of known energy and angular momentum *)
Lemma carry a p r v (r' v' : Vec3 b64) d w : keplerian (1 / 10 ^ 15) a p r v -> 4701 <= p -> 0 < a -> 6378 <= norm r <= 81003 ->
  NearAccuracy.close d r' r -> NearAccuracy.close w v' v -> 0 <= d <= 26 / 10000 -> 0 <= w <= 32 / 10000000 -> keplerian (2 / 10 ^ 5) a p (exact_vec r') (exact_vec v').
Proof.
  intros K HP HA HR CR CV HD HW. destruct (C70_speed _ _ _ _ _ K ltac:(lra) HP HA (proj1 HR)) as (SP & _). destruct K as (K1 & K2). unfold vis_viva, momentum in K1, K2.
  pose proof (close_norm _ _ _ (proj1 HD) CR) as DR. pose proof (close_norm _ _ _ (proj1 HW) CV) as DV. pose proof (norm_diff (exact_vec r') r) as NR. pose proof (norm_diff (exact_vec v') v) as NV.
  set (R' := exact_vec r') in *. set (V' := exact_vec v') in *. clearbody R' V'. clear CR CV.
  assert (NR' : Rabs (norm R' - norm r) <= 46 / 10000) by lra. assert (NV' : Rabs (norm V' - norm v) <= 56 / 10000000) by lra. 
  pose proof (norm_nonneg v) as V0. pose proof (norm_nonneg V') as V0'.
  assert (W : 0 <= J2 * (Re / p) ^ 2 <= 2 / 1000).
  { assert (Q : 0 <= Re / p <= 13568 / 10000).
    { split; [apply Rmult_le_pos; [unfold Re; lra|left; apply Rinv_0_lt_compat; lra]|]. apply Rmult_le_reg_r with p; [lra|]. unfold Rdiv. rewrite Rmult_assoc, Rinv_l by lra. unfold Re. lra. }
    assert (J : 0 <= J2 <= 10827 / 10000000) by (unfold J2; lra). assert (Q2 : 0 <= (Re / p) ^ 2 <= 184091 / 100000) by nra. nra. }
  rewrite (Rmult_assoc (301 / 100) J2) in K1. rewrite (Rmult_assoc (35 / 10) J2) in K2. split; unfold vis_viva, momentum; [rewrite (Rmult_assoc (301 / 100) J2)|rewrite (Rmult_assoc (35 / 10) J2)]; set (j := J2 * (Re / p) ^ 2) in *; clearbody j.
  - clear K2. set (x := norm r) in *. set (x' := norm R') in *. set (y := norm v) in *. set (y' := norm V') in *. clearbody x x' y y'. apply Rabs_le_inv in NR', NV'.
    assert (M0 : 0 < mu / x) by (apply Rdiv_lt_0_compat; [unfold mu|]; lra). assert (M1 : 49 / 10 <= mu / x) by (apply Rmult_le_reg_r with x; [lra|]; replace (mu / x * x) with mu by (field; lra); unfold mu; lra).
    assert (M' : mu / x' = mu / x * (x / x')) by (field; lra). 
    assert (Q : 1 - 73 / 100000000 <= x / x' <= 1 + 73 / 100000000) by (split; (apply Rmult_le_reg_r with x'; [lra|]); replace (x / x' * x') with x by (field; lra); lra).
    assert (Y : Rabs (y' ^ 2 / 2 - y ^ 2 / 2) <= 64 / 1000000).
    { replace (y' ^ 2 / 2 - y ^ 2 / 2) with ((y' - y) * ((y' + y) / 2)) by field. rewrite Rabs_mult. apply Rle_trans with (56 / 10000000 * (1123 / 100)); [|lra]. apply Rmult_le_compat; try apply Rabs_pos; apply Rabs_le; lra. }
    rewrite M'. set (m := mu / x) in *. set (q := x / x') in *. clearbody m q. apply Rabs_le_inv in K1, Y.
    assert (D : Rabs (m * q - m) <= 73 / 100000000 * m) by (apply Rabs_le; split; nra). apply Rabs_le_inv in D.
    assert (L : (301 / 100 * j + 1 / 10 ^ 15) * m <= (301 / 100 * j + 1 / 10 ^ 8) * (m * q)).
    { assert (0 <= j * m) by nra. assert (j * m * (73 / 100000000) <= 2 / 1000 * (73 / 100000000) * m) by nra. nra. }
    assert (G : 64 / 1000000 + 73 / 100000000 * m <= 15 / 1000000 * (m * q)) by nra.
    assert (E : (301 / 100 * j + 2 / 10 ^ 5) * (m * q) = (301 / 100 * j + 1 / 10 ^ 8) * (m * q) + 15 / 1000000 * (m * q) + (2 / 10 ^ 5 - 1 / 10 ^ 8 - 15 / 1000000) * (m * q)) by ring.
    assert (0 <= (2 / 10 ^ 5 - 1 / 10 ^ 8 - 15 / 1000000) * (m * q)) by (apply Rmult_le_pos; [lra|nra]).
    rewrite E. apply Rabs_le. split; lra.
  - clear K1. assert (C : Rabs (norm (cross R' V') - norm (cross r v)) <= 6 / 10).
    { eapply Rle_trans; [apply norm_diff|].
      assert (E : minus (cross R' V') (cross r v) = plus (cross (minus R' r) V') (cross r (minus V' v))) by (apply vec_eq; unfold minus, plus, scale, cross; cbn [v_x v_y v_z]; ring).
      rewrite E. eapply Rle_trans; [apply triangle|]. pose proof (cross_le (minus R' r) V') as C1. pose proof (cross_le r (minus V' v)) as C2.
      pose proof (norm_nonneg (minus R' r)) as P1. pose proof (norm_nonneg (minus V' v)) as P2. apply Rabs_le_inv in NV'.
      assert (norm (minus R' r) * norm V' <= 46 / 10000 * (1123 / 100)) by (apply Rmult_le_compat; lra). assert (norm r * norm (minus V' v) <= 81003 * (56 / 10000000)) by (apply Rmult_le_compat; lra). lra. }
    assert (S : 43000 <= sqrt (mu * p)) by (rewrite <- (sqrt_square 43000) by lra; apply sqrt_le_1_alt; unfold mu; lra).
    set (s := sqrt (mu * p)) in *. clearbody s. apply Rabs_le_inv in K2, C. apply Rabs_le.
    assert (E : (35 / 10 * j + 2 / 10 ^ 5) * s = (35 / 10 * j + 1 / 10 ^ 15) * s + (2 / 10 ^ 5 - 1 / 10 ^ 15) * s) by ring. rewrite E. lra.
Qed.

(** The theory at the time [tm]: drag model, secular change of the eccentricity, inclination, and the semi-major axis
    and the semi-latus rectum in kilometres. *)
Definition full_of (k : kind) : bool := match k with Near full => full | _ => false end.
Definition de_of (k : kind) (sR : Satrec R) (tm : R) : R := match k with Near _ => 0 | _ => sr_dedt sR * tm end.
Definition incl_of (k : kind) (t : tle) (sR : Satrec R) (tm : R) : R :=
  match k with Near _ => Str3.i0 (tle_elements t) | _ => Rabs (Str3.i0 (tle_elements t) + d_incl sR tm) end.
Definition axis (k : kind) (t : tle) (tm : R) : R := Re * Str3.at_ (tle_elements t) (full_of k) tm.
Definition latus (k : kind) (t : tle) (sR : Satrec R) (tm : R) : R :=
  Re * Str3.pL (tle_elements t) (full_of k) tm (de_of k sR tm) (incl_of k t sR tm).
(** no error condition is met or narrowly missed, and the semi-latus rectum is at least 4701 km *)
Definition sound_state (k : kind) (t : tle) (sR : Satrec R) (tm : R) : Prop :=
  let el := tle_elements t in let full := full_of k in let de := de_of k sR tm in let i := incl_of k t sR tm in
  - (1 / 1000) + 1 / 1000000000 <= Str3.e_unclamped el full tm de /\
  (k = Deep -> 1 / 1000000000 <= Str3.e el false tm de + d_ecc sR tm) /\
  4701 <= latus k t sR tm /\
  forall E u, kepler_angle (Str3.axN el full tm de) (Str3.ayN el full tm de i) (Str3.U el full tm de i) E ->
    sin u = Str3.sin_u el full tm de i E -> cos u = Str3.cos_u el full tm de i E ->
    1 + 1 / 50000000 <= Str3.rk el full tm de i E u.

Lemma answer_keplerian k t sR tm res : answer k t sR tm res -> sound_state k t sR tm ->
  exists v, res = Ok v /\ keplerian (2 / 10 ^ 5) (axis k t tm) (latus k t sR tm) (exact_vec (g4_position v)) (exact_vec (g4_velocity v)).
Proof.
  intros A (E1 & E2 & L & HR). pose proof L as L'. unfold latus in L'. apply latus_737 in L'.
  assert (AX : 0 < axis k t tm). { destruct (vv_at (tle_elements t) (full_of k) tm (de_of k sR tm) (incl_of k t sR tm) (exp_pos _) L') as (K & _). unfold axis, Re. nra. }
  assert (NP : forall E u d, 1 <= Str3.rk (tle_elements t) (full_of k) tm (de_of k sR tm) (incl_of k t sR tm) E u <= d -> d <= 127 / 10 ->
     6378 <= norm (Str3.position (tle_elements t) (full_of k) tm (de_of k sR tm) (incl_of k t sR tm) E u) <= 81003).
  { intros E u d H D. rewrite norm_position by lra. unfold Str3.aE. lra. }
  assert (TH : forall E u, keplerian (1 / 10 ^ 15) (axis k t tm) (latus k t sR tm) (Str3.position (tle_elements t) (full_of k) tm (de_of k sR tm) (incl_of k t sR tm) E u) (Str3.velocity (tle_elements t) (full_of k) tm (de_of k sR tm) (incl_of k t sR tm) E u)).
  { intros E u. exact (theory_vis_viva (tle_elements t) (full_of k) tm (de_of k sR tm) (incl_of k t sR tm) E u (exp_pos _) L'). }
  destruct k as [full| |]; cbn [answer full_of de_of incl_of] in *.
  - destruct A as (_ & A). destruct (A E1) as (E & u & KA & SU & CU & RU & _ & A2). specialize (HR E u KA SU CU). destruct (A2 ltac:(lra)) as (v & -> & CP & CV & _).
    exists v. split; [reflexivity|]. eapply carry; [apply (TH E u)|exact L|exact AX|apply (NP E u (305 / 100)); lra|exact CP|exact CV|lra|lra].
  - destruct A as (_ & _ & A). destruct (A E1 (E2 eq_refl)) as (v & E & u & -> & KA & SU & CU & RU & CP & CV & _). specialize (HR E u KA SU CU).
    exists v. split; [reflexivity|]. eapply carry; [apply (TH E u)|exact L|exact AX|apply (NP E u (1005 / 100)); lra|exact CP|exact CV|lra|lra].
  - destruct A as (E & u & KA & SU & CU & _ & A2). specialize (HR E u KA SU CU). destruct (A2 HR) as (v & -> & RU & CP & CV & _).
    exists v. split; [reflexivity|]. eapply carry; [apply (TH E u)|exact L|exact AX|apply (NP E u (127 / 10)); lra|exact CP|exact CV|lra|lra].
Qed.

(** From the text of an element set: the state for a date has energy and angular momentum of the theory's ellipse
    within the effect of the oblateness and 2e-5, unless the theory is at the edge of an error. *)
Theorem C70_text :
  forall (lm : libm), accurate lm ->
  forall (fuel fuel' : nat) (l1 l2 : str) (k : kind) (t : tle) (x : R) (sR : Satrec R),
    well_written l1 l2 t -> in_scope k t -> epoch_days t x -> exact_record t x sR -> (60 <= fuel')%nat ->
    exists r, twoline2satrec (FO := B64Ops lm) fuel l1 l2 = Done r /\
      forall s, r = Ok s -> forall (d : DateTime) (m : R), civil d -> in_span d -> minutes_since_epoch t d m -> Rabs m <= horizon k t ->
        exists tm, Rabs (tm - m) <= 4 / 1000000 /\
          (sound_state k t sR tm -> exists v, propogate_datetime (FO := B64Ops lm) fuel' s d = Done (Ok v) /\
             keplerian (2 / 10 ^ 5) (axis k t tm) (latus k t sR tm) (exact_vec (g4_position v)) (exact_vec (g4_velocity v))).
Proof.
  intros lm ACC fuel fuel' l1 l2 k t x sR W S HX HR HF. destruct (two_lines lm ACC fuel fuel' l1 l2 k t x sR W S HX HR HF) as (r & T & r0 & _ & D).
  exists r. split; [exact T|]. intros s -> d m Cd Sd M HM. destruct r0 as [v0|e]; [|discriminate D].
  destruct D as (s2 & Q & _ & A). injection Q as <-. destruct (A d m Cd Sd M HM) as (tm & res & E & P & Z). exists tm. split; [exact E|]. intros SS.
  destruct (answer_keplerian _ _ _ _ _ Z SS) as (v & -> & K). eauto.
Qed.

(** Near the Earth the hypothesis on the state holds at the epoch, and always when there is no drag. *)
Lemma near_sound full t sR tm : usual t -> perigee_class full (tle_elements t) -> dec_value (t_bstar t) = 0 \/ tm = 0 -> sound_state (Near full) t sR tm.
Proof.
  intros (_ & _ & UE & _) P B. set (el := tle_elements t) in *.
  assert (HP : 100 <= Str3.perigee_height el) by (unfold perigee_class in P; destruct full; lra).
  assert (HE : 0 <= Str3.e0 el <= 6 / 10) by (change (Str3.e0 el) with (dec_value (t_ecc t)); lra).
  change (Str3.Bstar el = 0 \/ tm = 0) in B. pose proof (undisturbed_e el full tm B) as EE.
  destruct (undisturbed el full tm (Str3.i0 el) B HE HP) as (PL & RK).
  unfold sound_state. cbv zeta. fold el. cbn [full_of de_of incl_of].
  split; [rewrite EE; lra|]. split; [discriminate|]. split; [unfold latus; cbn [full_of de_of incl_of]; fold el; unfold Re; lra|].
  intros E u _ _ _. eapply Rle_trans; [|exact (RK E u)]. lra.
Qed.

(** An element set without drag: it decodes, every date within the horizon has a state, and all these states have
    the energy of one ellipse, whose axis is that of the elements. *)
Theorem C70_drag_free_text :
  forall (lm : libm), accurate lm ->
  forall (full : bool) (fuel fuel' : nat) (l1 l2 : str) (t : tle),
    well_written l1 l2 t -> usual t -> perigee_class full (tle_elements t) -> dec_value (t_bstar t) = 0 ->
    exists s : Satrec b64, twoline2satrec (FO := B64Ops lm) fuel l1 l2 = Done (Ok s) /\
      forall (d : DateTime) (m : R), civil d -> in_span d -> minutes_since_epoch t d m -> Rabs m <= span (tle_elements t) - 1 ->
        exists (v : SGP4Result b64) (p : R), propogate_datetime (FO := B64Ops lm) fuel' s d = Done (Ok v) /\ 4701 <= p /\
          keplerian (2 / 10 ^ 5) (Re * Str3.a (tle_elements t)) p (exact_vec (g4_position v)) (exact_vec (g4_velocity v)).
Proof.
  intros lm ACC full fuel fuel' l1 l2 t W U P B. destruct (record_exists t 0) as (sR & _).
  destruct (C58_text_to_binary64_state lm ACC full fuel fuel' l1 l2 t W U P) as (r0 & A0 & _ & G2).
  destruct (answer_keplerian (Near full) t sR 0 r0 A0 (near_sound full t sR 0 U P (or_intror eq_refl))) as (v0 & -> & _).
  destruct (G2 v0 eq_refl) as (s & T & A). exists s. split; [exact T|]. intros d m Cd Sd M HM.
  destruct (A d m Cd Sd M HM) as (tm & res & _ & Q & Z). pose proof (near_sound full t sR tm U P (or_introl B)) as SS.
  destruct (answer_keplerian (Near full) t sR tm res Z SS) as (v & -> & K). exists v, (latus (Near full) t sR tm).
  split; [exact Q|]. split; [apply SS|]. unfold axis in K. cbn [full_of] in K. rewrite undisturbed_a in K by (left; exact B). exact K.
Qed.

(** Non-vacuity: the exact circular orbits of C50, near the Earth and in deep space; a text without drag; texts of
    the three kinds (those of C69), the first of them in a sound state at its epoch. *)
Definition still1 := of_string "1 25544U 98067A   18170.35562296  .00016717  00000-0  00000-0 0  9003".
Definition still : tle :=
  Tle (of_string "25544") 18 (Dec false 17035562296 (-8)) (Dec false 16717 (-8)) (Dec false 0 (-5)) (Dec false 0 (-5))
      (Dec false 516416 (-4)) (Dec false 2992512 (-4)) (Dec false 3381 (-7)) (Dec false 2695310 (-4)) (Dec false 1850126 (-4)) (Dec false 1554171530 (-8)).
Lemma still_written : well_written still1 C25.iss2 still.
Proof.
  destruct C28.C28_example as ((_ & _ & _ & _ & _ & _ & C7 & C8 & C9 & C10 & C11 & C12) & N1 & _).
  exists (of_string "00000"), (of_string "00000"). split; [|split; [exact N1|split; [exact N1|left; reflexivity]]].
  split. { eexists. split; [apply C28.columns_of; reflexivity|]. split; [exists [], []; repeat split|]. cbn. intros c H. repeat destruct H as [<-|H]; (reflexivity || contradiction). }
  split. { eexists. split; [apply C28.columns_of; reflexivity|]. apply NumFacts.parse_i64_spec. reflexivity. }
  split; [eapply C28.reads_of; reflexivity|]. split; [eapply C28.reads_of; reflexivity|].
  assert (Z : forall lo, slice still1 lo (lo + 1) = Done [32%Z] -> slice still1 (lo + 1) (lo + 6) = Done (of_string "00000") -> slice still1 (lo + 6) (lo + 8) = Done (of_string "-0") ->
    reads_power still1 lo (lo + 1) (lo + 6) (lo + 8) (of_string "00000") (Dec false 0 (-5))).
  { intros lo H1 H2 H3. exists [32%Z], false, (of_string "-0"), 0%Z. split; [now apply C28.columns_of|]. split; [now apply C28.columns_of|]. split; [now apply C28.columns_of|]. split; [constructor|]. split; [discriminate|]. split; [now apply NumFacts.all_digits_iff|].
    split; [|reflexivity]. exists [45%Z], true, [48%Z]. split; [reflexivity|]. split; [constructor|]. split; [discriminate|]. split; [now apply NumFacts.all_digits_iff|reflexivity]. }
  split; [exact (Z 44%nat eq_refl eq_refl eq_refl)|]. split; [exact (Z 53%nat eq_refl eq_refl eq_refl)|]. exact (conj C7 (conj C8 (conj C9 (conj C10 (conj C11 C12))))).
Qed.

Example C70_exact_example :
  (forall w M nd t, exists s r s' v, sgp4init 0 satrec_zero (co w M nd) = Done (s, r) /\ after_calls s [] = Done s /\ sgp4 0 s t = Done (s', Ok v) /\
     let el := elements (co w M nd) in orbital el /\ period el < 225 /\ forall full, 4701 <= Re * Str3.pL el full t 0 (Str3.i0 el)) /\
  (forall ep i w M nd t, exists s r s' v, sgp4init 0 satrec_zero (dso ep 0 i w M nd) = Done (s, r) /\ after_calls s [] = Done s /\ sgp4 0 s t = Done (s', Ok v) /\
     let el := elements (dso ep 0 i w M nd) in orbital el /\ 225 <= period el /\
     4701 <= Re * Str3.pL el false t (sr_dedt s * t) (Rabs (Str3.i0 el + d_incl s t))).
Proof.
  split.
  - intros w M nd t. destruct (C50_example w M nd t) as (s & r & H & s' & v & K). exists s, r, s', v. split; [exact H|]. split; [reflexivity|]. split; [exact K|].
    cbv zeta. destruct (co_orbital w M nd) as [HO HP]. split; [exact HO|]. split; [exact HP|]. intros full. change (Str3.i0 (elements (co w M nd))) with 0. pose proof (co_pL w M nd full t). unfold Re. lra.
  - intros ep i w M nd t. destruct (C50_deep_example ep i w M nd t) as (s & r & H & HP & s' & v & K). exists s, r, s', v. split; [exact H|]. split; [reflexivity|]. split; [exact K|].
    cbv zeta. destruct (dso_orbital ep 0 i w M nd ltac:(lra)) as [HO _]. split; [exact HO|]. split; [exact HP|].
    destruct (C51.C51_lagrange_equations _ _ _ _ _ H HO HP) as (_ & _ & _ & _ & _ & E0 & _). destruct (E0 eq_refl) as (E1 & _). rewrite E1, Rmult_0_l.
    set (el := elements (dso ep 0 i w M nd)). pose proof (dso_a ep 0 i w M nd ltac:(lra)) as A. fold el in A.
    destruct (undisturbed el false t (Rabs (Str3.i0 el + d_incl s t)) (or_introl eq_refl)) as (PL & _); [change (Str3.e0 el) with 0; lra|unfold Str3.perigee_height, Str3.aE; change (Str3.e0 el) with 0; lra|]. unfold Re. lra.
Qed.

Example C70_example :
  accurate LibmExists.exact_lm /\
  (well_written still1 C25.iss2 still /\ usual still /\ perigee_class true (tle_elements still) /\ dec_value (t_bstar still) = 0) /\
  civil noon /\ in_span noon /\ (exists m, minutes_since_epoch still noon m /\ Rabs m <= span (tle_elements still) - 1) /\
  (well_written C25.iss1 C25.iss2 iss /\ in_scope (Near true) iss /\ exists x sR, epoch_days iss x /\ exact_record iss x sR /\ sound_state (Near true) iss sR 0) /\
  (well_written C25.iss1 C54.geo2 C54.geo /\ in_scope Deep C54.geo) /\ (well_written C25.iss1 mol2 mol /\ in_scope Eccentric mol).
Proof.
  split; [exact LibmExists.exact_lm_accurate|]. destruct C58_example as (_ & XB & CN & SN & (m & MM & Bm) & SP & _). destruct (XB true) as (I1 & I2 & I3). destruct C63_example as (_ & G1 & G2 & (x & GX & _) & _). destruct C67_text_example as (_ & M1 & M2 & _).
  split. { split; [exact still_written|]. split; [|split; [exact I3|unfold still; cbn [t_bstar]; unfold dec_value; cbn; lra]].
    destruct I2 as (U1 & U2 & U3 & _ & U5). split; [exact U1|]. split; [exact U2|]. split; [exact U3|]. split; [|exact U5]. replace (dec_value (t_bstar still)) with 0 by (unfold still, dec_value; cbn; lra). rewrite Rabs_R0. lra. }
  split; [exact CN|]. split; [exact SN|]. split. { exists m. split; [exact MM|]. change (span (tle_elements still)) with (span (tle_elements iss)). rewrite SP. apply Rabs_le. lra. }
  split. { split; [exact I1|]. split; [split; [exact I2|exact I3]|]. destruct (record_exists iss x) as (sI & HI). exists x, sI. split; [exact GX|]. split; [exact HI|]. apply near_sound; [exact I2|exact I3|now right]. }
  split; split; assumption.
Qed.
