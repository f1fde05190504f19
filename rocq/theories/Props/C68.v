(** * C68: from the text of a highly eccentric element set to range, direction, geodetic coordinates and Doppler factor *)
From Coq Require Import ZArith List Bool Reals Qreals Lra Lia Psatz.
From Flocq Require Import Core.Raux IEEE754.BinarySingleNaN.
From Verif.Model Require Import Float Str Satrec Constants Vec3 Ext Gstime Transforms Doppler Io Propagate Sgp4 Sgp4init.
From Verif.Inst Require Import RInst RTac B64.
From Verif.Proofs Require Import TransformFacts FrameR.
From Verif.Spec Require Import LibmAccuracy Vectors3 Calendar Str3Api NearAccuracy DeepAccuracy PeriodicSpec TleSpec.
From Verif.Spec Require Str3.
From Verif.Props Require Import C08 C15 C22 C40 C54 C55 C56 C58 C59 C61 C63 C65 C66 C67.
From Verif.Props Require C25 C28 C60.
From Verif.Proofs Require LibmExists CalendarFacts CalcFun.
Local Open Scope R_scope.

(** Decode a well-written set of a highly eccentric orbit, propagate it to a date within a month of its epoch and
    compute the sidereal time of that date, all in binary64 with any accurate library.  Where the theory's radius
    [rk] is above 1 (by 2e-8 at least) the call returns a state, and
    - range and direction from a site at least 100 km away are those of the theory's position, carried by the
      Earth's rotation (IAU-82 sidereal time), seen from the site on the WGS-84 ellipsoid, for an error of 4.9 m in
      that position;
    - the Doppler factor is that of the theory's state, for errors of 4.9 m and 5.7 mm/s;
    - from 1.3 km above the equatorial radius and off the polar caps, the geodetic coordinates are those of a point
      within 4.9 m of the theory's position, up to the errors of the transform's own formulas. *)
Theorem C68_text_to_observation :
  forall (lm : libm), accurate lm ->
  forall (fuel fuel' fuel2 : nat) (l1 l2 : str) (t : tle) (x : R) (s : Satrec b64),
    well_written l1 l2 t -> eccentric_usual t -> epoch_days t x -> (60 <= fuel')%nat -> (2 <= fuel2)%nat ->
    twoline2satrec (FO := B64Ops lm) fuel l1 l2 = Done (Ok s) ->
    let el := tle_elements t in
    forall fuelR s0R (sR : Satrec R) rR, sgp4init (FO := ROps) fuelR s0R (text_options t x) = Done (sR, rR) ->
      forall (d : DateTime) (m : R) (n : Z), civil d -> in_span d -> minutes_since_epoch t d m -> -43199 <= m <= 43199 ->
        days_from (Date 2000 1 1) (dt_date d) n ->
        let jd := 2451544.5 + IZR n + IZR (tod d) / 86400 in
        let gm := gstime_datetime (FO := B64Ops lm) d in
        exists tm, Rabs (tm - m) <= 4 / 1000000 /\
          let de := sr_dedt sR * tm in
          let i := Rabs (Str3.i0 el + d_incl sR tm) in
          exists E u,
            kepler_angle (Str3.axN el false tm de) (Str3.ayN el false tm de i) (Str3.U el false tm de i) E /\
            sin u = Str3.sin_u el false tm de i E /\ cos u = Str3.cos_u el false tm de i E /\
            let P := earth_fixed (gmst_angle jd) (Str3.position el false tm de i E u) in
            let V := earth_fixed (gmst_angle jd) (Str3.velocity el false tm de i E u) in
            (1 + 1 / 50000000 <= Str3.rk el false tm de i E u ->
             exists v, propogate_datetime (FO := B64Ops lm) fuel' s d = Done (Ok v) /\
               let p := eci_to_ecf (FO := B64Ops lm) (g4_position v) gm in
               let w := eci_to_ecf (FO := B64Ops lm) (g4_velocity v) gm in
               (forall g : Geodedic b64, ok_geo g ->
                  let site := geodedic_to_ecf (FO := ROps) (exact_geo g) in
                  bearing_of (49 / 10000) 100 (ecf_to_look_angles (FO := B64Ops lm) g p) (B2R (gd_latitude g)) (B2R (gd_longitude g)) (minus P site) /\
                  factor_of (49 / 10000) (57 / 10 ^ 7) (doppler_factor (FO := B64Ops lm) (geodedic_to_ecf (FO := B64Ops lm) g) p w) site P V) /\
               (10002 / 10000 <= Str3.rk el false tm de i E u -> off_axis (Str3.position el false tm de i E u) ->
                exists g, eci_to_geodedic (FO := B64Ops lm) fuel2 (g4_position v) gm = Done g /\ subpoint_of (49 / 10000) g P)).
Proof.
  intros lm ACC fuel fuel' fuel2 l1 l2 t x s W U HX HF F2 T el fuelR s0R sR rR HR.
  destruct (C67_text_to_state lm ACC fuel fuel' l1 l2 t x W U HX HF) as (r0 & _ & TR). destruct (TR _ _ _ _ HR) as (_ & TE & TO). clear TR. fold el in TO.
  destruct r0 as [v0|e]; [|rewrite (TE e eq_refl) in T; discriminate]. destruct (TO v0 eq_refl) as (s2 & T2 & K). rewrite T in T2. injection T2 as <-. clear TE TO T.
  intros d m n Cd Sd Md Hm HN jd gm. destruct (K d m Cd Sd Md Hm) as (tm & res & E1 & PR & O). exists tm. split; [exact E1|]. intros de i.
  destruct O as (E & u & K1 & K2 & K3 & _ & O). exists E, u. split; [exact K1|]. split; [exact K2|]. split; [exact K3|].
  destruct (sidereal lm d n Cd Sd HN) as (G1 & TC). fold jd in TC. fold gm in G1, TC. destruct G1 as (F & G1).
  unfold eccentric_outcome64 in O. fold de in O. fold i in O. clearbody de i gm. intros P V HRK. destruct (O HRK) as (v & -> & RB & PV & VV & SV). clear O. exists v. split; [exact PR|]. intros p w.
  assert (RU : norm (Str3.position el false tm de i E u) <= 81003) by (rewrite C60.norm_position, Rabs_pos_eq by lra; unfold Str3.aE; lra).
  split.
  - intros g HG site. split.
    + apply (C61_bearing lm ACC g (g4_position v) _ (26 / 10000) 81003 (49 / 10000) 100 _ _ HG PV RU); [lra..|exact F|exact TC].
    + apply (C66_observed lm ACC g (g4_position v) (g4_velocity v) _ _ (26 / 10000) (32 / 10000000) 81003 (49 / 10000) (57 / 10 ^ 7) _ _ HG PV RU VV); [lra..|exact F|exact TC].
  - intros RL OA.
    assert (RN : 6379 <= norm (Str3.position el false tm de i E u) <= 81003) by (split; [rewrite C60.norm_position, Rabs_pos_eq by lra; unfold Str3.aE; lra|exact RU]).
    exact (C65_subpoint lm ACC (g4_position v) _ (26 / 10000) 81003 (49 / 10000) gm _ fuel2 PV RN OA ltac:(lra) ltac:(lra) ltac:(lra) ltac:(lra) (conj F G1) TC F2).
Qed.
Print Assumptions C68_text_to_observation.

(** Non-vacuity: the Molniya set and date of C67_text_example, from a site on the equator; its drag-free sibling
    (no drag term in the text) stays above 1.05 Earth radii (C67_example), so the premises on the radius hold. *)
Example C68_example :
  accurate LibmExists.exact_lm /\ well_written C25.iss1 mol2 mol /\ eccentric_usual mol /\ (exists x, epoch_days mol x /\ 25007 <= x <= 25008) /\
  civil july /\ in_span july /\ days_from (Date 2000 1 1) (dt_date july) 6765 /\ (exists m, minutes_since_epoch mol july m /\ 30447 <= m <= 30448) /\
  ok_geo C61.origin.
Proof.
  destruct C67_text_example as (X1 & X2 & X3 & X4 & X5 & X6 & X7). repeat (split; [assumption|]).
  split; [apply CalendarFacts.days_from_iff; [unfold valid; cbn; lia|unfold valid; cbn; lia|reflexivity]|]. split; [exact X7|]. apply C61.C61_example.
Qed.
