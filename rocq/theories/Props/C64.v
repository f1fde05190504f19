(** * C64: from the text of a deep-space element set and an observer's coordinates to range and direction in binary64 *)
From Coq Require Import ZArith List Bool Reals Qreals Lra Lia Psatz.
From Flocq Require Import Core.Raux IEEE754.BinarySingleNaN.
From Verif.Model Require Import Float Str Satrec Constants Vec3 Ext Gstime Transforms Io Propagate Sgp4 Sgp4init.
From Verif.Inst Require Import RInst RTac B64.
From Verif.Proofs Require Import TransformFacts FrameR.
From Verif.Spec Require Import LibmAccuracy Vectors3 Calendar Str3Api NearAccuracy DeepAccuracy PeriodicSpec TleSpec.
From Verif.Spec Require Str3.
From Verif.Props Require Import C08 C15 C22 C40 C43 C44 C54 C55 C56 C58 C61 C63.
From Verif.Props Require C25 C28 C60.
From Verif.Proofs Require LibmExists CalendarFacts.
Local Open Scope R_scope.

(** Decode a well-written set of a deep-space orbit, propagate it to a date within a month of its epoch, compute
    the sidereal time of that date, and look at the satellite from a site, all in binary64 with any accurate
    library: unless the theory reports an error or is within 1e-9 of doing so, range and direction are those of
    the theory's position (lunar-solar coefficients from an exact initialisation), carried by the Earth's
    rotation (IAU-82 sidereal time), seen from the site on the WGS-84 ellipsoid. *)
Theorem C64_text_to_deep_bearing :
  forall (lm : libm), accurate lm ->
  forall (fuel fuel' : nat) (l1 l2 : str) (t : tle) (x : R) (s : Satrec b64),
    well_written l1 l2 t -> deep_usual t -> epoch_days t x -> (60 <= fuel')%nat ->
    twoline2satrec (FO := B64Ops lm) fuel l1 l2 = Done (Ok s) ->
    let el := tle_elements t in
    forall fuelR s0R (sR : Satrec R) rR, sgp4init (FO := ROps) fuelR s0R (text_options t x) = Done (sR, rR) ->
      forall (d : DateTime) (m : R) (n : Z), civil d -> in_span d -> minutes_since_epoch t d m -> -43199 <= m <= 43199 ->
        days_from (Date 2000 1 1) (dt_date d) n ->
        let jd := 2451544.5 + IZR n + IZR (tod d) / 86400 in
        exists tm, Rabs (tm - m) <= 4 / 1000000 /\
          let de := sr_dedt sR * tm in
          let i := Rabs (Str3.i0 el + d_incl sR tm) in
          (- (1 / 1000) + 1 / 1000000000 <= Str3.e_unclamped el false tm de -> 1 / 1000000000 <= Str3.e el false tm de + d_ecc sR tm ->
           exists v E u,
             propogate_datetime (FO := B64Ops lm) fuel' s d = Done (Ok v) /\
             kepler_angle (Str3.axN el false tm de) (Str3.ayN el false tm de i) (Str3.U el false tm de i) E /\
             sin u = Str3.sin_u el false tm de i E /\ cos u = Str3.cos_u el false tm de i E /\
             forall g : Geodedic b64, ok_geo g ->
               let gm := gstime_datetime (FO := B64Ops lm) d in
               bearing_of (51 / 100000) 10 (ecf_to_look_angles (FO := B64Ops lm) g (eci_to_ecf (FO := B64Ops lm) (g4_position v) gm))
                 (B2R (gd_latitude g)) (B2R (gd_longitude g))
                 (minus (earth_fixed (gmst_angle jd) (Str3.position el false tm de i E u)) (geodedic_to_ecf (FO := ROps) (exact_geo g)))).
Proof.
  intros lm ACC fuel fuel' l1 l2 t x s W U HX HF T el fuelR s0R sR rR HR.
  destruct (C63_text_to_deep_state lm ACC fuel fuel' l1 l2 t x W U HX HF) as (r0 & _ & TR). destruct (TR _ _ _ _ HR) as (_ & TE & TO). clear TR. fold el in TO.
  destruct r0 as [v0|e]; [|rewrite (TE e eq_refl) in T; discriminate]. destruct (TO v0 eq_refl) as (s2 & T2 & K). rewrite T in T2. injection T2 as <-. clear TE TO T.
  intros d m n Cd Sd Md Hm HN jd. destruct (K d m Cd Sd Md Hm) as (tm & res & E1 & PR & O). exists tm. split; [exact E1|]. intros de i HE HP.
  destruct O as (_ & _ & O1). destruct (O1 HE HP) as (v & E & u & -> & K1 & K2 & K3 & RB & PV & _). clear O1.
  exists v, E, u. split; [exact PR|]. split; [exact K1|]. split; [exact K2|]. split; [exact K3|]. intros g HG.
  destruct Cd as (V & Hh & Hmi & Hs). destruct Sd as (B1 & B2).
  destruct (C55_gstime_datetime lm d n V B1 B2 Hh Hmi ltac:(lia) HN) as (F & TC). cbv zeta in F, TC.
  replace (2451544.5 + IZR n + (IZR (dt_hour d) + IZR (dt_minute d) / 60 + IZR (dt_second d) / 3600) / 24) with jd in TC by (unfold jd, tod; rewrite !plus_IZR, !mult_IZR; field).
  apply (C61_bearing lm ACC g (g4_position v) _ (14 / 100000) 64101 (51 / 100000) 10 _ _ HG PV); [|lra..|exact F|exact TC].
  rewrite C60.norm_position, Rabs_pos_eq by lra. unfold Str3.aE. lra.
Qed.
Print Assumptions C64_text_to_deep_bearing.

(** Non-vacuity: the geostationary set of C54, three weeks after its epoch (C63_example), from a site on the
    equator. *)
Example C64_example :
  accurate LibmExists.exact_lm /\ well_written C25.iss1 C54.geo2 C54.geo /\ deep_usual C54.geo /\ (exists x, epoch_days C54.geo x /\ 25007 <= x <= 25008) /\
  civil july /\ in_span july /\ days_from (Date 2000 1 1) (dt_date july) 6765 /\ (exists m, minutes_since_epoch C54.geo july m /\ 30447 <= m <= 30448) /\
  ok_geo C61.origin.
Proof.
  destruct C63_example as (X1 & X2 & X3 & X4 & X5 & X6 & X7). repeat (split; [assumption|]).
  split; [apply CalendarFacts.days_from_iff; [unfold valid; cbn; lia|unfold valid; cbn; lia|reflexivity]|]. split; [exact X7|]. apply C61.C61_example.
Qed.
