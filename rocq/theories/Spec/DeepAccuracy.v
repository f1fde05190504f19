(** * Binary64 deep-space states against exact ones

    Which element sets the accuracy theorem for deep-space satellites is about, and what it says of a call. *)
From Coq Require Import ZArith Reals.
From Flocq Require Import Core.Raux IEEE754.BinarySingleNaN.
From Verif.Model Require Import Float Vec3 Satrec Sgp4 Sgp4init.
From Verif.Inst Require Import RInst B64.
From Verif.Spec Require Import Vectors3 Str3Api PeriodicSpec NearAccuracy.
From Verif.Spec Require Str3.
Local Open Scope R_scope.

(** Element sets: mean motion 0.004 to 0.0279 rad/min (0.92 to 6.39 revolutions a day, so a period of 225.2
    minutes to 26.2 hours), inclination 0 to 2.8 rad, eccentricity 0 to 0.42, a drag term of size at most 1e-3,
    angles of size at most 7 rad, an epoch within 40000 days (109 years) after 1950 January 0. *)
Definition deep_ordinary (o : SGP4InitOptions b64) : Prop :=
  inside (in_xno o) (4 / 1000) (279 / 10000) /\ inside (in_xinclo o) 0 (28 / 10) /\ inside (in_xecco o) 0 (42 / 100) /\
  inside (in_epoch o) 0 40000 /\ inside (in_xbstar o) (- (1 / 1000)) (1 / 1000) /\
  inside (in_xargpo o) (-7) 7 /\ inside (in_xmo o) (-7) 7 /\ inside (in_xnodeo o) (-7) 7.

(** The same ranges for exact elements and an exact epoch, and binary64 ones that agree with them up to rounding:
    the seven elements to a few units in the last place, the epoch to 1e-9 days. *)
Definition deep_class (oR : SGP4InitOptions R) : Prop :=
  4 / 1000 <= in_xno oR <= 279 / 10000 /\ 0 <= in_xinclo oR <= 28 / 10 /\ 0 <= in_xecco oR <= 42 / 100 /\
  0 <= in_epoch oR <= 40000 /\ - (1 / 1000) <= in_xbstar oR <= 1 / 1000 /\
  -7 <= in_xargpo oR <= 7 /\ -7 <= in_xmo oR <= 7 /\ -7 <= in_xnodeo oR <= 7.
Definition deep_rounded (o : SGP4InitOptions b64) (oR : SGP4InitOptions R) : Prop :=
  in_opsmode o = in_opsmode oR /\ rounded o (elements oR) /\
  is_finite (in_epoch o) = true /\ Rabs (B2R (in_epoch o) - in_epoch oR) <= 1 / 10 ^ 9.

(** The outcome of a binary64 propagation against the theory for elements [el] at the time [tm] (simplified
    drag; of the lunar-solar effects the secular change of eccentricity and the periodic changes of inclination
    and eccentricity, with the exact coefficients in the record [sR]): the theory's decision unless it is within
    1e-9 of going the other way, and a state within 14 cm and 0.06 mm/s of the theory's; the theory's radius is
    between 1.09 and 10.05 earth radii. *)
Definition deep_outcome64 (el : Str3.Elements) (sR : Satrec R) (tm : R) (res : result (SGP4Result b64) SGP4Error) : Prop :=
  let de := sr_dedt sR * tm in
  let i := Rabs (Str3.i0 el + d_incl sR tm) in
  let e := Str3.e_unclamped el false tm de in
  let ep := Str3.e el false tm de + d_ecc sR tm in
  (e <= - (1 / 1000) - 1 / 1000000000 -> res = Err Eccentricty) /\
  (- (1 / 1000) + 1 / 1000000000 <= e -> ep <= - (1 / 1000000000) -> res = Err Ep) /\
  (- (1 / 1000) + 1 / 1000000000 <= e -> 1 / 1000000000 <= ep -> exists v E u,
     res = Ok v /\
     kepler_angle (Str3.axN el false tm de) (Str3.ayN el false tm de i) (Str3.U el false tm de i) E /\
     sin u = Str3.sin_u el false tm de i E /\ cos u = Str3.cos_u el false tm de i E /\
     109 / 100 <= Str3.rk el false tm de i E u <= 1005 / 100 /\
     close (14 / 100000) (g4_position v) (Str3.position el false tm de i E u) /\
     close (6 / 100000000) (g4_velocity v) (Str3.velocity el false tm de i E u) /\
     norm (Str3.velocity el false tm de i E u) <= 175).

(** Highly eccentric orbits (transfer orbits, Molniya orbits): eccentricity 0.40 to 0.745 and a perigee at least
    200 km up, the other ranges as above. *)
Definition eccentric_ordinary (o : SGP4InitOptions b64) : Prop :=
  inside (in_xno o) (4 / 1000) (279 / 10000) /\ inside (in_xinclo o) 0 (28 / 10) /\ inside (in_xecco o) (40 / 100) (745 / 1000) /\
  inside (in_epoch o) 0 40000 /\ inside (in_xbstar o) (- (1 / 1000)) (1 / 1000) /\
  inside (in_xargpo o) (-7) 7 /\ inside (in_xmo o) (-7) 7 /\ inside (in_xnodeo o) (-7) 7 /\
  200 <= Str3.perigee_height (elements (exact o)).
Definition eccentric_class (oR : SGP4InitOptions R) : Prop :=
  4 / 1000 <= in_xno oR <= 279 / 10000 /\ 0 <= in_xinclo oR <= 28 / 10 /\ 40 / 100 <= in_xecco oR <= 745 / 1000 /\
  0 <= in_epoch oR <= 40000 /\ - (1 / 1000) <= in_xbstar oR <= 1 / 1000 /\
  -7 <= in_xargpo oR <= 7 /\ -7 <= in_xmo oR <= 7 /\ -7 <= in_xnodeo oR <= 7 /\
  200 <= Str3.perigee_height (elements oR).

(** What a binary64 call for such an orbit returns.  Only the radius [rk] (earth radii) the theory computes can end
    in an error: the call reports decay when it is below 1, unless that is within 2e-8 of going the other way, and
    otherwise returns a state within 2.6 m and 3.2 mm/s of the theory's, whose speed is at most 350 km/s. *)
Definition eccentric_outcome64 (el : Str3.Elements) (sR : Satrec R) (tm : R) (res : result (SGP4Result b64) SGP4Error) : Prop :=
  let de := sr_dedt sR * tm in
  let i := Rabs (Str3.i0 el + d_incl sR tm) in
  exists E u,
    kepler_angle (Str3.axN el false tm de) (Str3.ayN el false tm de i) (Str3.U el false tm de i) E /\
    sin u = Str3.sin_u el false tm de i E /\ cos u = Str3.cos_u el false tm de i E /\
    (Str3.rk el false tm de i E u <= 1 - 1 / 50000000 -> res = Err DecayCondition) /\
    (1 + 1 / 50000000 <= Str3.rk el false tm de i E u -> exists v, res = Ok v /\ Str3.rk el false tm de i E u <= 127 / 10 /\
       close (26 / 10000) (g4_position v) (Str3.position el false tm de i E u) /\
       close (32 / 10000000) (g4_velocity v) (Str3.velocity el false tm de i E u) /\
       norm (Str3.velocity el false tm de i E u) <= 350).
