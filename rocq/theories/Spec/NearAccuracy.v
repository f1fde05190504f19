(** * Binary64 elements and states against exact ones

    Which element sets the accuracy theorem for near-Earth satellites is about, and what "close" means. *)
From Coq Require Import ZArith Reals.
From Flocq Require Import Core.Raux IEEE754.BinarySingleNaN.
From Verif.Model Require Import Float Vec3 Satrec Sgp4 Sgp4init.
From Verif.Inst Require Import RInst B64.
From Verif.Spec Require Import Vectors3 Str3Api.
From Verif.Spec Require Str3.
Local Open Scope R_scope.

(** the numbers in a binary64 element set, exactly *)
Definition exact (o : SGP4InitOptions b64) : SGP4InitOptions R :=
  MkSGP4InitOptions (in_opsmode o) (in_satn o) (B2R (in_epoch o)) (B2R (in_xbstar o)) (B2R (in_xecco o)) (B2R (in_xargpo o)) (B2R (in_xinclo o)) (B2R (in_xmo o)) (B2R (in_xno o)) (B2R (in_xnodeo o)).

(** finite, and between two numbers *)
Definition inside (x : b64) (l h : R) : Prop := is_finite x = true /\ l <= B2R x <= h.

(** Element sets: mean motion 0.028 to 0.073 rad/min (6.4 to 16.7 revolutions a day), inclination 0 to 3
    rad, eccentricity 0 to 0.451, a drag term of size at most 1e-3, angles of size at most 7 rad. *)
Definition ordinary (o : SGP4InitOptions b64) : Prop :=
  inside (in_xno o) (28 / 1000) (73 / 1000) /\ inside (in_xinclo o) 0 3 /\
  inside (in_xecco o) 0 (451 / 1000) /\
  inside (in_xbstar o) (- (1 / 1000)) (1 / 1000) /\ inside (in_xargpo o) (-7) 7 /\ inside (in_xmo o) (-7) 7 /\ inside (in_xnodeo o) (-7) 7.

(** The same ranges for the theory's elements, and binary64 elements that agree with them up to rounding: a
    mean motion and angles within 6e-16 of their size (a decimal number and a change of units, each
    rounded), an eccentricity and a drag term within 1.2e-16 (a decimal number, rounded). *)
Definition in_class (el : Str3.Elements) : Prop :=
  28 / 1000 <= Str3.n0 el <= 73 / 1000 /\ 0 <= Str3.i0 el <= 3 /\ 0 <= Str3.e0 el <= 451 / 1000 /\
  - (1 / 1000) <= Str3.Bstar el <= 1 / 1000 /\ -7 <= Str3.w0 el <= 7 /\ -7 <= Str3.M0 el <= 7 /\ -7 <= Str3.node0 el <= 7.
Definition agree (u tiny : R) (x : b64) (a : R) : Prop := is_finite x = true /\ Rabs (B2R x - a) <= u * Rabs a + tiny.
Definition rounded (o : SGP4InitOptions b64) (el : Str3.Elements) : Prop :=
  let tiny := / 10 ^ 60 in
  agree (6 / 10 ^ 16) 0 (in_xno o) (Str3.n0 el) /\
  agree (12 / 10 ^ 17) tiny (in_xecco o) (Str3.e0 el) /\
  agree (6 / 10 ^ 16) tiny (in_xinclo o) (Str3.i0 el) /\ agree (6 / 10 ^ 16) tiny (in_xmo o) (Str3.M0 el) /\
  agree (6 / 10 ^ 16) tiny (in_xargpo o) (Str3.w0 el) /\ agree (6 / 10 ^ 16) tiny (in_xnodeo o) (Str3.node0 el) /\
  agree (12 / 10 ^ 17) tiny (in_xbstar o) (Str3.Bstar el).

(** Perigee height (km), and with it the drag model: full from 220 km up, cut short below.  One kilometre is
    left out on either side of 220, and below 157 the theory changes its atmosphere. *)
Definition perigee_class (full : bool) (el : Str3.Elements) : Prop :=
  if full then 221 <= Str3.perigee_height el else 157 <= Str3.perigee_height el <= 219.

(** The full drag model drops two terms from eccentricity 1e-4 down: the two eccentricities have to be on the
    same side of 1e-4, and of the double nearest to it. *)
Definition same_side (full : bool) (o : SGP4InitOptions b64) (el : Str3.Elements) : Prop :=
  full = true -> (B2R (in_xecco o) <= B2R (b64_lit 1 (-4)) <-> Str3.e0 el <= 1 / 10000).

(** How far from the epoch (minutes): three weeks from a perigee of 400 km up, a day below. *)
Definition span (el : Str3.Elements) : R := if Rle_dec 400 (Str3.perigee_height el) then 30240 else 1440.

(** finite components, each within [e] of the exact one *)
Definition close (e : R) (v : Vec3 b64) (v' : Vec3 R) : Prop :=
  (is_finite (v_x v) = true /\ Rabs (B2R (v_x v) - v_x v') <= e) /\ (is_finite (v_y v) = true /\ Rabs (B2R (v_y v) - v_y v') <= e) /\
  (is_finite (v_z v) = true /\ Rabs (B2R (v_z v) - v_z v') <= e).

(** The outcome of a binary64 propagation against the theory for elements [el] at the time [tm] ([full] or
    short drag model, no lunar-solar effects): the theory's decision unless it is within 1e-9 (eccentricity)
    or 1e-8 (radius) of going the other way, and a state within 12 cm and 0.2 mm/s of the theory's; the
    theory's radius is at most 3.05 earth radii, its speed below 175 km/s. *)
Definition near_outcome64 (full : bool) (el : Str3.Elements) (tm : R) (res : result (SGP4Result b64) SGP4Error) : Prop :=
  let i := Str3.i0 el in
  let e := Str3.e_unclamped el full tm 0 in
  (e <= - (1 / 1000) - 1 / 1000000000 -> res = Err Eccentricty) /\
  (- (1 / 1000) + 1 / 1000000000 <= e -> exists E u,
     kepler_angle (Str3.axN el full tm 0) (Str3.ayN el full tm 0 i) (Str3.U el full tm 0 i) E /\
     sin u = Str3.sin_u el full tm 0 i E /\ cos u = Str3.cos_u el full tm 0 i E /\
     Str3.rk el full tm 0 i E u <= 305 / 100 /\
     (Str3.rk el full tm 0 i E u <= 1 - 1 / 100000000 -> res = Err DecayCondition) /\
     (1 + 1 / 100000000 <= Str3.rk el full tm 0 i E u -> exists v, res = Ok v /\
        close (12 / 100000) (g4_position v) (Str3.position el full tm 0 i E u) /\
        close (2 / 10000000) (g4_velocity v) (Str3.velocity el full tm 0 i E u) /\
        norm (Str3.velocity el full tm 0 i E u) <= 175)).
