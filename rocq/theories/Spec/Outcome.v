(** * What a propagation returns, in terms of the published theory (specification) *)
From Coq Require Import ZArith Reals.
From Verif.Model Require Import Float Satrec Vec3 Sgp4 Sgp4init.
From Verif.Inst Require Import RInst.
From Verif.Spec Require Import Str3Api.
From Verif.Spec Require Str3.
Local Open Scope R_scope.

(** [res] is what the theory says for the elements [el] at [t] minutes from epoch, with the full drag model or
    not, [de] the change of eccentricity by other bodies and [i] the inclination at [t]; [ep_ok] says that the
    periodically perturbed eccentricity is acceptable.  An eccentricity outside [-0.001, 1), a perturbed one that
    is not acceptable, a negative semi-latus rectum and a radius below 1 are errors, in this order. *)
Definition outcome_of (el : Str3.Elements) full t de i (ep_ok : Prop) (res : result (SGP4Result R) SGP4Error) : Prop :=
  (~ ecc_ok (Str3.e_unclamped el full t de) -> res = Err Eccentricty) /\
  (ecc_ok (Str3.e_unclamped el full t de) -> ~ ep_ok -> res = Err Ep) /\
  (ecc_ok (Str3.e_unclamped el full t de) -> ep_ok -> Str3.pL el full t de i < 0 -> res = Err Pl) /\
  (ecc_ok (Str3.e_unclamped el full t de) -> ep_ok -> 0 < Str3.pL el full t de i -> exists E u,
     kepler_angle (Str3.axN el full t de) (Str3.ayN el full t de i) (Str3.U el full t de i) E /\
     sin u = Str3.sin_u el full t de i E /\ cos u = Str3.cos_u el full t de i E /\
     (Str3.rk el full t de i E u < 1 -> res = Err DecayCondition) /\
     (1 <= Str3.rk el full t de i E u ->
        res = Ok (MkSGP4Result (Str3.position el full t de i E u) (Str3.velocity el full t de i E u)))).

(** near the Earth: full drag from 220 km perigee height on, nothing else perturbs *)
Definition near_outcome (el : Str3.Elements) (t : R) (res : result (SGP4Result R) SGP4Error) : Prop :=
  exists full : bool, (full = true <-> Str3.high_perigee el) /\ outcome_of el full t 0 (Str3.i0 el) True res.
