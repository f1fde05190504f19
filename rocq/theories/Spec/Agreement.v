(** * Specification: when two binary64 answers agree

    Two platforms differ in their mathematical libraries, so their answers differ.  What it means that they agree,
    for the three kinds of orbits of [Props/C69.v], and when the theory itself is so close to an error that they may not. *)
From Coq Require Import Reals.
From Flocq Require Import IEEE754.BinarySingleNaN.
From Verif.Model Require Import Float Vec3 Satrec Sgp4.
From Verif.Inst Require Import RInst B64.
From Verif.Spec Require Import Str3Api PeriodicSpec.
From Verif.Spec Require Str3.
Local Open Scope R_scope.

(** finite coordinates, each within [e] of the other's *)
Definition within (e : R) (v w : Vec3 b64) : Prop :=
  (is_finite (v_x v) = true /\ is_finite (v_x w) = true /\ Rabs (B2R (v_x v) - B2R (v_x w)) <= e) /\
  (is_finite (v_y v) = true /\ is_finite (v_y w) = true /\ Rabs (B2R (v_y v) - B2R (v_y w)) <= e) /\
  (is_finite (v_z v) = true /\ is_finite (v_z w) = true /\ Rabs (B2R (v_z v) - B2R (v_z w)) <= e).

(** two answers agree: the same error, or two states that differ by at most [dr] km and [dv] km/s in every coordinate *)
Definition agree (dr dv : R) (a b : result (SGP4Result b64) SGP4Error) : Prop :=
  match a, b with
  | Ok v, Ok w => within dr (g4_position v) (g4_position w) /\ within dv (g4_velocity v) (g4_velocity w)
  | Err e, Err e' => e = e'
  | _, _ => False
  end.

(** the theory is within [m] of taking the other decision about decay *)
Definition radius_borderline (m : R) (el : Str3.Elements) (full : bool) (tm de i : R) : Prop :=
  exists E u, kepler_angle (Str3.axN el full tm de) (Str3.ayN el full tm de i) (Str3.U el full tm de i) E /\
    sin u = Str3.sin_u el full tm de i E /\ cos u = Str3.cos_u el full tm de i E /\ Rabs (Str3.rk el full tm de i E u - 1) < m.
Definition near_borderline (el : Str3.Elements) (full : bool) (tm : R) : Prop :=
  Rabs (Str3.e_unclamped el full tm 0 + 1 / 1000) < 1 / 1000000000 \/ radius_borderline (1 / 100000000) el full tm 0 (Str3.i0 el).
Definition deep_borderline (el : Str3.Elements) (s : Satrec R) (tm : R) : Prop :=
  Rabs (Str3.e_unclamped el false tm (sr_dedt s * tm) + 1 / 1000) < 1 / 1000000000 \/
  Rabs (Str3.e el false tm (sr_dedt s * tm) + d_ecc s tm) < 1 / 1000000000.
Definition eccentric_borderline (el : Str3.Elements) (s : Satrec R) (tm : R) : Prop :=
  radius_borderline (1 / 50000000) el false tm (sr_dedt s * tm) (Rabs (Str3.i0 el + d_incl s tm)).
