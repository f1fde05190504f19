(** * The state vector as the SGP4 theory writes it (any arithmetic)

    Osculating elements (radius, argument of latitude, node, inclination, radial and transverse
    speed) with their short-period corrections, from the mean quantities of Spec/Sgp4Spec.v, and the
    position and velocity those elements describe.  Written from Hoots & Roehrich 1980, section
    "update for short-period periodics". *)
From Coq Require Import ZArith List Bool.
From Verif.Model Require Import Float Satrec Constants Vec3 Sgp4.
From Verif.Spec Require Import Sgp4Spec.
Local Open Scope f_scope.

Section Spec.
Context {F : Type} {FO : FloatOps F}.
Implicit Types s : Satrec F.
Implicit Types t : F.

Definition x7thm1_at s t : F :=
  if deep s then let c := fcos (incl_at s t) in (L 7 0) * (c * c) - (L 1 0) else sr_x7thm1 s.

(** e cos E, e sin E, uncorrected radius, sqrt(1 - e^2) *)
Definition ecosE s t : F := axn s t * ko_coseo1 (kepler s t) + ayn s t * ko_sineo1 (kepler s t).
Definition esinE s t : F := axn s t * ko_sineo1 (kepler s t) - ayn s t * ko_coseo1 (kepler s t).
Definition radius0 s t : F := a_at s t * ((L 1 0) - ecosE s t).
Definition beta s t : F := fsqrt ((L 1 0) - (axn s t * axn s t + ayn s t * ayn s t)).

(** sine and cosine of the uncorrected argument of latitude, and of its double *)
Definition sin_u s t : F :=
  a_at s t / radius0 s t * (ko_sineo1 (kepler s t) - ayn s t - axn s t * (esinE s t / ((L 1 0) + beta s t))).
Definition cos_u s t : F :=
  a_at s t / radius0 s t * (ko_coseo1 (kepler s t) - axn s t + ayn s t * (esinE s t / ((L 1 0) + beta s t))).
Definition sin_2u s t : F := (cos_u s t + cos_u s t) * sin_u s t.
Definition cos_2u s t : F := (L 1 0) - (L 2 0) * sin_u s t * sin_u s t.

(** J2/(2p) and J2/(2p^2) *)
Definition j2p s t : F := (L 5 1) * kJ2 * ((L 1 0) / semi_latus s t).
Definition j2pp s t : F := j2p s t * ((L 1 0) / semi_latus s t).

(** the osculating elements *)
Definition osc_radius s t : F :=
  radius0 s t * ((L 1 0) - (L 15 1) * j2pp s t * beta s t * con41_at s t)
  + (L 5 1) * j2p s t * x1mth2_at s t * cos_2u s t.
Definition osc_arglat s t : F :=
  fatan2 (sin_u s t) (cos_u s t) - (L 25 2) * j2pp s t * x7thm1_at s t * sin_2u s t.
Definition osc_node s t : F :=
  node_red s t + (L 15 1) * j2pp s t * fcos (incl_at s t) * sin_2u s t.
Definition osc_incl s t : F :=
  incl_at s t + (L 15 1) * j2pp s t * fcos (incl_at s t) * fsin (incl_at s t) * cos_2u s t.
Definition osc_rdot s t : F :=
  fsqrt (a_at s t) * esinE s t / radius0 s t
  - n_at s t * j2p s t * x1mth2_at s t * sin_2u s t / kXKE.
Definition osc_rfdot s t : F :=
  fsqrt (semi_latus s t) / radius0 s t
  + n_at s t * j2p s t * (x1mth2_at s t * cos_2u s t + (L 15 1) * con41_at s t) / kXKE.

(** direction at argument of latitude [w] in the orbital plane of node [om], inclination [i], and the
    direction 90 degrees ahead of it *)
Definition radial (w om i : F) : Vec3 F :=
  MkVec3 ((- fsin om) * fcos i * fsin w + fcos om * fcos w)
         (fcos om * fcos i * fsin w + fsin om * fcos w)
         (fsin i * fsin w).
Definition transverse (w om i : F) : Vec3 F :=
  MkVec3 ((- fsin om) * fcos i * fcos w - fcos om * fsin w)
         (fcos om * fcos i * fcos w - fsin om * fsin w)
         (fsin i * fcos w).

(** position (km) and velocity (km/s) of given osculating elements *)
Definition position_of (r w om i : F) : Vec3 F :=
  let d := radial w om i in
  MkVec3 (r * v_x d * kEARTH_RADIUS) (r * v_y d * kEARTH_RADIUS) (r * v_z d * kEARTH_RADIUS).
Definition velocity_of (rdot rfdot w om i : F) : Vec3 F :=
  let d := radial w om i in let e := transverse w om i in
  let k := kEARTH_RADIUS * kXKE / (L 60 0) in
  MkVec3 ((rdot * v_x d + rfdot * v_x e) * k)
         ((rdot * v_y d + rfdot * v_y e) * k)
         ((rdot * v_z d + rfdot * v_z e) * k).

Definition position_at s t : Vec3 F :=
  position_of (osc_radius s t) (osc_arglat s t) (osc_node s t) (osc_incl s t).
Definition velocity_at s t : Vec3 F :=
  velocity_of (osc_rdot s t) (osc_rfdot s t) (osc_arglat s t) (osc_node s t) (osc_incl s t).
End Spec.
