(** * Lunar-solar perturbations from first principles (exact arithmetic)

    The potential of a distant body, truncated after the quadrupole and averaged over the satellite's orbit,
    and Lagrange's planetary equations for it.  Each body moves on a circle (its eccentricity kept only in the
    direction-independent part of the potential), as in Hujsak 1979. *)
From Coq Require Import Reals.
From Verif.Model Require Import Vec3.
From Verif.Spec Require Import Vectors3 PeriodicSpec.
Local Open Scope R_scope.

(** ** The satellite's orbit: directions of the node, of the point 90 degrees further, of the orbit normal, of
    perigee, and of the point 90 degrees past perigee *)
Definition node_dir (om : R) : Vec3 R := MkVec3 (cos om) (sin om) 0.
Definition trans_dir (i om : R) : Vec3 R := MkVec3 (- sin om * cos i) (cos om * cos i) (sin i).
Definition normal_dir (i om : R) : Vec3 R := MkVec3 (sin om * sin i) (- cos om * sin i) (cos i).
Definition perigee_dir (i w om : R) : Vec3 R := plus (scale (cos w) (node_dir om)) (scale (sin w) (trans_dir i om)).
Definition ahead_dir (i w om : R) : Vec3 R := plus (scale (- sin w) (node_dir om)) (scale (cos w) (trans_dir i om)).

(** ** A third body: mean motion (rad/min), eccentricity, strength G m'/a'^3 (1/min^2), direction of its
    perigee and of the point 90 degrees further on its orbit *)
Record Body := MkBody { b_n : R; b_e : R; b_strength : R; b_p : Vec3 R; b_q : Vec3 R }.
(** direction at true anomaly f, and (a'/r')^3 to first order in the eccentricity *)
Definition direction (b : Body) (f : R) : Vec3 R := plus (scale (cos f) (b_p b)) (scale (sin f) (b_q b)).
Definition closeness (b : Body) (f : R) : R := 1 + 3 * b_e b * cos f.

(** [orbit_axes] of an orbit whose perigee, inclination and node have the given cosines and sines *)
Definition axis_p (cg sg ci si ch sh : R) : Vec3 R :=
  MkVec3 (cg * ch - sg * ci * sh) (cg * sh + sg * ci * ch) (sg * si).
Definition axis_q (cg sg ci si ch sh : R) : Vec3 R :=
  MkVec3 (- sg * ch - cg * ci * sh) (- sg * sh + cg * ci * ch) (cg * si).

(** the Sun: perigee 281.2 degrees, obliquity 23.44 degrees *)
Definition sun : Body :=
  MkBody n_sun e_sun (4 * n_sun * 0.0000029864797)
    (axis_p 0.1945905 (- 0.98088458) 0.91744867 0.39785416 1 0)
    (axis_q 0.1945905 (- 0.98088458) 0.91744867 0.39785416 1 0).

(** the Moon, [d] days after 1900 January 0.5: node on the ecliptic, inclination to and node on the equator,
    longitude of perigee and argument of perigee from the equator *)
Definition ecl_node (d : R) : R := 4.523602 - 0.00092422029 * d.
Definition cos_il (d : R) : R := 0.91375164 - 0.03568096 * cos (ecl_node d).
Definition sin_il (d : R) : R := sqrt (1 - cos_il d ^ 2).
Definition sin_hl (d : R) : R := 0.089683511 * sin (ecl_node d) / sin_il d.
Definition cos_hl (d : R) : R := sqrt (1 - sin_hl d ^ 2).
Definition perigee_long (d : R) : R := 5.8351514 + 0.0019443680 * d.

(** [g] is the argument of perigee: perigee longitude less ecliptic node plus the arc from the equator to the
    ecliptic along the orbit *)
Definition lunar_perigee (d g : R) : Prop := exists arc rho,
  0 <= rho /\ rho * sin arc = 0.39785416 * sin (ecl_node d) / sin_il d /\
  rho * cos arc = cos_hl d * cos (ecl_node d) + 0.91744867 * sin_hl d * sin (ecl_node d) /\
  cos g = cos (arc + perigee_long d - ecl_node d) /\ sin g = sin (arc + perigee_long d - ecl_node d).
Definition moon (d g : R) : Body :=
  MkBody n_moon e_moon (4 * n_moon * 0.00000047968065)
    (axis_p (cos g) (sin g) (cos_il d) (sin_il d) (cos_hl d) (sin_hl d))
    (axis_q (cos g) (sin g) (cos_il d) (sin_il d) (cos_hl d) (sin_hl d)).

(** ** The averaged potential, in units of strength times a^2: for a body in direction [d] with closeness [rho],
    <r^2 (3 (r.d)^2 - 1)/2> over the orbit, as a function of e^2 and the three angles *)
Definition potential (rho : R) (d : Vec3 R) (e2 i w om : R) : R :=
  1 / 4 * (3 * (1 + 4 * e2) * dot (perigee_dir i w om) d ^ 2 + 3 * (1 - e2) * dot (ahead_dir i w om) d ^ 2
           - rho * (2 + 3 * e2)).
(** both bodies together, divided by the satellite's mean motion *)
Definition disturbing (n : R) (bs bm : Body) (fs fm : R) (e2 i w om : R) : R :=
  b_strength bs / n * potential (closeness bs fs) (direction bs fs) e2 i w om +
  b_strength bm / n * potential (closeness bm fm) (direction bm fm) e2 i w om.

(** ** The periodic terms as rates: derivative of [wave] with respect to the body's anomaly *)
Definition wave_rate (c2 c3 c4 f : R) : R := (c2 * sin (2 * f) - c3 * cos (2 * f)) / 2 + c4 * cos f.

(** ** The orbit, for the average: position (units of a) at eccentric anomaly E, and dM/dE *)
Definition orbit_position (e i w om E : R) : Vec3 R :=
  plus (scale (cos E - e) (perigee_dir i w om)) (scale (sqrt (1 - e ^ 2) * sin E) (ahead_dir i w om)).
Definition dM_dE (e E : R) : R := 1 - e * cos E.
