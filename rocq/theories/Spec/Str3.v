(** * The SGP4 theory as published (exact arithmetic)

    Hoots & Roehrich, Spacetrack Report No. 3 (1980), section 6, with the corrections of
    Vallado et al. 2006: a0'' comes from the recovered mean motion by the third law, D4 carries a0''
    squared (the factor is missing in the print), the perigee-dependent terms are dropped for
    e0 <= 1e-4, and the denominator 1 + theta is kept away from zero.  Notation of the report:
    units are earth radii and minutes, theta = cos i.  Nothing here mentions the program's record. *)
From Coq Require Import Reals.
From Verif.Model Require Import Vec3.
From Verif.Spec Require Import Vectors3.
Local Open Scope R_scope.

(** ** Constants *)
Definition ke : R := 7436685316871385 / 100000000000000000.
Definition aE : R := 6378137 / 1000.
Definition J2 : R := 108262998905 / 100000000000000.
Definition J3 : R := - (253215306 / 100000000000000).
Definition J4 : R := - (161098761 / 100000000000000).
Definition k2 : R := J2 / 2.
Definition k4 : R := - (3 / 8) * J4.
Definition A30 : R := - J3.

(** Mean elements of a two-line element set: Kozai mean motion (rad/min), eccentricity, inclination,
    mean anomaly, argument of perigee, node (rad), drag term B* (1/earth radii). *)
Record Elements := MkElements {
  n0 : R; e0 : R; i0 : R; M0 : R; w0 : R; node0 : R; Bstar : R }.

(** the power x^(2/3) *)
Definition two_thirds (x : R) : R := Rpower x (2 / 3).

Section Theory.
Variable el : Elements.
Notation e0 := (e0 el). Notation B := (Bstar el). Notation w0 := (w0 el). Notation M0 := (M0 el).

(** ** Recovery of the mean motion and semi-major axis *)
Definition theta : R := cos (i0 el).
Definition beta0 : R := sqrt (1 - e0 ^ 2).
Definition kozai (a : R) : R := 3 / 2 * k2 / a ^ 2 * (3 * theta ^ 2 - 1) / beta0 ^ 3.
Definition a1 : R := two_thirds (ke / n0 el).
Definition d1 : R := kozai a1.
Definition a0 : R := a1 * (1 - d1 / 3 - d1 ^ 2 - 134 / 81 * d1 ^ 3).
Definition d0 : R := kozai a0.
(** n0'' and a0'' *)
Definition n : R := n0 el / (1 + d0).
Definition a : R := two_thirds (ke / n).

(** ** Atmosphere: height of perigee (km), s and (q0 - s)^4 *)
Definition perigee_height : R := (a * (1 - e0) - 1) * aE.
Definition s : R :=
  if Rlt_dec perigee_height 98 then 20 / aE + 1
  else if Rlt_dec perigee_height 156 then a * (1 - e0) - (78 / aE + 1) + 1
  else 78 / aE + 1.
Definition q0 : R := 120 / aE + 1.
(** the full drag model applies from 220 km perigee height on *)
Definition high_perigee : Prop := 220 <= perigee_height.
(** the terms that divide by the eccentricity are used only above 1e-4 *)
Definition eccentric {A} (x y : A) : A := if Rlt_dec (1 / 10000) e0 then x else y.

(** ** Drag coefficients *)
Definition xi : R := / (a - s).
Definition eta : R := a * e0 * xi.
(** |1 - eta^2| and its power 7/2 *)
Definition psi2 : R := Rabs (1 - eta ^ 2).
Definition psi7 : R := sqrt psi2 ^ 7.
Definition Q : R := (q0 - s) ^ 4 * xi ^ 4.
Definition C2 : R := Q * n / psi7 *
  (a * (1 + 3 / 2 * eta ^ 2 + 4 * e0 * eta + e0 * eta ^ 3)
   + 3 / 2 * k2 * xi / psi2 * (- (1 / 2) + 3 / 2 * theta ^ 2) * (8 + 24 * eta ^ 2 + 3 * eta ^ 4)).
Definition C1 : R := B * C2.
Definition C3 : R := eccentric ((q0 - s) ^ 4 * xi ^ 5 * A30 * n * sin (i0 el) / (k2 * e0)) 0.
Definition C4 : R := 2 * n * Q / psi7 * a * beta0 ^ 2 *
  ((2 * eta * (1 + e0 * eta) + 1 / 2 * e0 + 1 / 2 * eta ^ 3)
   - 2 * k2 * xi / (a * psi2) *
     (3 * (1 - 3 * theta ^ 2) * (1 + 3 / 2 * eta ^ 2 - 2 * e0 * eta - 1 / 2 * e0 * eta ^ 3)
      + 3 / 4 * (1 - theta ^ 2) * (2 * eta ^ 2 - e0 * eta - e0 * eta ^ 3) * cos (2 * w0))).
Definition C5 : R := 2 * Q / psi7 * a * beta0 ^ 2 * (1 + 11 / 4 * eta * (eta + e0) + e0 * eta ^ 3).
Definition D2 : R := 4 * a * xi * C1 ^ 2.
Definition D3 : R := 4 / 3 * a * xi ^ 2 * (17 * a + s) * C1 ^ 3.
Definition D4 : R := 2 / 3 * a ^ 2 * xi ^ 3 * (221 * a + 31 * s) * C1 ^ 4.

(** ** Secular rates of gravity *)
Definition Mdot : R :=
  (1 + 3 * k2 * (- 1 + 3 * theta ^ 2) / (2 * a ^ 2 * beta0 ^ 3)
   + 3 * k2 ^ 2 * (13 - 78 * theta ^ 2 + 137 * theta ^ 4) / (16 * a ^ 4 * beta0 ^ 7)) * n.
Definition wdot : R :=
  (- 3 * k2 * (1 - 5 * theta ^ 2) / (2 * a ^ 2 * beta0 ^ 4)
   + 3 * k2 ^ 2 * (7 - 114 * theta ^ 2 + 395 * theta ^ 4) / (16 * a ^ 4 * beta0 ^ 8)
   + 5 * k4 * (3 - 36 * theta ^ 2 + 49 * theta ^ 4) / (4 * a ^ 4 * beta0 ^ 8)) * n.
Definition nodedot : R :=
  (- 3 * k2 * theta / (a ^ 2 * beta0 ^ 4)
   + 3 * k2 ^ 2 * (4 * theta - 19 * theta ^ 3) / (2 * a ^ 4 * beta0 ^ 8)
   + 5 * k4 * theta * (3 - 7 * theta ^ 2) / (2 * a ^ 4 * beta0 ^ 8)) * n.

(** ** Mean elements at [t] minutes from epoch.  [full] selects the full drag model, [de] is the change of
    eccentricity by other causes (0 near the Earth), [i] the inclination at [t] (i0 near the Earth). *)
Section At.
Variable full : bool.
Variables t de i : R.
Definition if_full (x y : R) : R := if full then x else y.
Definition M_DF : R := M0 + Mdot * t.
Definition w_DF : R := w0 + wdot * t.
Definition node_DF : R := node0 el + nodedot * t.
Definition delta_w : R := B * C3 * cos w0 * t.
Definition delta_M : R :=
  eccentric (- (2 / 3) * Q * B / (e0 * eta) * ((1 + eta * cos M_DF) ^ 3 - (1 + eta * cos M0) ^ 3)) 0.
Definition Mp : R := if_full (M_DF + delta_w + delta_M) M_DF.
Definition w : R := if_full (w_DF - delta_w - delta_M) w_DF.
Definition node : R := node_DF - 21 / 2 * (n * k2 * theta / (a ^ 2 * beta0 ^ 2)) * C1 * t ^ 2.
Definition e_unclamped : R := e0 + de - B * C4 * t - if_full (B * C5 * (sin Mp - sin M0)) 0.
(** never below 1e-6 *)
Definition e : R := Rmax e_unclamped (1 / 1000000).
Definition at_ : R := a * (1 - C1 * t - if_full (D2 * t ^ 2 + D3 * t ^ 3 + D4 * t ^ 4) 0) ^ 2.
Definition Lt : R := Mp + w + node + n *
  (3 / 2 * C1 * t ^ 2
   + if_full ((D2 + 2 * C1 ^ 2) * t ^ 3 + 1 / 4 * (3 * D3 + 12 * C1 * D2 + 10 * C1 ^ 3) * t ^ 4
     + 1 / 5 * (3 * D4 + 12 * C1 * D3 + 6 * D2 ^ 2 + 30 * C1 ^ 2 * D2 + 15 * C1 ^ 4) * t ^ 5) 0).
Definition nt : R := ke / sqrt at_ ^ 3.

(** ** Long-period periodics *)
Definition one_plus_theta : R :=
  if Rlt_dec (15 / 10000000000000) (Rabs (1 + cos i)) then 1 + cos i else 15 / 10000000000000.
Definition axN : R := e * cos w.
Definition L_L : R := A30 * sin i / (8 * k2 * at_ * (1 - e ^ 2)) * (e * cos w) * ((3 + 5 * cos i) / one_plus_theta).
Definition ayN : R := e * sin w + A30 * sin i / (4 * k2 * at_ * (1 - e ^ 2)).
(** argument of Kepler's equation U = E - axN sin E + ayN cos E *)
Definition U : R := Lt + L_L - node.

(** ** Short-period periodics, from the eccentric longitude [E] and argument of latitude [u] *)
Variables E u : R.
Definition eL2 : R := axN ^ 2 + ayN ^ 2.
Definition pL : R := at_ * (1 - eL2).
Definition e_cosE : R := axN * cos E + ayN * sin E.
Definition e_sinE : R := axN * sin E - ayN * cos E.
Definition r : R := at_ * (1 - e_cosE).
Definition rdot : R := ke * sqrt at_ / r * e_sinE.
Definition rfdot : R := ke * sqrt pL / r.
(** sine and cosine of the argument of latitude *)
Definition sin_u : R := at_ / r * (sin E - ayN - axN * e_sinE / (1 + sqrt (1 - eL2))).
Definition cos_u : R := at_ / r * (cos E - axN + ayN * e_sinE / (1 + sqrt (1 - eL2))).
Definition rk : R :=
  r * (1 - 3 / 2 * k2 * sqrt (1 - eL2) / pL ^ 2 * (3 * cos i ^ 2 - 1)) + k2 / (2 * pL) * (1 - cos i ^ 2) * cos (2 * u).
Definition uk : R := u - k2 / (4 * pL ^ 2) * (7 * cos i ^ 2 - 1) * sin (2 * u).
Definition nodek : R := node + 3 * k2 * cos i / (2 * pL ^ 2) * sin (2 * u).
Definition ik : R := i + 3 * k2 * cos i / (2 * pL ^ 2) * sin i * cos (2 * u).
Definition rdotk : R := rdot - k2 * nt / pL * (1 - cos i ^ 2) * sin (2 * u).
Definition rfdotk : R :=
  rfdot + k2 * nt / pL * ((1 - cos i ^ 2) * cos (2 * u) - 3 / 2 * (1 - 3 * cos i ^ 2)).

(** ** Position (km) and velocity (km/s) *)
Definition Mvec : Vec3 R := MkVec3 (- sin nodek * cos ik) (cos nodek * cos ik) (sin ik).
Definition Nvec : Vec3 R := MkVec3 (cos nodek) (sin nodek) 0.
Definition Uvec : Vec3 R := plus (scale (sin uk) Mvec) (scale (cos uk) Nvec).
Definition Vvec : Vec3 R := plus (scale (cos uk) Mvec) (scale (- sin uk) Nvec).
Definition position : Vec3 R := scale (aE * rk) Uvec.
Definition velocity : Vec3 R := plus (scale (aE / 60 * rdotk) Uvec) (scale (aE / 60 * rfdotk) Vvec).
End At.
End Theory.
