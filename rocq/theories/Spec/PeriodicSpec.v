(** * Lunar-solar long-period periodics, stated from the theory (exact arithmetic).

    Each third body (sun, moon) moves on a Kepler orbit of mean motion n and eccentricity e; its true
    longitude is approximated by f = M + 2 e sin M.  Each element is perturbed by
    -(c2 cos 2f + c3 sin 2f)/4 + c4 sin f summed over the two bodies. *)
From Coq Require Import Reals.
From Verif.Model Require Import Satrec.
Local Open Scope R_scope.

(** mean motion (rad/min) and eccentricity of the sun and the moon *)
Definition n_sun : R := 0.0000119459.
Definition e_sun : R := 0.01675.
Definition n_moon : R := 0.00015835218.
Definition e_moon : R := 0.0549.
Definition longitude (M e : R) : R := M + 2 * e * sin M.
Definition sun_at (s : Satrec R) (t : R) : R := longitude (sr_zmos s + n_sun * t) e_sun.
Definition moon_at (s : Satrec R) (t : R) : R := longitude (sr_zmol s + n_moon * t) e_moon.
Definition wave (c2 c3 c4 f : R) : R := - (c2 * cos (2 * f) + c3 * sin (2 * f)) / 4 + c4 * sin f.

(** change of each element at time t, relative to the value subtracted at epoch *)
Definition d_ecc (s : Satrec R) (t : R) : R :=
  wave (sr_se2 s) (sr_se3 s) 0 (sun_at s t) + wave (sr_ee2 s) (sr_e3 s) 0 (moon_at s t) - sr_peo s.
Definition d_incl (s : Satrec R) (t : R) : R :=
  wave (sr_si2 s) (sr_si3 s) 0 (sun_at s t) + wave (sr_xi2 s) (sr_xi3 s) 0 (moon_at s t) - sr_pinco s.
Definition d_mean (s : Satrec R) (t : R) : R :=
  wave (sr_sl2 s) (sr_sl3 s) (sr_sl4 s) (sun_at s t) + wave (sr_xl2 s) (sr_xl3 s) (sr_xl4 s) (moon_at s t) - sr_plo s.
(** argument of perigee plus cos(i) times node *)
Definition d_gh (s : Satrec R) (t : R) : R :=
  wave (sr_sgh2 s) (sr_sgh3 s) (sr_sgh4 s) (sun_at s t) + wave (sr_xgh2 s) (sr_xgh3 s) (sr_xgh4 s) (moon_at s t) - sr_pgho s.
(** node times sin(i) *)
Definition d_h (s : Satrec R) (t : R) : R :=
  wave (sr_sh2 s) (sr_sh3 s) 0 (sun_at s t) + wave (sr_xh2 s) (sr_xh3 s) 0 (moon_at s t) - sr_pho s.
