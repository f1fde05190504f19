(** * Resonance of a satellite with the tesseral harmonics of the Earth's field (Kaula, Theory of Satellite Geodesy, 1966) *)
From Coq Require Import ZArith List Reals.
Import ListNotations.
Local Open Scope R_scope.

(** ** Spherical harmonics along an orbit *)

Fixpoint zfact (n : nat) : Z := match n with O => 1 | S k => Z.of_nat n * zfact k end%Z.
Fixpoint zchoose (n k : nat) : Z :=
  match k, n with O, _ => 1 | S _, O => 0 | S k', S n' => zchoose n' k' + zchoose n' k end%Z.

(** Real and imaginary part of (x + iy)^m. *)
Fixpoint cpow (x y : R) (m : nat) : R * R :=
  match m with O => (1, 0) | S k => let (a, b) := cpow x y k in (a * x - b * y, a * y + b * x) end.

(** m-th derivative of the Legendre polynomial of degree l. *)
Definition legendre_d (l m : nat) (z : R) : R :=
  sum_f_R0 (fun k => (-1) ^ k * IZR (zfact (2 * l - 2 * k))
    / (2 ^ l * IZR (zfact k * zfact (l - k) * zfact (l - m - 2 * k))) * z ^ (l - m - 2 * k)) (Nat.div2 (l - m)).

(** Solid harmonics of degree l and order m on the unit sphere: P_lm(sin latitude) times the cosine (sine) of m
    times the longitude, at the point with coordinates x, y, z. *)
Definition harmonic_cos (l m : nat) (x y z : R) : R := legendre_d l m z * fst (cpow x y m).
Definition harmonic_sin (l m : nat) (x y z : R) : R := legendre_d l m z * snd (cpow x y m).

(** Kaula's inclination function F_lmp (his equation 3.62). *)
Definition inclination_function (l m p : nat) (i : R) : R :=
  let k := Nat.div2 (l - m) in
  sum_f_R0 (fun t =>
    IZR (zfact (2 * l - 2 * t)) / (IZR (zfact t * zfact (l - t) * zfact (l - m - 2 * t)) * 2 ^ (2 * l - 2 * t))
    * sin i ^ (l - m - 2 * t)
    * sum_f_R0 (fun s =>
        IZR (zchoose m s) * cos i ^ s
        * sum_f_R0 (fun c => IZR (zchoose (l - m - 2 * t + s) c * zchoose (m - s) (p - t - c)) * (-1) ^ (c + k)) (p - t)) m)
    (Nat.min p k).

(** ** The resonant part of the potential *)

(** A harmonic of the Earth's field: degree, order, amplitude, phase (for odd l - m, where the expansion is in sines,
    the phase includes the quarter turn that makes it a cosine). *)
Record Harmonic := MkHarmonic { h_l : nat; h_m : nat; h_J : R; h_phase : R }.
Definition H22 := MkHarmonic 2 2 1.7891679e-6 5.7686396.
Definition H31 := MkHarmonic 3 1 2.1460748e-6 0.13130908.
Definition H32 := MkHarmonic 3 2 3.7393792e-7 0.95240898.
Definition H33 := MkHarmonic 3 3 2.2123015e-7 (3 * 0.37448087).
Definition H44 := MkHarmonic 4 4 7.3636953e-9 1.8014998.
Definition H52 := MkHarmonic 5 2 1.1428639e-7 1.050833.
Definition H54 := MkHarmonic 5 4 2.1765803e-9 4.4108898.

(** One term of the expansion of a harmonic in the elements: indices p and q of Kaula. *)
Record Term := MkTerm { t_h : Harmonic; t_p : nat; t_q : Z }.
(** Multiples of the mean anomaly and of the argument of perigee in the argument of the term. *)
Definition of_perigee (t : Term) : Z := (Z.of_nat (h_l (t_h t)) - 2 * Z.of_nat (t_p t))%Z.
Definition of_anomaly (t : Term) : Z := (of_perigee t + t_q t)%Z.

Definition angle (t : Term) (M w node : R) : R :=
  IZR (of_anomaly t) * M + IZR (of_perigee t) * w + INR (h_m (t_h t)) * node - h_phase (t_h t).

(** Inclination and eccentricity functions are parameters here; [node] is counted from Greenwich. *)
Definition potential_term (F : nat -> nat -> nat -> R -> R) (G : nat -> nat -> Z -> R -> R)
    (a e i M w node : R) (t : Term) : R :=
  h_J (t_h t) / a ^ h_l (t_h t) * F (h_l (t_h t)) (h_m (t_h t)) (t_p t) i * G (h_l (t_h t)) (t_p t) (t_q t) e
  * cos (angle t M w node).
Definition potential (terms : list Term) F G (a e i M w node : R) : R :=
  fold_right Rplus 0 (map (potential_term F G a e i M w node) terms).

(** One-day orbits: mean anomaly once a day, so m (M + w + node) is slow. *)
Definition one_day : list Term := [MkTerm H31 1 0; MkTerm H22 0 0; MkTerm H33 0 0].
(** Half-day orbits: M + 2 node is slow. *)
Definition half_day : list Term :=
  [MkTerm H22 0 (-1); MkTerm H22 1 1; MkTerm H32 1 0; MkTerm H32 2 2; MkTerm H44 1 0; MkTerm H44 2 2;
   MkTerm H52 2 0; MkTerm H52 3 2; MkTerm H54 2 1; MkTerm H54 3 3].

(** Eccentricity functions G_lpq: series for one-day orbits, and the polynomial fits of Spacetrack Report 3 for
    half-day orbits (which have eccentricity 0.5 or more). *)
Definition G_one_day (l p : nat) (q : Z) (e : R) : R :=
  match l, p with
  | 2%nat, 0%nat => 1 - 5 / 2 * e ^ 2 + 13 / 16 * e ^ 4
  | 3%nat, 1%nat => 1 + 2 * e ^ 2
  | 3%nat, 0%nat => 1 - 6 * e ^ 2 + 6.60937 * e ^ 4
  | _, _ => 0
  end.
Definition cubic (c0 c1 c2 c3 e : R) : R := c0 + c1 * e + c2 * e ^ 2 + c3 * e ^ 3.
Definition split (b : R) (lo hi : R -> R) (e : R) : R := if Rle_dec e b then lo e else hi e.
Definition split_lt (b : R) (lo hi : R -> R) (e : R) : R := if Rlt_dec e b then lo e else hi e.
Definition G_half_day (l p : nat) (q : Z) : R -> R :=
  match l, p, q with
  | 2%nat, 0%nat, (-1)%Z => cubic (-0.306 + 0.44 * 0.64) (-0.44) 0 0
  | 2%nat, 1%nat, 1%Z => split 0.65 (cubic 3.616 (-13.247) 16.29 0) (cubic (-72.099) 331.819 (-508.738) 266.724)
  | 3%nat, 1%nat, 0%Z => split 0.65 (cubic (-19.302) 117.39 (-228.419) 156.591) (cubic (-346.844) 1582.851 (-2415.925) 1246.113)
  | 3%nat, 2%nat, 2%Z => split 0.65 (cubic (-18.9068) 109.7927 (-214.6334) 146.5816) (cubic (-342.585) 1554.908 (-2366.899) 1215.972)
  | 4%nat, 1%nat, 0%Z => split 0.65 (cubic (-41.122) 242.694 (-471.094) 313.953) (cubic (-1052.797) 4758.686 (-7193.992) 3651.957)
  | 4%nat, 2%nat, 2%Z => split 0.65 (cubic (-146.407) 841.88 (-1629.014) 1083.435) (cubic (-3581.69) 16178.11 (-24462.77) 12422.52)
  | 5%nat, 2%nat, 0%Z => split 0.65 (cubic (-532.114) 3017.977 (-5740.032) 3708.276)
                          (split 0.715 (cubic 1464.74 (-4664.75) 3763.64 0) (cubic (-5149.66) 29936.92 (-54087.36) 31324.56))
  | 5%nat, 3%nat, 3%Z => split_lt 0.7 (cubic (-919.2277) 4988.61 (-9064.77) 5542.21) (cubic (-37995.78) 161616.52 (-229838.2) 109377.94)
  | 5%nat, 2%nat, 1%Z => split_lt 0.7 (cubic (-822.71072) 4568.6173 (-8491.4146) 5337.524) (cubic (-51752.104) 218913.95 (-309468.16) 146349.42)
  | 5%nat, 3%nat, 2%Z => split_lt 0.7 (cubic (-853.666) 4690.25 (-8624.77) 5341.4) (cubic (-40023.88) 170470.89 (-242699.48) 115605.82)
  | _, _, _ => fun _ => 0
  end.

(** Acceleration of the mean motion by one term: dn/dt = - 3 n^2 dU/dM. *)
Definition pull (F : nat -> nat -> nat -> R -> R) (G : nat -> nat -> Z -> R -> R) (n a e i : R) (t : Term) : R :=
  3 * n ^ 2 * IZR (of_anomaly t) * (h_J (t_h t) / a ^ h_l (t_h t) * F (h_l (t_h t)) (h_m (t_h t)) (t_p t) i
  * G (h_l (t_h t)) (t_p t) (t_q t) e).

(** ** Integration of lam' = n + drift, n' = f(t, lam) *)

(** Second-order step of size h from time t; [fl] is meant to be the derivative of f with respect to lam. *)
Definition taylor (f fl : R -> R -> R) (drift h t : R) (y : R * R) : R * R :=
  let (lam, n) := y in
  (lam + (n + drift) * h + f t lam * (h ^ 2 / 2), n + f t lam * h + fl t lam * (n + drift) * (h ^ 2 / 2)).
Fixpoint march (f fl : R -> R -> R) (drift h : R) (k : nat) (y0 : R * R) : R * R :=
  match k with O => y0 | S j => taylor f fl drift h (INR j * h) (march f fl drift h j y0) end.
(** Whole steps of 720 minutes towards t, then one shorter step. *)
Definition integrated (f fl : R -> R -> R) (drift t : R) (y0 y : R * R) : Prop :=
  let h := if Rlt_dec 0 t then 720 else -720 in
  exists j : nat, 720 * INR j <= Rabs t < 720 * (INR j + 1) /\
    y = taylor f fl drift (t - INR j * h) (INR j * h) (march f fl drift h j y0).
