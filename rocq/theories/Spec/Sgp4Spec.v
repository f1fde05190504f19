(** * Specification vocabulary for propagation (any arithmetic)

    Quantities of the SGP4 theory as functions of a record and a time, written from the theory's
    formulas (Hoots & Roehrich 1980; Vallado 2006) and without the model's stage functions; only the
    public function [dpper] and the Kepler solver are referred to by name. *)
From Coq Require Import ZArith List Bool.
From Verif.Model Require Import Float Str Satrec Constants Vec3 Dpper Sgp4.
Import ListNotations.
Local Open Scope f_scope.

Section Spec.
Context {F : Type} {FO : FloatOps F}.
Implicit Types s : Satrec F.
Implicit Types t : F.

(** ** Histories: propagate one record at a list of times, each call given its own fuel. *)
Fixpoint after_calls s (calls : list (nat * F)) : outcome (Satrec F) :=
  match calls with
  | [] => Done s
  | (fuel, t) :: rest => do! (s', _) <- sgp4 fuel s t; after_calls s' rest
  end.

(** The value returned by a call, forgetting the updated record. *)
Definition returned {A B} (o : outcome (A * B)) : outcome B :=
  match o with Done (_, b) => Done b | Panic => Panic | NoFuel => NoFuel end.

(** ** Elements at time [t] *)
Definition deep s : bool := method_eqb (sr_method s) MethodD.
(** full drag model in use (the record says "not simplified") *)
Definition full_drag s : bool := negb (Z.eqb (sr_isimp s) 1).

Definition M_df s t : F := sr_mo s + sr_mdot s * t.
(** drag shift of perigee and mean anomaly *)
Definition shift s t : F :=
  let d := (L 1 0) + sr_eta s * fcos (M_df s t) in
  sr_omgcof s * t + sr_xmcof s * (d * d * d - sr_delmo s).
Definition M_at s t : F := if full_drag s then M_df s t + shift s t else M_df s t.
Definition argp_at s t : F :=
  let w := sr_argpo s + sr_argpdot s * t in if full_drag s then w - shift s t else w.
Definition node_at s t : F := sr_nodeo s + sr_nodedot s * t + sr_nodecf s * (t * t).

(** eccentricity lost to drag since epoch *)
Definition drag_ecc s t : F :=
  let linear := sr_bstar s * sr_cc4 s * t in
  if full_drag s then linear + sr_bstar s * sr_cc5 s * (fsin (M_at s t) - sr_sinmao s) else linear.
(** eccentricity before the lower clamp: lunar-solar secular rate in deep space, minus drag *)
Definition ecc_at s t : F :=
  (if deep s then sr_ecco s + sr_dedt s * t else sr_ecco s) - drag_ecc s t.
(** eccentricity as used: never below 1e-6 *)
Definition ecc_used s t : F := if ecc_at s t <? (L 1 6) then (L 1 6) else ecc_at s t.

(** decay factor of the semi-major axis and drag shift of the mean longitude *)
Definition tempa_at s t : F :=
  let one := (L 1 0) - sr_cc1 s * t in
  if full_drag s then
    one - sr_d2 s * (t * t) - sr_d3 s * (t * t * t) - sr_d4 s * (t * t * t * t)
  else one.
Definition templ_at s t : F :=
  let two := sr_t2cof s * (t * t) in
  if full_drag s then
    two + sr_t3cof s * (t * t * t) + (t * t * t * t) * (sr_t4cof s + t * sr_t5cof s)
  else two.
(** semi-major axis (earth radii) and mean motion (rad/min) *)
Definition a_at s t : F := fpow (kXKE / sr_no s) kX2O3 * tempa_at s t * tempa_at s t.
Definition n_at s t : F := kXKE / fpow (a_at s t) (L 15 1).

(** angles reduced modulo 2 pi *)
Definition node_red s t : F := node_at s t %% kTWO_PI.
Definition argp_red s t : F := argp_at s t %% kTWO_PI.
Definition M_red s t : F :=
  ((M_at s t + sr_no s * templ_at s t + argp_at s t + node_at s t) %% kTWO_PI - argp_red s t - node_red s t) %% kTWO_PI.

(** Lunar-solar periodics at time [t]. *)
Definition periodics s t : DpperResult F :=
  dpper (set_t t s) (MkDpperOptions InitN (sr_operationmode s) (sr_inclo s) (ecc_used s t) (sr_inclo s)
                       (node_red s t) (argp_red s t) (M_red s t)).
(** inclination used for the position *)
Definition incl_at s t : F :=
  if deep s then (let i := pr_inclp (periodics s t) in if i <? (L 0 0) then - i else i) else sr_inclo s.

(** long-period coefficients *)
Definition aycof_at s t : F :=
  if deep s then (- (L 5 1)) * kJ3OJ2 * fsin (incl_at s t) else sr_aycof s.
Definition xlcof_at s t : F :=
  if deep s then
    let c := fcos (incl_at s t) in
    (- (L 25 2)) * kJ3OJ2 * fsin (incl_at s t) * ((L 3 0) + (L 5 0) * c) /
      (if (L 15 13) <? fabs (c + (L 1 0)) then (L 1 0) + c else (L 15 13))
  else sr_xlcof s.

(** eccentricity vector, semi-latus rectum *)
Definition pinv s t : F := (L 1 0) / (a_at s t * ((L 1 0) - ecc_used s t * ecc_used s t)).
Definition axn s t : F := ecc_used s t * fcos (argp_red s t).
Definition ayn s t : F := ecc_used s t * fsin (argp_red s t) + pinv s t * aycof_at s t.
Definition semi_latus s t : F := a_at s t * ((L 1 0) - (axn s t * axn s t + ayn s t * ayn s t)).

(** argument of Kepler's equation, and its solution *)
Definition u_at s t : F :=
  (M_red s t + argp_red s t + node_red s t + pinv s t * xlcof_at s t * axn s t - node_red s t) %% kTWO_PI.
Definition kepler s t : KeplerOut := sgp4_kepler (axn s t) (ayn s t) (u_at s t).

(** radius with short-period corrections, in earth radii *)
Definition con41_at s t : F :=
  if deep s then let c := fcos (incl_at s t) in (L 3 0) * (c * c) - (L 1 0) else sr_con41 s.
Definition x1mth2_at s t : F :=
  if deep s then let c := fcos (incl_at s t) in (L 1 0) - c * c else sr_x1mth2 s.
Definition radius s t : F :=
  let a := a_at s t in let ax := axn s t in let ay := ayn s t in
  let sE := ko_sineo1 (kepler s t) in let cE := ko_coseo1 (kepler s t) in
  let r0 := a * ((L 1 0) - (ax * cE + ay * sE)) in
  let beta := fsqrt ((L 1 0) - (ax * ax + ay * ay)) in
  let w := (ax * sE - ay * cE) / ((L 1 0) + beta) in
  let sinu := a / r0 * (sE - ay - ax * w) in
  let cos2u := (L 1 0) - (L 2 0) * sinu * sinu in
  let j := (L 5 1) * kJ2 * ((L 1 0) / semi_latus s t) in
  r0 * ((L 1 0) - (L 15 1) * (j * ((L 1 0) / semi_latus s t)) * beta * con41_at s t)
    + (L 5 1) * j * x1mth2_at s t * cos2u.

(** ** The documented error conditions *)
Definition bad_motion s : bool := sr_no s <=? (L 0 0).
Definition bad_ecc s t : bool := ((L 1 0) <=? ecc_at s t) || (ecc_at s t <? (- (L 1 3))).
Definition bad_perturbed_ecc s t : bool :=
  deep s && ((pr_ep (periodics s t) <? (L 0 0)) || ((L 1 0) <? pr_ep (periodics s t))).
Definition bad_latus s t : bool := semi_latus s t <? (L 0 0).
Definition decayed s t : bool := radius s t <? (L 1 0).

(** The first condition that holds decides. *)
Definition first_error s t : option SGP4Error :=
  if bad_motion s then Some Nm
  else if bad_ecc s t then Some Eccentricty
  else if bad_perturbed_ecc s t then Some Ep
  else if bad_latus s t then Some Pl
  else if decayed s t then Some DecayCondition
  else None.
End Spec.
