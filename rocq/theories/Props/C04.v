(** * C04: error conditions are exactly the documented ones, in order *)
From Coq Require Import ZArith List Bool.
From Verif.Model Require Import Float Str Satrec Vec3 Sgp4.
From Verif.Spec Require Import Sgp4Spec.
From Verif.Proofs Require Import Sgp4Errors.
From Verif.Inst Require Import B64.
From Verif.Golden Require Import Sats.
Import ListNotations.

(** [first_error s t] (Spec/Sgp4Spec.v) is the first of: mean motion <= 0; eccentricity at [t] >= 1 or
    < -0.001; (deep space) perturbed eccentricity outside [0,1]; semi-latus rectum < 0; radius < 1. *)
Theorem C04_error_conditions :
  forall (F : Type) (FO : FloatOps F) (fuel : nat) (s s' : Satrec F) (t : F) r,
    sgp4 fuel s t = Done (s', r) ->
    match first_error s t with
    | Some e => r = Err e
    | None => exists v, r = Ok v
    end.
Proof. intros F FO fuel s s' t r. exact (sgp4_errors fuel s t s' r). Qed.
Print Assumptions C04_error_conditions.

(** The same as one equivalence per outcome. *)
Theorem C04_each_condition :
  forall (F : Type) (FO : FloatOps F) (fuel : nat) (s s' : Satrec F) (t : F) r,
    sgp4 fuel s t = Done (s', r) ->
    (r = Err Nm <-> bad_motion s = true) /\
    (r = Err Eccentricty <-> bad_motion s = false /\ bad_ecc s t = true) /\
    (r = Err Ep <-> bad_motion s = false /\ bad_ecc s t = false /\ bad_perturbed_ecc s t = true) /\
    (r = Err Pl <-> bad_motion s = false /\ bad_ecc s t = false /\ bad_perturbed_ecc s t = false /\
                    bad_latus s t = true) /\
    (r = Err DecayCondition <-> bad_motion s = false /\ bad_ecc s t = false /\ bad_perturbed_ecc s t = false /\
                    bad_latus s t = false /\ decayed s t = true) /\
    ((exists v, r = Ok v) <-> bad_motion s = false /\ bad_ecc s t = false /\ bad_perturbed_ecc s t = false /\
                    bad_latus s t = false /\ decayed s t = false).
Proof.
  intros F FO fuel s s' t r H. apply sgp4_errors in H. revert H. unfold first_error.
  destruct (bad_motion s), (bad_ecc s t), (bad_perturbed_ecc s t), (bad_latus s t), (decayed s t);
    intros H;
    repeat match type of H with exists v, _ => destruct H as [v H] end; subst r;
    repeat match goal with |- _ /\ _ => split | |- _ <-> _ => split end;
    try tauto; intros; try discriminate; try tauto; try (intuition discriminate);
    try (match goal with H : exists v, _ |- _ => destruct H as [? H]; discriminate end); eauto;
    intuition (try discriminate).
Qed.
Print Assumptions C04_each_condition.

(** Non-vacuity: four of the conditions and a success occur for concrete records
    (mean motion 0; eccentricity 1.5; a fast decaying orbit after 1000 days; success). *)
Example C04_example :
  map (fun p => match sgp4 100 (fst p) (snd p) with Done (_, Err e) => Some e | _ => None end)
    [ (set_no (lit 0 0) leo, lit 0 0);
      (set_ecco (lit 15 (-1)) leo, lit 0 0);
      (set_aycof (lit 2 0) leo, lit 0 0);
      (set_no (lit 8 (-2)) leo, lit 0 0);
      (leo, lit 60 0) ]
  = [Some Nm; Some Eccentricty; Some Pl; Some DecayCondition; None].
Proof. vm_compute. reflexivity. Qed.
