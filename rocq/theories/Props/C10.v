(** * C10: a successful propagation is never below the Earth's surface radius *)
From Coq Require Import ZArith List Bool Reals Lra.
From Flocq Require Import Core.Raux.
From Verif.Model Require Import Float Str Satrec Constants Vec3 Sgp4.
From Verif.Inst Require Import RInst RTac.
From Verif.Proofs Require Import Sgp4Errors StateFacts FrameR.
From Verif.Spec Require Import Sgp4Spec StateSpec Vectors3.
From Verif.Golden Require Import RSat.
Local Open Scope R_scope.

(** Exact arithmetic: the distance from the Earth's centre of a returned position is at least
    6378.137 km. *)
Theorem C10_never_below_surface :
  forall fuel (s s' : Satrec R) (t : R) v,
    sgp4 fuel s t = Done (s', Ok v) -> 6378137 / 1000 <= norm (g4_position v).
Proof.
  intros fuel s s' t v H. apply sgp4_state in H. destruct H as [-> D]. cbn [g4_position].
  unfold position_at. rewrite position_vec, norm_scale. unfold norm. rewrite frame_uu, sqrt_1, Rmult_1_r.
  unfold decayed in D. rewrite radius_osc in D. rops_in D. apply Rlt_bool_iff_f in D.
  rewrite Rabs_pos_eq; lra.
Qed.
Print Assumptions C10_never_below_surface.

(** A propagation that meets none of the earlier error conditions and whose distance
    (the radius of the theory, in km) is below 6378.137 km is reported as DecayCondition; at or above
    it, the returned position has exactly that distance. *)
Theorem C10_decay_reported :
  forall fuel (s s' : Satrec R) (t : R) r,
    sgp4 fuel s t = Done (s', r) ->
    bad_motion s = false -> bad_ecc s t = false -> bad_perturbed_ecc s t = false -> bad_latus s t = false ->
    (6378137 / 1000 * radius s t < 6378137 / 1000 -> r = Err DecayCondition) /\
    (6378137 / 1000 <= 6378137 / 1000 * radius s t ->
       exists v, r = Ok v /\ norm (g4_position v) = 6378137 / 1000 * radius s t).
Proof.
  intros fuel s s' t r H A B C D. pose proof (sgp4_errors _ _ _ _ _ H) as E. unfold first_error in E.
  rewrite A, B, C, D in E. unfold decayed in E. rops_in E. split; intros G.
  - rewrite Rlt_bool_true in E by lra. exact E.
  - rewrite Rlt_bool_false in E by lra. destruct E as [v ->]. exists v. split; [reflexivity|].
    apply sgp4_state in H. destruct H as [-> K]. cbn [g4_position].
    unfold position_at. rewrite position_vec, norm_scale. unfold norm. rewrite frame_uu, sqrt_1, Rmult_1_r, <- radius_osc.
    apply Rabs_pos_eq. lra.
Qed.
Print Assumptions C10_decay_reported.

(** Non-vacuity: an orbit of about four earth radii is propagated successfully; with a mean motion
    that puts the orbit below the surface the call fails. *)
Example C10_example : (exists s' v, sgp4 0 rsat 0 = Done (s', Ok v)) /\ radius rsat 0 = 4 * (1 - 1 / 1000000).
Proof. exact (conj rsat_ok rs_radius). Qed.
