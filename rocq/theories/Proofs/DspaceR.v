(** * The resonance integrator in exact arithmetic *)
From Coq Require Import ZArith List Bool Lia PeanoNat Reals Lra.
From Flocq Require Import Core.Raux.
From Verif.Model Require Import Float Constants Dspace.
From Verif.Spec Require Import DspaceSpec.
From Verif.Inst Require Import RInst RTac.
From Verif.Proofs Require Import DspaceLoop DspaceSession.
Import ListNotations.
Local Open Scope R_scope.

Lemma STEPP_R : @dspace_STEPP R ROps = 720.
Proof. unfold dspace_STEPP. rlit. reflexivity. Qed.
Lemma STEPN_R : @dspace_STEPN R ROps = -720.
Proof. unfold dspace_STEPN. rops. lra. Qed.
Lemma delt_R t : @dspace_delt R ROps t = if Rlt_bool 0 t then 720 else -720.
Proof. unfold dspace_delt. rewrite STEPP_R, STEPN_R. rops. reflexivity. Qed.
Lemma tick_R d k : @tick R ROps d k = INR k * d.
Proof.
  induction k as [|k IH]; cbn [tick].
  - rops. cbn [INR]. ring.
  - rewrite IH, S_INR. rops. ring.
Qed.
Lemma more_R t a : @dspace_more R ROps t a = true <-> 720 <= Rabs (t - a).
Proof. unfold dspace_more. rewrite STEPP_R. rops. apply Rle_bool_iff. Qed.
Lemma more_R_f t a : @dspace_more R ROps t a = false <-> Rabs (t - a) < 720.
Proof. unfold dspace_more. rewrite STEPP_R. rops. apply Rle_bool_iff_f. Qed.
Lemma restarts_R_f t a : @restarts R ROps t a = false <-> a <> 0 /\ 0 < t * a /\ Rabs a <= Rabs t.
Proof.
  unfold restarts. rops. rewrite !orb_false_iff, Rle_bool_iff_f, Rlt_bool_iff_f.
  case Req_bool_spec; intuition (try discriminate).
Qed.

Lemma keeps_R t' t : @keeps R ROps t' t.
Proof.
  intros k _ H. rewrite tick_R, delt_R in H. apply restarts_R_f in H. destruct H as (Hn & Hp & Ha).
  rewrite !delt_R. pose proof (pos_INR k) as Pk. revert Hn Hp Ha. case (Rlt_bool_spec 0 t'); intros Ht' Hn Hp Ha.
  - assert (Ht : 0 < t) by nra. rewrite Rlt_bool_t by assumption. split; [reflexivity|].
    intros i Hi. rewrite tick_R. apply more_R. apply lt_INR in Hi. pose proof (pos_INR i).
    assert (K : INR i + 1 <= INR k). { rewrite <- S_INR. apply le_INR. apply INR_lt in Hi. lia. }
    rewrite (Rabs_right t) in Ha by lra. rewrite (Rabs_right (INR k * 720)) in Ha by lra.
    rewrite Rabs_right; lra.
  - assert (Ht : t < 0) by nra. rewrite Rlt_bool_f by lra. split; [reflexivity|].
    intros i Hi. rewrite tick_R. apply more_R. apply lt_INR in Hi. pose proof (pos_INR i).
    assert (K : INR i + 1 <= INR k). { rewrite <- S_INR. apply le_INR. apply INR_lt in Hi. lia. }
    rewrite (Rabs_left t) in Ha by lra. rewrite (Rabs_left1 (INR k * -720)) in Ha by lra.
    rewrite Rabs_left; lra.
Qed.

(** Termination: a loop that starts between 0 and t, on t's side, needs at most |t|/720 steps. *)
Lemma loop_terminates_R n : forall o delt g,
  (0 < so_t o /\ delt = 720 /\ ig_atime g <= so_t o \/ so_t o <= 0 /\ delt = -720 /\ so_t o <= ig_atime g) ->
  Rabs (so_t o - ig_atime g) < 720 * (INR n + 1) ->
  exists x, @dspace_loop R ROps n o delt g = Done x.
Proof.
  induction n as [|n IH]; intros o delt g HS HL; cbn [dspace_loop];
    destruct (dspace_more (so_t o) (ig_atime g)) eqn:E; try (eexists; reflexivity).
  - apply more_R in E. cbn [INR] in HL. lra.
  - apply more_R in E. apply IH.
    + destruct HS as [(A & B & C)|(A & B & C)]; [left|right]; (split; [assumption|]; split; [assumption|]);
        unfold dspace_step; cbn [ig_atime]; rops; subst delt.
      * rewrite Rabs_right in E by lra. lra.
      * rewrite Rabs_left1 in E by lra. lra.
    + rewrite S_INR in HL. unfold dspace_step; cbn [ig_atime]; rops.
      destruct HS as [(A & B & C)|(A & B & C)]; subst delt.
      * rewrite Rabs_right in E, HL by lra. rewrite Rabs_right by lra. lra.
      * rewrite Rabs_left1 in E, HL by lra. rewrite Rabs_left1 by lra. lra.
Qed.

Lemma restart_side o : let g := @dspace_restart R ROps o in
  (0 < so_t o -> 0 <= ig_atime g <= so_t o) /\ (so_t o <= 0 -> so_t o <= ig_atime g <= 0).
Proof.
  cbv zeta. unfold dspace_restart. fold (@restarts R ROps (so_t o) (so_atime o)).
  destruct (restarts (so_t o) (so_atime o)) eqn:E; cbn [ig_atime].
  - rops. lra.
  - apply restarts_R_f in E. destruct E as (A & B & C). split; intros H.
    + assert (0 < so_atime o) by nra. rewrite !Rabs_right in C by lra. lra.
    + assert (so_t o < 0 /\ so_atime o < 0) by (split; nra). rewrite !Rabs_left in C by lra. lra.
Qed.

Lemma dspace_terminates_R n (o : DspaceOptions R) : Rabs (so_t o) < 720 * (INR n + 1) ->
  exists r, dspace n o = Done r.
Proof.
  intros H. destruct (@feq R ROps (so_irez o) (L 0 0)) eqn:Z.
  - unfold dspace. rewrite Z. eexists; reflexivity.
  - rewrite dspace_resonant by assumption.
    destruct (restart_side o) as [P N]. set (g := dspace_restart o) in *.
    destruct (loop_terminates_R n o (dspace_delt (so_t o)) g) as [x E].
    + rewrite delt_R. case Rlt_bool_spec; intros; [left|right]; intuition lra.
    + destruct (Rlt_le_dec 0 (so_t o)) as [L|L].
      * specialize (P L). rewrite Rabs_right in H by lra. rewrite Rabs_right; lra.
      * specialize (N L). rewrite Rabs_left1 in H by lra. rewrite Rabs_left1; lra.
    + rewrite E. eexists; reflexivity.
Qed.

(** Integration from the epoch takes exactly floor(|t|/720) steps. *)
Lemma dspace_steps_R n (o : DspaceOptions R) : feq (so_irez o) (L 0 0) = false -> so_atime o = 0 ->
  720 * (INR n + 1) <= Rabs (so_t o) -> dspace n o = NoFuel.
Proof.
  intros Z A H. rewrite dspace_resonant by assumption.
  assert (R : dspace_restart o = epoch_state o).
  { unfold dspace_restart. rewrite A. rops. rewrite Req_bool_true by reflexivity. reflexivity. }
  rewrite R.
  assert (T : forall n j, 720 * (INR j + INR n + 1) <= Rabs (so_t o) ->
    dspace_loop n o (dspace_delt (so_t o)) (orbit o (dspace_delt (so_t o)) j) = NoFuel).
  { clear n H. induction n as [|n IH]; intros j H; cbn [dspace_loop].
    - assert (M : dspace_more (so_t o) (ig_atime (orbit o (dspace_delt (so_t o)) j)) = true).
      { apply more_R. rewrite orbit_tick, tick_R, delt_R. cbn [INR] in H. pose proof (pos_INR j).
        case Rlt_bool_spec; intros.
        - rewrite Rabs_right in H by lra. rewrite Rabs_right; lra.
        - rewrite Rabs_left1 in H by lra. rewrite Rabs_left1; lra. }
      now rewrite M.
    - assert (M : dspace_more (so_t o) (ig_atime (orbit o (dspace_delt (so_t o)) j)) = true).
      { apply more_R. rewrite orbit_tick, tick_R, delt_R. rewrite S_INR in H. pose proof (pos_INR j). pose proof (pos_INR n).
        case Rlt_bool_spec; intros.
        - rewrite Rabs_right in H by lra. rewrite Rabs_right; lra.
        - rewrite Rabs_left1 in H by lra. rewrite Rabs_left1; lra. }
      rewrite M, <- orbit_S. apply IH. rewrite S_INR in *. lra. }
  specialize (T n 0%nat). cbn [orbit] in T. rewrite T; [reflexivity|]. cbn [INR]. lra.
Qed.
