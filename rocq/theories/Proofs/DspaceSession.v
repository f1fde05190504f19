(** * Resuming the resonance integrator (any arithmetic satisfying a tick condition) *)
From Coq Require Import ZArith List Bool Lia PeanoNat.
From Verif.Model Require Import Float Constants Dspace.
From Verif.Spec Require Import DspaceSpec.
From Verif.Proofs Require Import DspaceLoop.
Import ListNotations.

Section S.
Context {F : Type} {FO : FloatOps F}.
Implicit Types o : DspaceOptions F.

(** integrator times: 0, delt, delt+delt, ... *)
Fixpoint tick (delt : F) (k : nat) : F := match k with O => L 0 0 | S k => fadd (tick delt k) delt end.
Lemma orbit_tick o delt k : ig_atime (orbit o delt k) = tick delt k.
Proof. induction k as [|k IH]; [reflexivity|]. cbn [orbit tick]. now rewrite <- IH. Qed.

Definition restarts (t atime : F) : bool :=
  feq atime (L 0 0) || fle (fmul t atime) (L 0 0) || flt (fabs t) (fabs atime).

(** [keeps t' t]: when the integrator stopped at tick k for t' and is not restarted for t, then stepping
    from the epoch to t passes tick k. *)
Definition keeps (t' t : F) : Prop := forall k,
  (forall i, (i < k)%nat -> dspace_more t' (tick (dspace_delt t') i) = true) ->
  restarts t (tick (dspace_delt t') k) = false ->
  dspace_delt t = dspace_delt t' /\ (forall i, (i < k)%nat -> dspace_more t (tick (dspace_delt t') i) = true).

Lemma dspace_det n m o r r' : dspace n o = Done r -> dspace m o = Done r' -> r = r'.
Proof.
  destruct (feq (so_irez o) (L 0 0)) eqn:E.
  - unfold dspace. rewrite E. cbn [negb]. congruence.
  - rewrite !dspace_resonant by assumption.
    destruct (dspace_loop n o _ _) as [x| |] eqn:A; cbn [bindO]; try discriminate.
    destruct (dspace_loop m o _ _) as [y| |] eqn:B; cbn [bindO]; try discriminate.
    rewrite (loop_det _ _ _ _ _ _ _ A B). congruence.
Qed.

Lemma orbit_resume o g delt k : orbit (resume g o) delt k = orbit o delt k.
Proof. apply same_orbit, same_resume. Qed.

(** a carried state: the start state (atime zero), or a stop of an earlier call *)
Definition reachable (T : F -> Prop) o (g : F * F * F) : Prop :=
  feq (fst (fst g)) (L 0 0) = true \/
  exists t' k, T t' /\ (forall i, (i < k)%nat -> dspace_more t' (tick (dspace_delt t') i) = true) /\
    g = triple (orbit o (dspace_delt t') k).

Lemma call_resonant (T : F -> Prop) n o g x0 n0 r :
  (forall t' t, T t' -> T t -> keeps t' t) -> feq (L 0 0) (L 0 0 : F) = true -> T (so_t o) ->
  feq (so_irez o) (L 0 0) = false -> reachable T o g ->
  dspace n (resume g o) = Done r ->
  (exists f, dspace f (resume (L 0 0, x0, n0) o) = Done r) /\ reachable T o (carried r).
Proof.
  intros HK H0 HT HZ HR H.
  rewrite dspace_resonant in H by (now rewrite resume_irez). rewrite resume_t in H.
  destruct (dspace_loop n (resume g o) (dspace_delt (so_t o)) (dspace_restart (resume g o))) as [x| |] eqn:E;
    cbn [bindO] in H; try discriminate. injection H as <-.
  assert (S : exists f, dspace_loop f (resume g o) (dspace_delt (so_t o)) (epoch_state o) = Done x).
  { unfold dspace_restart in E. destruct g as [[a xl] xn]. cbn [so_t so_atime resume so_xlamo so_no so_xli so_xni] in E.
    fold (restarts (so_t o) a) in E. fold (epoch_state o) in E.
    destruct (restarts (so_t o) a) eqn:R; [eexists; exact E|].
    destruct HR as [Z|(t' & k & Ht' & Hk & G)].
    - exfalso. unfold restarts in R. cbn [fst] in Z. rewrite Z in R. discriminate.
    - assert (A : a = tick (dspace_delt t') k) by (unfold triple in G; injection G as G _ _; now rewrite G, orbit_tick).
      rewrite A in R. destruct (HK t' (so_t o) Ht' HT k Hk R) as [D M].
      assert (X : MkInteg a xl xn = orbit (resume (a, xl, xn) o) (dspace_delt (so_t o)) k).
      { rewrite orbit_resume, D. destruct (orbit o (dspace_delt t') k). unfold triple in G. cbn in G. congruence. }
      rewrite X in E. apply loop_skip in E.
      + exists (k + n)%nat. cbn [orbit] in E. exact E.
      + intros i Hi. rewrite orbit_tick, resume_t, D. now apply M. }
  destruct S as [f S]. split.
  - exists f. rewrite dspace_resonant by (now rewrite resume_irez). rewrite resume_t, restart_epoch by assumption.
    rewrite (loop_resume f _ g). rewrite S. cbn [bindO]. now rewrite !finish'_resume.
  - right. change (epoch_state o) with (orbit o (dspace_delt (so_t o)) 0) in S.
    rewrite <- (orbit_resume o g) in S. apply loop_orbit in S. destruct S as (k & _ & -> & A & _).
    exists (so_t o), k. split; [assumption|]. split.
    + intros i Hi. specialize (A i ltac:(lia)). now rewrite orbit_tick, resume_t in A.
    + rewrite finish'_state, orbit_resume. reflexivity.
Qed.

Lemma session_history (T : F -> Prop) o0 x0 n0 :
  (forall t' t, T t' -> T t -> keeps t' t) -> feq (L 0 0) (L 0 0 : F) = true ->
  forall calls rs g,
  Forall (fun c => same_satellite (snd c) o0 /\ T (so_t (snd c))) calls ->
  (feq (so_irez o0) (L 0 0) = true -> g = (L 0 0, x0, n0)) ->
  reachable T o0 g ->
  session g calls = Done rs ->
  Forall2 (fun c r => exists f, dspace f (resume (L 0 0, x0, n0) (snd c)) = Done r) calls rs.
Proof.
  intros HK H0. induction calls as [|[n o] rest IH]; intros rs g HC HZ HR H; cbn [session] in H.
  - injection H as <-. constructor.
  - inversion HC as [|? ? [Hs HT] HC']; subst. cbn [snd] in *.
    destruct (dspace n (resume g o)) as [r| |] eqn:E; cbn [bindO] in H; try discriminate.
    destruct (session (carried r) rest) as [rs'| |] eqn:E2; cbn [bindO] in H; try discriminate.
    injection H as <-.
    assert (Hz : so_irez o = so_irez o0) by (apply Hs).
    assert (RO : forall g, reachable T o0 g <-> reachable T o g).
    { intros g'. unfold reachable. split; (intros [?|(t' & k & A & B & C)]; [now left|right; exists t', k; split; [assumption|split; [assumption|]]]).
      - now rewrite (same_orbit o o0).
      - now rewrite <- (same_orbit o o0). }
    destruct (feq (so_irez o0) (L 0 0)) eqn:Z.
    + rewrite (HZ eq_refl) in E.
      constructor.
      * exists n. exact E.
      * apply (IH rs' (carried r)); try assumption.
        -- intros _. unfold dspace in E. rewrite resume_irez, Hz, Z in E. cbn [negb] in E. injection E as <-. reflexivity.
        -- left. unfold dspace in E. rewrite resume_irez, Hz, Z in E. cbn [negb] in E. injection E as <-. exact H0.
    + destruct (call_resonant T n o g x0 n0 r HK H0 HT) as [A B].
      * now rewrite Hz.
      * now apply RO.
      * exact E.
      * constructor; [exact A|]. apply (IH rs' (carried r)); try assumption; [discriminate|now apply RO].
Qed.
End S.
