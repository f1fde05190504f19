(** * The resonance integrator of [dspace]: orbit of the step function (any arithmetic) *)
From Coq Require Import ZArith List Bool Lia PeanoNat.
From Verif.Model Require Import Float Constants Dspace.
From Verif.Spec Require Import DspaceSpec.
Import ListNotations.

Section S.
Context {F : Type} {FO : FloatOps F}.
Implicit Types o : DspaceOptions F.

Definition epoch_state o : Integ := MkInteg (L 0 0) (so_xlamo o) (so_no o).
Fixpoint orbit o (delt : F) (k : nat) : Integ :=
  match k with O => epoch_state o | S k => dspace_step o delt (orbit o delt k) end.

(** options up to everything but the satellite *)
Lemma same_dots o o' a x n : same_satellite o o' -> dspace_dots o a x n = dspace_dots o' a x n.
Proof.
  intros (H1 & H2 & H3 & H4 & H5 & H6 & H7 & H8 & H9 & H10 & H11 & H12 & H13 & H14 & H15 & H16 & H17 & H18 & H19).
  unfold dspace_dots, dspace_dots_sync, dspace_dots_half.
  rewrite H1, H2, H3, H4, H5, H6, H7, H8, H9, H10, H11, H12, H13, H14, H15, H16, H17. reflexivity.
Qed.
Lemma same_step o o' delt x : same_satellite o o' -> dspace_step o delt x = dspace_step o' delt x.
Proof. intros H. unfold dspace_step. now rewrite (same_dots o o' _ _ _ H). Qed.
Lemma same_epoch o o' : same_satellite o o' -> epoch_state o = epoch_state o'.
Proof.
  intros (H1 & H2 & H3 & H4 & H5 & H6 & H7 & H8 & H9 & H10 & H11 & H12 & H13 & H14 & H15 & H16 & H17 & H18 & H19).
  unfold epoch_state. now rewrite H18, H19.
Qed.
Lemma same_orbit o o' delt k : same_satellite o o' -> orbit o delt k = orbit o' delt k.
Proof.
  intros H. induction k as [|k IH]; cbn [orbit]; [now apply same_epoch|]. now rewrite IH, (same_step o o' _ _ H).
Qed.
Lemma same_resume g o : same_satellite (resume g o) o.
Proof. destruct g as [[? ?] ?]. repeat split. Qed.
Lemma same_sym o o' : same_satellite o o' -> same_satellite o' o.
Proof. unfold same_satellite. intuition. Qed.
Lemma same_trans o o' o'' : same_satellite o o' -> same_satellite o' o'' -> same_satellite o o''.
Proof. unfold same_satellite. intuition congruence. Qed.

Lemma orbit_S o delt k : orbit o delt (S k) = dspace_step o delt (orbit o delt k).
Proof. reflexivity. Qed.

(** more fuel does not change a finished loop *)
Lemma loop_fuel_mono n : forall m o delt g x, dspace_loop n o delt g = Done x -> (n <= m)%nat ->
  dspace_loop m o delt g = Done x.
Proof.
  induction n as [|n IH]; intros m o delt g x H L; destruct m as [|m]; try lia; cbn [dspace_loop] in *;
    destruct (dspace_more (so_t o) (ig_atime g)); try discriminate; try assumption.
  apply IH; [assumption|lia].
Qed.
Lemma loop_det n m o delt g x y : dspace_loop n o delt g = Done x -> dspace_loop m o delt g = Done y -> x = y.
Proof.
  intros H1 H2. apply (loop_fuel_mono _ (Nat.max n m)) in H1; [|lia].
  apply (loop_fuel_mono _ (Nat.max n m)) in H2; [|lia]. congruence.
Qed.

(** The loop started on the orbit stays on the orbit and stops at the first index where the test fails. *)
Lemma loop_orbit n : forall o delt j x, dspace_loop n o delt (orbit o delt j) = Done x ->
  exists k, (j <= k)%nat /\ x = orbit o delt k /\
    (forall i, (j <= i < k)%nat -> dspace_more (so_t o) (ig_atime (orbit o delt i)) = true) /\
    dspace_more (so_t o) (ig_atime (orbit o delt k)) = false.
Proof.
  induction n as [|n IH]; intros o delt j x H; cbn [dspace_loop] in H;
    destruct (dspace_more (so_t o) (ig_atime (orbit o delt j))) eqn:E; try discriminate.
  1,3: injection H as <-; exists j; split; [lia|]; split; [reflexivity|]; split; [intros; lia|assumption].
  rewrite <- orbit_S in H. apply IH in H. destruct H as (k & L & -> & A & B). exists k.
  split; [lia|]. split; [reflexivity|]. split; [|assumption].
  intros i Hi. destruct (Nat.eq_dec i j) as [->|]; [assumption|]. apply A. lia.
Qed.
Lemma loop_to k : forall n o delt j, (j <= k)%nat ->
  (forall i, (j <= i < k)%nat -> dspace_more (so_t o) (ig_atime (orbit o delt i)) = true) ->
  dspace_more (so_t o) (ig_atime (orbit o delt k)) = false -> (k - j <= n)%nat ->
  dspace_loop n o delt (orbit o delt j) = Done (orbit o delt k).
Proof.
  intros n; induction n as [|n IH]; intros o delt j L A B N; cbn [dspace_loop].
  - assert (j = k) by lia. subst j. now rewrite B.
  - destruct (Nat.eq_dec j k) as [->|]; [now rewrite B|].
    rewrite A by lia. rewrite <- orbit_S. apply IH; [lia| |assumption|lia]. intros; apply A; lia.
Qed.
(** Starting further along the orbit gives the same end, when all skipped indices would have been passed. *)
Lemma loop_skip n o delt j x : dspace_loop n o delt (orbit o delt j) = Done x ->
  (forall i, (i < j)%nat -> dspace_more (so_t o) (ig_atime (orbit o delt i)) = true) ->
  dspace_loop (j + n) o delt (orbit o delt 0) = Done x.
Proof.
  intros H A. pose proof H as H'. apply loop_orbit in H. destruct H as (k & L & -> & C & B).
  assert (N : (k - j <= n)%nat).
  { destruct (Nat.le_gt_cases (k - j) n) as [|G]; [assumption|exfalso].
    assert (T : forall n j, (j <= k)%nat -> (forall i, (j <= i < k)%nat -> dspace_more (so_t o) (ig_atime (orbit o delt i)) = true) ->
      (n < k - j)%nat -> dspace_loop n o delt (orbit o delt j) = NoFuel).
    { clear. induction n as [|n IH]; intros j L A G; cbn [dspace_loop]; rewrite A by lia; [reflexivity|].
      rewrite <- orbit_S. apply IH; [lia| |lia]. intros; apply A; lia. }
    rewrite T in H'; [discriminate|assumption|assumption|assumption]. }
  apply loop_to; [lia| |assumption|lia].
  intros i Hi. destruct (Nat.lt_ge_cases i j); [now apply A|apply C; lia].
Qed.

(** ** The rest of [dspace] only looks at the loop's end *)
Definition finish' o (g : Integ) : DspaceResult F :=
  let t := so_t o in
  let theta := frem (fadd (so_gsto o) (fmul (so_tc o) dspace_RPTIM)) dspace_TWO_PI in
  let em := fadd (so_em o) (fmul (so_dedt o) t) in
  let inclm := fadd (so_inclm o) (fmul (so_didt o) t) in
  let argpm := fadd (so_argpm o) (fmul (so_domdt o) t) in
  let nodem := fadd (so_nodem o) (fmul (so_dnodt o) t) in
  let atime := ig_atime g in let xli := ig_xli g in let xni := ig_xni g in
  let d := dspace_dots o atime xli xni in
  let xndt := dt_xndt d in let xldot := dt_xldot d in let xnddt := dt_xnddt d in
  let ft := fsub t atime in
  let nm := fadd (fadd xni (fmul xndt ft)) (fmul (fmul (fmul xnddt ft) ft) (L 5 1)) in
  let xl := fadd (fadd xli (fmul xldot ft)) (fmul (fmul (fmul xndt ft) ft) (L 5 1)) in
  let mm := if negb (feq (so_irez o) (L 1 0)) then fadd (fsub xl (fmul (L 2 0) nodem)) (fmul (L 2 0) theta)
            else fadd (fsub (fsub xl nodem) argpm) theta in
  let dndt := fsub nm (so_no o) in
  MkDspaceResult atime em argpm inclm xli mm xni nodem dndt (fadd (so_no o) dndt).

Lemma dspace_resonant n o : feq (so_irez o) (L 0 0) = false ->
  dspace n o = bindO (dspace_loop n o (dspace_delt (so_t o)) (dspace_restart o)) (fun g => Done (finish' o g)).
Proof. intros H. unfold dspace. rewrite H. reflexivity. Qed.
Lemma finish'_resume g o x : finish' (resume g o) x = finish' o x.
Proof. destruct g as [[? ?] ?]; reflexivity. Qed.
Definition triple (g : Integ) : F * F * F := (ig_atime g, ig_xli g, ig_xni g).
Lemma finish'_state o g : carried (finish' o g) = triple g.
Proof. destruct g; reflexivity. Qed.
Lemma resume_t g o : so_t (resume g o) = so_t o.
Proof. destruct g as [[? ?] ?]; reflexivity. Qed.
Lemma resume_irez g o : so_irez (resume g o) = so_irez o.
Proof. destruct g as [[? ?] ?]; reflexivity. Qed.
Lemma loop_resume n : forall g g' o delt x, dspace_loop n (resume g o) delt x = dspace_loop n (resume g' o) delt x.
Proof.
  induction n as [|n IH]; intros; cbn [dspace_loop]; rewrite !resume_t.
  - reflexivity.
  - destruct (dspace_more (so_t o) (ig_atime x)); [|reflexivity].
    rewrite (same_step (resume g o) (resume g' o)); [apply IH|].
    eapply same_trans; [apply same_resume|apply same_sym, same_resume].
Qed.
Lemma restart_epoch o x n : feq (L 0 0) (L 0 0 : F) = true ->
  dspace_restart (resume (L 0 0, x, n) o) = epoch_state o.
Proof. intros H. unfold dspace_restart. cbn [so_atime resume]. rewrite H. reflexivity. Qed.
End S.
