(** * C13: drag does not change the state at epoch *)
From Coq Require Import ZArith List Bool Reals Lra.
From Flocq Require Import Core.Raux.
From Verif.Model Require Import Float Str Satrec Constants Vec3 Initl Sgp4 Sgp4init Io.
From Verif.Inst Require Import RInst RTac B64.
From Verif.Proofs Require Import InitFrame InitKind InitElems DragFacts.
From Verif.Spec Require Import Sgp4Spec.
From Verif.Golden Require Import RSat Sats.
Import ListNotations.
Local Open Scope R_scope.

(** Exact arithmetic: two option sets that differ only in the drag term ([with_bstar b o] is [o] with
    the drag term [b], Proofs/DragFacts.v) initialise to the same result: same position and velocity at
    epoch, or the same error.  Holds for near-earth and for deep-space satellites. *)
Theorem C13_drag_at_epoch :
  forall fuel fuel' (s0 s0' s s' : Satrec R) (o : SGP4InitOptions R) (b : R) r r',
    sgp4init fuel s0 o = Done (s, r) ->
    sgp4init fuel' s0' (with_bstar b o) = Done (s', r') ->
    r' = r.
Proof.
  intros fuel fuel' s0 s0' s s' o b r r' H H'.
  rewrite (sgp4init_graft fuel' s0' s0) in H'.
  destruct (sgp4init fuel' s0 (with_bstar b o)) as [[s2 r2]| |] eqn:E; cbn [bindO fst snd] in H'; try discriminate.
  injection H' as _ <-.
  apply sgp4init_inv in H, E. destruct H as (s1 & H & _), E as (s3 & E & _).
  change (@L R ROps 0 0) with 0 in H, E.
  apply epoch_result in H; [|apply elements_quiet]. apply epoch_result in E; [|apply elements_quiet].
  rewrite elements_undrag in E. congruence.
Qed.
Print Assumptions C13_drag_at_epoch.

(** The same for propagating the two initialised records to t = 0. *)
Theorem C13_drag_at_epoch_propagated :
  forall fuel fuel' (s0 s0' s s' s1 s1' : Satrec R) (o : SGP4InitOptions R) (b : R) r r' q q',
    sgp4init fuel s0 o = Done (s, r) ->
    sgp4init fuel' s0' (with_bstar b o) = Done (s', r') ->
    sgp4 fuel s 0 = Done (s1, q) -> sgp4 fuel' s' 0 = Done (s1', q') ->
    q' = q.
Proof.
  intros fuel fuel' s0 s0' s s' s1 s1' o b r r' q q' H H' G G'.
  pose proof (C13_drag_at_epoch _ _ _ _ _ _ _ _ _ _ H H') as E. subst r'.
  apply sgp4init_replay in H, H'. change (@L R ROps 0 0) with 0 in H, H'. rewrite G in H. rewrite G' in H'.
  cbn in H, H'. congruence.
Qed.
Print Assumptions C13_drag_at_epoch_propagated.

(** Non-vacuity, exact arithmetic: initialisation of a circular equatorial orbit with mean motion XKE
    completes for every drag term. *)
Definition ro (b : R) : SGP4InitOptions R := MkSGP4InitOptions OpsI nil 0 b 0 0 0 0 kXKE 0.
Lemma ro_no b : 74 / 1000 < brouwer_no (ro b) < 75 / 1000.
Proof.
  unfold brouwer_no, initl. cbv zeta. cbn [ir_no il_no il_ecco il_inclo ro in_opsmode in_satn in_xecco in_epoch in_xinclo in_xno].
  rops. unfold kJ2. rlit. rewrite cos_0, kX2O3_R.
  replace (kXKE / kXKE) with 1 by (rewrite kXKE_R; field; lra).
  replace (Rpow 1 (2 / 3)) with 1.
  2:{ unfold Rpow. rewrite Rlt_bool_true by lra. unfold Rpower. rewrite ln_1, Rmult_0_r, exp_0. reflexivity. }
  replace (1 - 0 * 0) with 1 by ring. rewrite sqrt_1.
  set (d := 75 / 100 * (108262998905 / 100000000000000) * (3 * (1 * 1) - 1) / (1 * 1)).
  assert (D : d = 324788996715 / 200000000000000) by (unfold d; field).
  replace (d / (1 * 1)) with d by field.
  set (a := 1 * (1 - d * d - d * (1 / 3 + 134 * d * d / 81))).
  assert (A : 999 / 1000 < a < 1) by (unfold a; rewrite D; lra).
  assert (Q : 0 < d / (a * a) < 2 / 1000).
  { rewrite D. split; [apply Rdiv_lt_0_compat; nra|]. apply Rmult_lt_reg_r with (a * a); [nra|].
    unfold Rdiv. rewrite Rmult_assoc, Rinv_l by nra. nra. }
  rewrite kXKE_R. set (q := d / (a * a)) in *.
  set (n := 7436685316871385 / 100000000000000000 / (1 + q)).
  assert (N : n * (1 + q) = 7436685316871385 / 100000000000000000) by (unfold n; field; lra).
  nra.
Qed.
Lemma ro_done b fuel s0 : exists s r, sgp4init fuel s0 (ro b) = Done (s, r).
Proof.
  unfold sgp4init.
  assert (D : deep (sgp4init_elements (ro b) s0) = false).
  { destruct (elements_kind (ro b) s0) as (_ & M & _). unfold deep. rewrite M.
    pose proof (elements_elems (ro b) s0) as E. pose proof (f_equal el_no E) as N. cbn [elems_of el_no] in N. rewrite N.
    rops. rewrite kTWO_PI_R. rewrite Rle_bool_false; [rewrite andb_false_r; reflexivity|].
    pose proof (ro_no b) as B. pose proof PI_4. pose proof PI_RGT_0.
    apply Rmult_lt_reg_r with (brouwer_no (ro b)); [lra|]. unfold Rdiv. rewrite Rmult_assoc, Rinv_l by lra. lra. }
  destruct (near_done R ROps fuel _ 0 D) as (s1 & r1 & H). change (@L R ROps 0 0) with 0. rewrite H. cbn [bindO].
  destruct r1; eauto.
Qed.

(** In binary64 the ISS element set with its own drag term and with ten times that: same state at
    epoch, different state a day later. *)
Definition same_pos (s s' : Satrec b64) (t : b64) : option bool :=
  match sgp4 10 s t, sgp4 10 s' t with
  | Done (_, Ok v), Done (_, Ok w) =>
      Some (feq (v_x (g4_position v)) (v_x (g4_position w)) && feq (v_y (g4_position v)) (v_y (g4_position w)) &&
            feq (v_z (g4_position v)) (v_z (g4_position w)))
  | _, _ => None
  end.
Example C13_example :
  (forall b, with_bstar b (ro 0) = ro b /\ exists s r, sgp4init 0 satrec_zero (ro b) = Done (s, r)) /\
  match sgp4init 10 satrec_zero (with_bstar (fmul (sr_bstar iss) (lit 10 0)) (MkSGP4InitOptions OpsI nil (lit 25288 0)
     (sr_bstar iss) (sr_ecco iss) (sr_argpo iss) (sr_inclo iss) (sr_mo iss) (sr_no iss) (sr_nodeo iss))),
    sgp4init 10 satrec_zero (MkSGP4InitOptions OpsI nil (lit 25288 0)
     (sr_bstar iss) (sr_ecco iss) (sr_argpo iss) (sr_inclo iss) (sr_mo iss) (sr_no iss) (sr_nodeo iss)) with
  | Done (s, Ok _), Done (s', Ok _) => (same_pos s s' (lit 0 0), same_pos s s' (lit 1440 0))
  | _, _ => (None, None)
  end = (Some true, Some false).
Proof.
  split; [intros b; split; [reflexivity|apply ro_done]|]. vm_compute. reflexivity.
Qed.
