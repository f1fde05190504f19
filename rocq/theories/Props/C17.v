(** * C17: termination of the deep-space integrator and of propagation *)
From Coq Require Import ZArith List Bool Reals Lra.
From Flocq Require Import Core.Raux IEEE754.BinarySingleNaN.
From Verif.Model Require Import Float Constants Satrec Dspace Sgp4.
From Verif.Spec Require Import DspaceSpec.
From Verif.Proofs Require Import DspaceLoop DspaceSession DspaceR DspaceB64.
From Verif.Inst Require Import RInst RTac B64 B64Facts.
From Verif.Golden Require Import Sats.
Import ListNotations.

Lemma sgp4_done {F} {FO : FloatOps F} fuel (s : Satrec F) t :
  (forall o, so_t o = t -> exists r, dspace fuel o = Done r) -> exists r, sgp4 fuel s t = Done r.
Proof.
  intros H. unfold sgp4. set (s1 := set_error 0 (set_t t s)).
  assert (E : exists em, sgp4_em fuel s1 (sgp4_secular s1) = Done em).
  { unfold sgp4_em. destruct (method_eqb _ _); [|eexists; reflexivity].
    destruct (H (sgp4_dspace_options s1 (sgp4_secular s1) (sr_no s1) (sr_ecco s1) (sr_inclo s1)) eq_refl) as [r ->].
    eexists; reflexivity. }
  destruct E as [em ->]. cbn [bindO].
  destruct (fle _ _); [eexists; reflexivity|]. destruct (_ || _); eexists; reflexivity.
Qed.

(** Exact arithmetic: n integration steps are enough whenever |t| < 720 (n+1), whatever integrator state
    is resumed; from the epoch state of a resonant orbit fewer are not enough. *)
Theorem C17_steps_exact :
  forall (n : nat) (o : DspaceOptions R),
    ((Rabs (so_t o) < 720 * (INR n + 1))%R -> exists r, dspace n o = Done r) /\
    (so_irez o <> 0%R -> so_atime o = 0%R -> (720 * (INR n + 1) <= Rabs (so_t o))%R -> dspace n o = NoFuel).
Proof.
  intros n o. split; [apply dspace_terminates_R|].
  intros Z A H. apply dspace_steps_R; try assumption. rops. rewrite Req_bool_false; auto.
Qed.
Print Assumptions C17_steps_exact.

(** Exact arithmetic: propagation of any record to any time returns. *)
Theorem C17_terminates_exact :
  forall (s : Satrec R) (t : R), exists fuel, exists r, sgp4 fuel s t = Done r.
Proof.
  intros s t. pose proof (archimed (Rabs t)) as [Hn _]. pose proof (Rabs_pos t) as P.
  assert (Q : (0 <= up (Rabs t))%Z) by (apply le_IZR; lra).
  exists (Z.to_nat (up (Rabs t))). apply sgp4_done.
  intros o E. apply dspace_terminates_R. rewrite E, INR_IZR_INZ, Z2Nat.id by assumption. lra.
Qed.
Print Assumptions C17_terminates_exact.

(** Binary64: propagation of any record to any finite time up to 2^52 minutes returns, after at most
    |t|/719 + 1 integration steps. *)
Theorem C17_terminates_binary64 :
  forall (lm : libm) (n : nat) (s : Satrec b64) (t : b64),
    is_finite t = true -> (Rabs (B2R t) <= 2 ^ 52)%R -> (Rabs (B2R t) < 719 * (INR n + 1))%R ->
    exists r, sgp4 (FO := B64Ops lm) n s t = Done r.
Proof.
  intros lm n s t Ft Ht Hn. apply sgp4_done. intros o E.
  apply dspace_terminates_B; rewrite E; [|assumption]. split; [exact Ft|]. eapply Rle_trans; [exact Ht|]. simpl. lra.
Qed.
Print Assumptions C17_terminates_binary64.

(** Binary64, the defect: for an infinite time, or a finite one of at least 2^71 minutes, propagation of
    a resonant deep-space record never returns. *)
Theorem C17_hangs_binary64 :
  forall (lm : libm) (s : Satrec b64) (t : b64),
    sr_method s = MethodD -> @feq _ (B64Ops lm) (sr_irez s) (B754_zero false) = false ->
    @feq _ (B64Ops lm) (sr_atime s) (B754_zero false) = true ->
    t <> B754_nan -> (is_finite t = true -> 2 ^ 71 <= Rabs (B2R t))%R ->
    forall fuel, sgp4 (FO := B64Ops lm) fuel s t = NoFuel.
Proof.
  intros lm s t HM HZ HA Hn Ht fuel. unfold sgp4. set (s1 := set_error 0 (set_t t s)).
  assert (E : sgp4_em (FO := B64Ops lm) fuel s1 (sgp4_secular (FO := B64Ops lm) s1) = NoFuel).
  { unfold sgp4_em. change (sr_method s1) with (sr_method s). rewrite HM. cbn [method_eqb].
    rewrite dspace_diverges; [reflexivity|exact HZ|exact HA|]. split; [exact Hn|]. intros F1. specialize (Ht F1).
    eapply Rle_trans; [|exact Ht]. simpl. lra. }
  rewrite E. reflexivity.
Qed.
Print Assumptions C17_hangs_binary64.

(** Non-vacuity: the records of the geostationary and the Molniya satellite are as assumed. *)
Example C17_example :
  (sr_method geo, feq (sr_irez geo) (B754_zero false), feq (sr_atime geo) (B754_zero false)) = (MethodD, false, true) /\
  (sr_method mol, feq (sr_irez mol) (B754_zero false), feq (sr_atime mol) (B754_zero false)) = (MethodD, false, true) /\
  (B754_infinity false : b64) <> B754_nan /\ prop_ok geo (lit (-1500) 0) = true.
Proof. refine (conj _ (conj _ (conj _ _))); [vm_compute; reflexivity|vm_compute; reflexivity|discriminate|vm_compute; reflexivity]. Qed.
