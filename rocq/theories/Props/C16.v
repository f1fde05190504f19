(** * C16: the resonance integrator is restartable *)
From Coq Require Import ZArith List Bool Reals Lra.
From Flocq Require Import IEEE754.BinarySingleNaN.
From Verif.Model Require Import Float Constants Satrec Dspace Sgp4.
From Verif.Spec Require Import DspaceSpec.
From Verif.Proofs Require Import DspaceLoop DspaceSession DspaceR DspaceB64.
From Verif.Inst Require Import RInst RTac B64 B64Facts.
From Verif.Golden Require Import Sats.
Import ListNotations.

Lemma session_epoch {F} {FO : FloatOps F} (T : F -> Prop) (o0 : DspaceOptions F) x0 n0 calls :
  (forall t' t, T t' -> T t -> keeps t' t) -> feq (L 0 0) (L 0 0 : F) = true ->
  Forall (fun c => same_satellite (snd c) o0 /\ T (so_t (snd c)) /\
                   forall g, exists r, dspace (fst c) (resume g (snd c)) = Done r) calls ->
  exists rs, session (L 0 0, x0, n0) calls = Done rs /\
             Forall2 (fun c r => dspace (fst c) (resume (L 0 0, x0, n0) (snd c)) = Done r) calls rs.
Proof.
  intros HK H0 HC.
  assert (X : exists rs, session (L 0 0, x0, n0) calls = Done rs).
  { generalize (L 0 0 : F, x0, n0). clear - HC. induction HC as [|[n o] rest (_ & _ & H) HC IH]; intros g; cbn [session].
    - eexists; reflexivity.
    - destruct (H g) as [r E]. cbn [fst snd] in E. rewrite E. cbn [bindO]. destruct (IH (carried r)) as [rs ->].
      eexists; reflexivity. }
  destruct X as [rs E]. exists rs. split; [exact E|].
  apply (session_history T o0 x0 n0 HK H0) in E.
  - revert E HC. clear. intros E. induction E as [|c r cs rs [f E] E' IH]; intros HC; inversion HC as [|? ? (_ & _ & H) HC']; subst; constructor; [|auto].
    destruct (H (L 0 0, x0, n0)) as [r' E2]. rewrite E2. f_equal. eapply dspace_det; eassumption.
  - eapply Forall_impl; [|exact HC]. cbv beta. tauto.
  - reflexivity.
  - left. exact H0.
Qed.

(** In exact arithmetic, for every list of calls about one satellite, in any order of times: the calls
    succeed, and each returns what the same call made from the epoch state returns. *)
Theorem C16_restartable_exact :
  forall (o0 : DspaceOptions R) (xli0 xni0 : R) (calls : list (nat * DspaceOptions R)),
    Forall (fun c => same_satellite (snd c) o0 /\ Rabs (so_t (snd c)) < 720 * (INR (fst c) + 1))%R calls ->
    exists rs,
      session (0, xli0, xni0)%R calls = Done rs /\
      Forall2 (fun c r => dspace (fst c) (resume (0, xli0, xni0)%R (snd c)) = Done r) calls rs.
Proof.
  intros o0 x0 n0 calls H.
  assert (Z : @L R ROps 0 0 = 0%R) by (rlit; reflexivity). rewrite <- Z.
  apply (session_epoch (fun _ => True) o0).
  - intros t' t _ _. apply keeps_R.
  - rops. apply Req_bool_iff. reflexivity.
  - eapply Forall_impl; [|exact H]. cbv beta. intros [n o] [A B]. repeat split; try apply A.
    intros g. apply dspace_terminates_R. rewrite resume_t. exact B.
Qed.
Print Assumptions C16_restartable_exact.

(** The same for the binary64 arithmetic the program uses (any mathematical library), for all finite
    times up to 2^52 minutes: bit for bit, resuming does not change any returned element. *)
Theorem C16_restartable_binary64 :
  forall (lm : libm) (o0 : DspaceOptions b64) (xli0 xni0 : b64) (calls : list (nat * DspaceOptions b64)),
    Forall (fun c => same_satellite (snd c) o0 /\ is_finite (so_t (snd c)) = true /\
                     (Rabs (B2R (so_t (snd c))) <= 2 ^ 52)%R /\
                     (Rabs (B2R (so_t (snd c))) < 719 * (INR (fst c) + 1))%R) calls ->
    exists rs,
      session (FO := B64Ops lm) (B754_zero false, xli0, xni0) calls = Done rs /\
      Forall2 (fun c r => dspace (FO := B64Ops lm) (fst c) (resume (B754_zero false, xli0, xni0) (snd c)) = Done r) calls rs.
Proof.
  intros lm o0 x0 n0 calls H.
  change (B754_zero false) with (@L _ (B64Ops lm) 0 0).
  apply (session_epoch moderate o0).
  - intros t' t A B. now apply keeps_B.
  - reflexivity.
  - eapply Forall_impl; [|exact H]. cbv beta. intros [n o] (A & Fn & B & C). cbn [fst snd] in *.
    assert (M : moderate (so_t o)). { split; [exact Fn|]. eapply Rle_trans; [exact B|]. simpl. lra. }
    repeat split; try apply A; try apply M.
    intros g. apply dspace_terminates_B; rewrite resume_t; assumption.
Qed.
Print Assumptions C16_restartable_binary64.

(** Non-vacuity: the geostationary record resonates; a session forward, backward, across the epoch. *)
Definition call (n : nat) (t : Z) : nat * DspaceOptions b64 :=
  let s := set_t (lit t 0) geo in
  (n, sgp4_dspace_options s (sgp4_secular s) (sr_no s) (sr_ecco s) (sr_inclo s)).
Definition calls : list (nat * DspaceOptions b64) := [call 3 2000; call 3 2100; call 3 800; call 3 (-1500); call 3 2000].
Example C16_example :
  feq (sr_irez geo) (L 0 0) = false /\
  match session (B754_zero false, sr_xli geo, sr_xni geo) calls with
  | Done [a; b; c; d; e] => Btrunc (sx_atime a) = 1440%Z /\ Btrunc (sx_atime b) = 1440%Z /\
      Btrunc (sx_atime c) = 720%Z /\ Btrunc (sx_atime d) = (-1440)%Z /\ feq (sx_nm a) (sx_nm e) = true /\
      feq (sx_nm a) (sx_nm c) = false
  | _ => False end.
Proof. split; [vm_compute; reflexivity|]. vm_compute. repeat split; reflexivity. Qed.
