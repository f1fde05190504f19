(** * C01: propagation is history independent *)
From Coq Require Import ZArith List Bool.
From Verif.Model Require Import Float Str Satrec Vec3 Sgp4.
From Verif.Spec Require Import Sgp4Spec.
From Verif.Proofs Require Import Sgp4Frame.
From Verif.Inst Require Import B64.
From Verif.Golden Require Import Sats.
Import ListNotations.

(** Whatever calls were made before on the record (any times, any outcomes), the next call returns
    what it would have returned on the original record. *)
Theorem C01_history_independence :
  forall (F : Type) (FO : FloatOps F) (s s' : Satrec F) (calls : list (nat * F)) (fuel : nat) (t : F),
    after_calls s calls = Done s' ->
    returned (sgp4 fuel s' t) = returned (sgp4 fuel s t).
Proof.
  intros F FO s s' calls; revert s. induction calls as [|[n t0] rest IH]; intros s fuel t H; cbn [after_calls] in H.
  - now injection H as <-.
  - destruct (sgp4 n s t0) as [[s1 r1]| |] eqn:E; cbn [bindO] in H; try discriminate.
    rewrite (IH s1 fuel t H). exact (sgp4_history1 n fuel s t0 s1 r1 t E).
Qed.
Print Assumptions C01_history_independence.

(** For near-earth records even the updated record is the same. *)
Theorem C01_near_earth_record_too :
  forall (F : Type) (FO : FloatOps F) (s s' : Satrec F) (calls : list (nat * F)) (fuel : nat) (t : F),
    sr_method s = MethodN ->
    after_calls s calls = Done s' ->
    sgp4 fuel s' t = sgp4 fuel s t.
Proof.
  intros F FO s s' calls; revert s. induction calls as [|[n t0] rest IH]; intros s fuel t HN H; cbn [after_calls] in H.
  - now injection H as <-.
  - destruct (sgp4 n s t0) as [[s1 r1]| |] eqn:E; cbn [bindO] in H; try discriminate.
    pose proof (sgp4_frame n s t0 s1 r1 E) as [HF _]. specialize (HF HN).
    rewrite (IH s1 fuel t); [|rewrite HF; exact HN|exact H]. rewrite HF. apply sgp4_t_error.
Qed.
Print Assumptions C01_near_earth_record_too.

(** Non-vacuity: a resonant deep-space record, propagated forward, backward and to a failing time,
    then propagated again. *)
Example C01_example :
  match after_calls mol [(10%nat, lit 2880 0); (10%nat, lit (-1440) 0)] with
  | Done s' => prop_ok s' (lit 720 0)
  | _ => false
  end = true.
Proof. vm_compute. reflexivity. Qed.
