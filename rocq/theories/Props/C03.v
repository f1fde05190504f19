(** * C03: the error flag and the returned error always agree *)
From Coq Require Import ZArith List Bool.
From Verif.Model Require Import Float Str Satrec Vec3 Sgp4 Sgp4init.
From Verif.Spec Require Import Sgp4Spec.
From Verif.Proofs Require Import Sgp4Frame InitFrame.
From Verif.Inst Require Import B64.
From Verif.Golden Require Import Sats.
Import ListNotations.
Local Open Scope Z_scope.

(** The documented codes (README / sgp4.rs header), independent of the model's function. *)
Inductive documented_code : SGP4Error -> Z -> Prop :=
| code_ecc : documented_code Eccentricty 1
| code_nm : documented_code Nm 2
| code_ep : documented_code Ep 3
| code_pl : documented_code Pl 4
| code_decay : documented_code DecayCondition 6.

Definition flag_agrees {F} (flag : Z) (r : result (SGP4Result F) SGP4Error) : Prop :=
  match r with Ok _ => flag = 0 | Err e => documented_code e flag end.

Lemma flag_of_agrees F (r : result (SGP4Result F) SGP4Error) : flag_agrees (flag_of r) r.
Proof. destruct r as [|[]]; constructor. Qed.

Theorem C03_sgp4_flag :
  forall (F : Type) (FO : FloatOps F) (fuel : nat) (s s' : Satrec F) (t : F) r,
    sgp4 fuel s t = Done (s', r) -> flag_agrees (sr_error s') r.
Proof.
  intros F FO fuel s s' t r H. apply sgp4_frame in H. destruct H as [HN HD].
  assert (E : sr_error s' = flag_of r).
  { destruct (sr_method s); [now rewrite (HN eq_refl)|].
    destruct (HD eq_refl) as (a & x & c & p & q & ->). reflexivity. }
  rewrite E. apply flag_of_agrees.
Qed.
Print Assumptions C03_sgp4_flag.

Theorem C03_sgp4init_flag :
  forall (F : Type) (FO : FloatOps F) (fuel : nat) (s s' : Satrec F) (o : SGP4InitOptions F) r,
    sgp4init fuel s o = Done (s', r) -> flag_agrees (sr_error s') r.
Proof.
  intros F FO fuel s s' o r H. apply sgp4init_inv in H. destruct H as (s1 & H & ->).
  apply C03_sgp4_flag in H. destruct r; exact H.
Qed.
Print Assumptions C03_sgp4init_flag.

(** The flag identifies the outcome: it is 0 exactly for Ok, and different errors have different flags. *)
Theorem C03_flag_faithful :
  forall (F : Type) (FO : FloatOps F) (fuel1 fuel2 : nat) (s1 s2 s1' s2' : Satrec F) (t1 t2 : F) r1 r2,
    sgp4 fuel1 s1 t1 = Done (s1', r1) -> sgp4 fuel2 s2 t2 = Done (s2', r2) ->
    (sr_error s1' = 0 <-> exists v, r1 = Ok v) /\
    In (sr_error s1') [0; 1; 2; 3; 4; 6] /\
    (sr_error s1' = sr_error s2' ->
       (exists v1 v2, r1 = Ok v1 /\ r2 = Ok v2) \/ (exists e, r1 = Err e /\ r2 = Err e)).
Proof.
  intros F FO f1 f2 s1 s2 s1' s2' t1 t2 r1 r2 H1 H2.
  apply C03_sgp4_flag in H1. apply C03_sgp4_flag in H2.
  split; [|split].
  - destruct r1 as [v|e]; cbn in H1.
    + split; eauto.
    + split; [intros E; rewrite E in H1; inversion H1 | intros [v [=]]].
  - destruct r1 as [v|e]; cbn in H1; [rewrite H1; now left|]. inversion H1; cbn; tauto.
  - intros E. destruct r1 as [v1|e1], r2 as [v2|e2]; cbn in H1, H2.
    + left; eauto.
    + rewrite <- E, H1 in H2. inversion H2.
    + rewrite E, H2 in H1. inversion H1.
    + right. rewrite E in H1. exists e1. split; [reflexivity|]. inversion H1; inversion H2; congruence.
Qed.
Print Assumptions C03_flag_faithful.

(** Non-vacuity: a success, and a failure (mean motion zero). *)
Example C03_example :
  (match sgp4 10 leo (lit 30 0) with Done (s', Ok _) => Some (sr_error s') | _ => None end,
   match sgp4 10 (set_no (lit 0 0) leo) (lit 30 0) with Done (s', Err e) => Some (sr_error s', e) | _ => None end)
  = (Some 0, Some (2, Nm)).
Proof. vm_compute. reflexivity. Qed.
