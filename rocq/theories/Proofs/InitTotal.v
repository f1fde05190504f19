(** * Initialisation always returns *)
From Coq Require Import ZArith List Bool Reals Lra.
From Flocq Require Import Core.Raux Core IEEE754.BinarySingleNaN.
From Verif.Model Require Import Float Str Satrec Constants Vec3 Initl Dscom Dpper Dsinit Dspace Sgp4 Sgp4init.
From Verif.Inst Require Import RInst RTac B64.
From Verif.Proofs Require Import Sgp4Frame InitFrame InitKind InitElems.
Import ListNotations.
Local Open Scope Z_scope.

(** The only facts about the arithmetic needed: 0 = 0, and |0 - 0| is not 720 or more. *)
Definition zero_sane {F} (FO : FloatOps F) : Prop :=
  feq (L 0 0) (L 0 0 : F) = true /\ fle dspace_STEPP (fabs (fsub (L 0 0) (L 0 0)) : F) = false.
Lemma zero_sane_R : zero_sane ROps.
Proof.
  unfold zero_sane, dspace_STEPP. rops. split; [apply Req_bool_true; reflexivity|].
  apply Rle_bool_false. rewrite Rminus_diag_eq by reflexivity. rewrite Rabs_R0. lra.
Qed.
Lemma zero_sane_B64 lm : zero_sane (B64Ops lm).
Proof. split; vm_compute; reflexivity. Qed.

Section S.
Context {F : Type} {FO : FloatOps F} (SANE : zero_sane FO).
Implicit Types s u : Satrec F.

Lemma start_atime r o s0 : sr_atime (sgp4init_after_initl r (sgp4init_reset o s0)) = L 0 0.
Proof. reflexivity. Qed.
Lemma near_atime r s : sr_atime (ne_s (sgp4init_near r s)) = sr_atime s.
Proof. reflexivity. Qed.
Lemma copy_dsinit_atime r s : sr_atime (sgp4init_copy_dsinit r s) = nr_atime r.
Proof. reflexivity. Qed.
Lemma dsinit_atime o : nr_atime (dsinit o) = L 0 0 \/ nr_atime (dsinit o) = no_atime o.
Proof. unfold dsinit. cbv zeta. match goal with |- context [if ?b then _ else _] => destruct b end; cbn [nr_atime]; auto. Qed.
Lemma dsinit_options_atime e x i d s : no_atime (sgp4init_dsinit_options e x i d s) = sr_atime s.
Proof. reflexivity. Qed.
Lemma copy_dscom_atime d s : sr_atime (sgp4init_copy_dscom d s) = sr_atime s.
Proof. reflexivity. Qed.
Lemma set_atime_kind m i s : sr_atime (set_isimp i (set_method m s)) = sr_atime s.
Proof. reflexivity. Qed.
Lemma init_dpper_atime i s : sr_atime (sgp4init_dpper i s) = sr_atime s.
Proof. reflexivity. Qed.
Lemma deep_atime e c x s : sr_atime s = L 0 0 -> sr_atime (sgp4init_deep e c x s) = L 0 0.
Proof.
  intros H. unfold sgp4init_deep. destruct (fle (L 225 0) (fdiv kTWO_PI (sr_no s))); [|exact H].
  cbv zeta. rewrite copy_dsinit_atime. match goal with |- nr_atime (dsinit ?o) = _ => destruct (dsinit_atime o) as [E|E] end; [exact E|].
  rewrite E, dsinit_options_atime, init_dpper_atime, copy_dscom_atime, set_atime_kind. exact H.
Qed.
Lemma drag_atime a t f s : sr_atime (sgp4init_drag a t f s) = sr_atime s.
Proof. unfold sgp4init_drag. destruct (negb (sr_isimp s =? 1)); reflexivity. Qed.
Lemma elements_atime o s0 : sr_atime (sgp4init_elements o s0) = L 0 0.
Proof.
  unfold sgp4init_elements. cbv zeta.
  set (r := sgp4init_initl o (sgp4init_reset o s0)) in *. clearbody r.
  pose proof (start_atime r o s0) as K. set (s1 := sgp4init_after_initl r _) in *. clearbody s1.
  match goal with |- context [if ?b then _ else _] => destruct b end; [|exact K].
  rewrite drag_atime. apply deep_atime. now rewrite near_atime.
Qed.

Lemma dspace_epoch fuel (o : DspaceOptions F) : so_t o = L 0 0 -> so_atime o = L 0 0 -> exists r, dspace fuel o = Done r.
Proof.
  intros T A. unfold dspace. cbv zeta. destruct (negb (feq (so_irez o) (L 0 0))); [|now eexists].
  assert (E : dspace_loop fuel o (dspace_delt (so_t o)) (dspace_restart o) = Done (dspace_restart o)).
  { assert (M : dspace_more (so_t o) (ig_atime (dspace_restart o)) = false).
    { unfold dspace_restart. rewrite A. destruct SANE as [S1 S2]. rewrite S1. cbn [orb ig_atime]. unfold dspace_more. rewrite T. exact S2. }
    destruct fuel; cbn [dspace_loop]; now rewrite M. }
  rewrite E. cbn [bindO]. now eexists.
Qed.
Lemma sgp4_done fuel s t : (exists em, sgp4_em fuel (set_error 0 (set_t t s)) (sgp4_secular (set_error 0 (set_t t s))) = Done em) ->
  exists s' r, sgp4 fuel s t = Done (s', r).
Proof.
  intros [em E]. unfold sgp4. cbv zeta. rewrite E. cbn [bindO].
  repeat match goal with |- context [if ?b then _ else _] => destruct b; [now repeat eexists|] end.
  match goal with |- context [Done ?p] => destruct p as [s' r] end. now exists s', r.
Qed.
Lemma sgp4_epoch fuel s : sr_atime s = L 0 0 -> exists s' r, sgp4 fuel s (L 0 0) = Done (s', r).
Proof.
  intros A. apply sgp4_done. unfold sgp4_em. cbv zeta.
  match goal with |- context [if ?b then _ else _] => destruct b end; [|now eexists].
  match goal with |- context [dspace fuel ?o] => destruct (dspace_epoch fuel o eq_refl A) as [r R] end. rewrite R. cbn [bindO]. now eexists.
Qed.
Lemma sgp4init_total fuel s o : exists s' r, sgp4init fuel s o = Done (s', r).
Proof.
  unfold sgp4init. cbv zeta. destruct (sgp4_epoch fuel (sgp4init_elements o s) (elements_atime o s)) as (s' & r & E). rewrite E. cbn [bindO].
  destruct r; now repeat eexists.
Qed.
End S.

(** Fuel does not matter: more iterations allowed, same answer. *)
Section Fuel.
Context {F : Type} {FO : FloatOps F} (SANE : zero_sane FO).
Lemma dspace_epoch_fuel n m (o : DspaceOptions F) : so_t o = L 0 0 -> so_atime o = L 0 0 -> dspace n o = dspace m o.
Proof.
  intros T A. unfold dspace. cbv zeta. destruct (negb (feq (so_irez o) (L 0 0))); [|reflexivity].
  assert (E : forall k, dspace_loop k o (dspace_delt (so_t o)) (dspace_restart o) = Done (dspace_restart o)).
  { assert (M : dspace_more (so_t o) (ig_atime (dspace_restart o)) = false).
    { unfold dspace_restart. rewrite A. destruct SANE as [S1 S2]. rewrite S1. cbn [orb ig_atime]. unfold dspace_more. rewrite T. exact S2. }
    intros [|k]; cbn [dspace_loop]; now rewrite M. }
  now rewrite (E n), (E m).
Qed.
Lemma sgp4init_fuel n m (s : Satrec F) o : sgp4init n s o = sgp4init m s o.
Proof.
  unfold sgp4init. cbv zeta. pose proof (elements_atime o s) as A. set (s1 := sgp4init_elements o s) in *. clearbody s1.
  assert (E : sgp4 n s1 (L 0 0) = sgp4 m s1 (L 0 0)); [|now rewrite E].
  unfold sgp4. cbv zeta. assert (E : sgp4_em n (set_error 0 (set_t (L 0 0) s1)) (sgp4_secular (set_error 0 (set_t (L 0 0) s1))) =
    sgp4_em m (set_error 0 (set_t (L 0 0) s1)) (sgp4_secular (set_error 0 (set_t (L 0 0) s1)))); [|now rewrite E].
  unfold sgp4_em. cbv zeta. match goal with |- context [if ?b then _ else _] => destruct b end; [|reflexivity].
  match goal with |- context [dspace n ?o] => now rewrite (dspace_epoch_fuel n m o eq_refl A) end.
Qed.
End Fuel.
