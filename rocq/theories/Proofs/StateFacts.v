(** * The returned state is the one of the theory *)
From Coq Require Import ZArith List Bool.
From Verif.Model Require Import Float Str Satrec Constants Vec3 Dpper Dspace Sgp4.

From Verif.Proofs Require Import Sgp4Errors.
From Verif.Spec Require Import Sgp4Spec StateSpec.
Local Open Scope Z_scope.

Section S.
Context {F : Type} {FO : FloatOps F}.
Implicit Types s : Satrec F.
Implicit Types t : F.

Lemma long_x7thm1 t s x : sr_x7thm1 (sgp4_long (st t s) x) = sr_x7thm1 s.
Proof.
  unfold sgp4_long. cbv zeta. destruct (method_eqb _ _); [|reflexivity].
  match goal with |- context [if flt ?u ?v then _ else _] => destruct (flt u v) end; reflexivity.
Qed.
Lemma incl_x7thm1 t s : sr_x7thm1 (sgp4_incl_consts (sgp4_long (st t s) (incl_at s t)) (incl_at s t)) = x7thm1_at s t.
Proof.
  unfold sgp4_incl_consts, x7thm1_at. rewrite long_method. fold (deep s). destruct (deep s); [reflexivity|].
  apply long_x7thm1.
Qed.
Lemma cosip_spec t s : sgp4_cosip (st t s) (incl_at s t) = fcos (incl_at s t).
Proof.
  unfold sgp4_cosip. change (method_eqb (sr_method (st t s)) MethodD) with (deep s).
  unfold incl_at. destruct (deep s); reflexivity.
Qed.
Lemma sinip_spec t s : sgp4_sinip (st t s) (incl_at s t) = fsin (incl_at s t).
Proof.
  unfold sgp4_sinip. change (method_eqb (sr_method (st t s)) MethodD) with (deep s).
  unfold incl_at. destruct (deep s); reflexivity.
Qed.

Definition qq s t : ShortQ := MkShortQ (radius0 s t)
  (fdiv (fmul (fsqrt (a_at s t)) (esinE s t)) (radius0 s t)) (fdiv (fsqrt (semi_latus s t)) (radius0 s t))
  (beta s t) (fatan2 (sin_u s t) (cos_u s t)) (sin_2u s t) (cos_2u s t) (j2p s t) (j2pp s t).
Lemma shortq_spec s t :
  sgp4_shortq (sgp4_short (kepler s t) (axn s t) (ayn s t) (a_at s t)) (kepler s t) (axn s t) (ayn s t) (a_at s t) = qq s t.
Proof. reflexivity. Qed.

Lemma osc_spec t s :
  sgp4_osc (sgp4_incl_consts (sgp4_long (st t s) (incl_at s t)) (incl_at s t))
    (qq s t) (node_red s t) (incl_at s t) (fsin (incl_at s t)) (fcos (incl_at s t)) (n_at s t)
  = MkOsc (osc_radius s t) (osc_arglat s t) (osc_node s t) (osc_incl s t) (osc_rdot s t) (osc_rfdot s t).
Proof.
  unfold sgp4_osc. cbv zeta. rewrite incl_con41, incl_x1mth2, incl_x7thm1. unfold qq.
  cbn [q_rl q_rdotl q_rvdotl q_betal q_su q_sin2u q_cos2u q_temp1 q_temp2]. reflexivity.
Qed.

Lemma radius_osc s t : radius s t = osc_radius s t.
Proof. reflexivity. Qed.

Lemma posvel_spec a b c d e f : sgp4_posvel (MkOsc a b c d e f) = MkSGP4Result (position_of a b c d) (velocity_of e f b c d).
Proof. reflexivity. Qed.

Lemma nm_spec s t : sgp4_nm (a_at s t) = n_at s t.
Proof. reflexivity. Qed.

Lemma tail_state t s s' r :
  sgp4_tail (st t s) (mn s t) (a_at s t) (sgp4_nm (a_at s t)) = (s', Ok r) ->
  r = MkSGP4Result (position_at s t) (velocity_at s t) /\ decayed s t = false.
Proof.
  unfold sgp4_tail. cbv zeta. rewrite bad_ep_spec, xincp_spec, kepler_in_spec. cbn [ki_axnl ki_aynl ki_u].
  rewrite kepler_def, pl_def, latus_def.
  destruct (bad_perturbed_ecc s t); [discriminate|].
  destruct (bad_latus s t); [discriminate|].
  rewrite cosip_spec, sinip_spec, nm_spec, shortq_spec. change (mn_nodep (mn s t)) with (node_red s t).
  rewrite osc_spec. cbn [os_mrt]. rewrite <- radius_osc, decayed_def.
  destruct (decayed s t); [discriminate|].
  intros H. injection H as _ <-. split; [apply posvel_spec|reflexivity].
Qed.

Lemma sgp4_state fuel s t s' r : sgp4 fuel s t = Done (s', Ok r) ->
  r = MkSGP4Result (position_at s t) (velocity_at s t) /\ decayed s t = false.
Proof.
  unfold sgp4. fold (st t s). cbv zeta. rewrite am_spec.
  destruct (sgp4_em fuel (st t s) (sgp4_secular (st t s))) as [em| |] eqn:E; cbn [bindO]; try discriminate.
  apply em_spec in E.
  assert (E2 : fsub em (se_tempe (sgp4_secular (st t s))) = ecc_at s t).
  { rewrite E, secular_spec. reflexivity. }
  rewrite E2, mean_def.
  rewrite bad_motion_def, bad_ecc_def.
  destruct (bad_motion s); [discriminate|].
  destruct (bad_ecc s t); [discriminate|].
  intros H. injection H as H. exact (tail_state _ _ _ _ H).
Qed.
End S.
