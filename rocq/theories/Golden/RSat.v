(** * A concrete record in exact arithmetic

    A near-circular equatorial orbit of semi-major axis 4 earth radii without drag: used to show that
    the theorems over the reals are about successful propagations that exist. *)
From Coq Require Import ZArith List Bool Reals Lra.
From Flocq Require Import Core.Raux.
From Verif.Model Require Import Float Str Satrec Constants Vec3 Dpper Dspace Sgp4 Io.
From Verif.Inst Require Import RInst RTac.
From Verif.Proofs Require Import Sgp4Errors StateFacts.
From Verif.Spec Require Import Sgp4Spec StateSpec.
Local Open Scope R_scope.

Definition rsat : Satrec R := set_isimp 1 (set_no (kXKE / 8) satrec_zero).

Lemma near_done F (FO : FloatOps F) fuel (s : Satrec F) t : deep s = false -> exists s' r, sgp4 fuel s t = Done (s', r).
Proof.
  intros D. unfold sgp4. cbv zeta. unfold sgp4_em.
  change (method_eqb (sr_method (set_error 0 (set_t t s))) MethodD) with (deep s). rewrite D. cbn [bindO].
  match goal with |- context [if ?b then _ else _] => destruct b end; [eauto|].
  match goal with |- context [if ?b then _ else _] => destruct b end; [eauto|].
  match goal with |- context [sgp4_tail ?a ?b ?c ?d] => destruct (sgp4_tail a b c d) as [s' r] end. eauto.
Qed.

Lemma Rrem_0 y : Rrem 0 y = 0.
Proof. unfold Rrem, Rdiv. rewrite Rmult_0_l, Ztrunc_IZR. ring. Qed.
Lemma Rrem_z x y : x = 0 -> Rrem x y = 0.
Proof. intros ->. apply Rrem_0. Qed.
Lemma Rpow_8 : Rpow 8 (2/3) = 4.
Proof.
  unfold Rpow. rewrite Rlt_bool_true by lra.
  replace 8 with (Rpower 2 3).
  - rewrite Rpower_mult. replace (3 * (2/3)) with 2 by field.
    replace 2 with (INR 2) at 2 by (simpl; ring). rewrite Rpower_pow by lra. simpl; ring.
  - replace 3 with (INR 3) by (simpl; ring). rewrite Rpower_pow by lra. simpl; ring.
Qed.

Lemma rs_a : a_at rsat 0 = 4.
Proof.
  unfold a_at, tempa_at, full_drag. cbn [rsat sr_no sr_isimp set_isimp set_no sr_cc1 satrec_zero]. rewrite kX2O3_R.
  cbn [Z.eqb Pos.eqb negb]. rops.
  replace (kXKE / (kXKE / 8)) with 8 by (rewrite kXKE_R; field; lra). rewrite Rpow_8. ring.
Qed.
Lemma rs_ecc : ecc_at rsat 0 = 0.
Proof.
  unfold ecc_at, drag_ecc, deep, full_drag. cbn [rsat sr_ecco sr_bstar sr_cc4 sr_isimp sr_method set_isimp set_no satrec_zero].
  cbn [Z.eqb Pos.eqb negb method_eqb]. rops. ring.
Qed.
Lemma rs_used : ecc_used rsat 0 = 1 / 1000000.
Proof. unfold ecc_used. rewrite rs_ecc. rops. rewrite Rlt_bool_true by lra. lra. Qed.
Lemma rs_argp : argp_red rsat 0 = 0.
Proof.
  unfold argp_red, argp_at, full_drag. cbn [rsat sr_argpo sr_argpdot sr_isimp set_isimp set_no satrec_zero].
  cbn [Z.eqb Pos.eqb negb]. rops. apply Rrem_z. ring.
Qed.
Lemma rs_node : node_red rsat 0 = 0.
Proof.
  unfold node_red, node_at. cbn [rsat sr_nodeo sr_nodedot sr_nodecf set_isimp set_no satrec_zero].
  rops. apply Rrem_z. ring.
Qed.
Lemma rs_M : M_red rsat 0 = 0.
Proof.
  unfold M_red. rewrite rs_argp, rs_node. unfold M_at, M_df, templ_at, argp_at, node_at, full_drag.
  cbn [rsat sr_no sr_mo sr_mdot sr_argpo sr_argpdot sr_nodeo sr_nodedot sr_nodecf sr_t2cof sr_isimp set_isimp set_no satrec_zero].
  cbn [Z.eqb Pos.eqb negb]. rops. apply Rrem_z. rewrite Rminus_0_r, Rminus_0_r.
  apply Rrem_z. ring.
Qed.
Lemma rs_axn : axn rsat 0 = 1 / 1000000.
Proof. unfold axn. rewrite rs_argp, rs_used. rops. rewrite cos_0. lra. Qed.
Lemma rs_ayn : ayn rsat 0 = 0.
Proof.
  unfold ayn, aycof_at, deep. rewrite rs_argp, rs_used. cbn [rsat sr_aycof sr_method set_isimp set_no satrec_zero method_eqb].
  rops. rewrite sin_0. ring.
Qed.
Lemma rs_u : u_at rsat 0 = 0.
Proof.
  unfold u_at, xlcof_at, deep. rewrite rs_M, rs_argp, rs_node, rs_axn. cbn [rsat sr_xlcof sr_method set_isimp set_no satrec_zero method_eqb].
  rops. apply Rrem_z. ring.
Qed.
Lemma kepler_step n ax ay u c k : kepler_loop (S n) ax ay u c k =
  if fle (L 1 12) (fabs c) then
    kepler_loop n ax ay u (kepler_correction ax ay u (ko_eo1 k))
      (MkKeplerOut (fsin (ko_eo1 k)) (fcos (ko_eo1 k)) (fadd (ko_eo1 k) (kepler_correction ax ay u (ko_eo1 k))))
  else k.
Proof. reflexivity. Qed.
Lemma rs_kepler : kepler rsat 0 = MkKeplerOut 0 1 0.
Proof.
  unfold kepler. rewrite rs_axn, rs_ayn, rs_u. unfold sgp4_kepler. rewrite kepler_step.
  assert (K : kepler_correction (1 / 1000000) 0 0 0 = 0).
  { unfold kepler_correction. rops. rewrite sin_0, cos_0.
    replace ((0 - 0 * 1 + 1 / 1000000 * 0 - 0) / (1 - 1 * (1 / 1000000) - 0 * 0)) with 0 by field.
    rewrite Rabs_R0, Rle_bool_false by lra. reflexivity. }
  cbn [ko_eo1]. rewrite K, kepler_step. rops.
  replace (Rabs (99999 / 10)) with (99999 / 10) by (rewrite Rabs_pos_eq; lra).
  rewrite Rle_bool_true by lra. rewrite Rabs_R0, Rle_bool_false by lra.
  rewrite sin_0, cos_0, Rplus_0_r. reflexivity.
Qed.
Lemma rs_latus : semi_latus rsat 0 = 4 * (1 - 1 / 1000000000000).
Proof. unfold semi_latus. rewrite rs_a, rs_axn, rs_ayn. rops. lra. Qed.
Lemma rs_radius : radius rsat 0 = 4 * (1 - 1 / 1000000).
Proof.
  rewrite radius_osc. unfold osc_radius, radius0, ecosE, con41_at, x1mth2_at, deep.
  rewrite rs_kepler, rs_a, rs_axn, rs_ayn. cbn [ko_sineo1 ko_coseo1].
  cbn [rsat sr_con41 sr_x1mth2 sr_method set_isimp set_no satrec_zero method_eqb]. rops. lra.
Qed.

(** The propagation at the epoch succeeds. *)
Lemma rsat_ok : exists s' r, sgp4 0 rsat 0 = Done (s', Ok r).
Proof.
  destruct (near_done _ _ 0 rsat 0 eq_refl) as (s' & r & H).
  pose proof (sgp4_errors _ _ _ _ _ H) as E. unfold first_error in E.
  assert (B1 : bad_motion rsat = false).
  { unfold bad_motion. cbn [rsat sr_no set_isimp set_no]. rops. apply Rle_bool_false. rewrite kXKE_R. lra. }
  assert (B2 : bad_ecc rsat 0 = false).
  { unfold bad_ecc. rewrite rs_ecc. rops. rewrite Rle_bool_false, Rlt_bool_false by lra. reflexivity. }
  assert (B3 : bad_perturbed_ecc rsat 0 = false) by reflexivity.
  assert (B4 : bad_latus rsat 0 = false).
  { unfold bad_latus. rewrite rs_latus. rops. apply Rlt_bool_false. lra. }
  assert (B5 : decayed rsat 0 = false).
  { unfold decayed. rewrite rs_radius. rops. apply Rlt_bool_false. lra. }
  rewrite B1, B2, B3, B4, B5 in E. destruct E as [v ->]. eauto.
Qed.
