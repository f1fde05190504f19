(** * What the drag term reaches *)
From Coq Require Import ZArith List Bool Reals Lra.
From Flocq Require Import Core.Raux.
From Verif.Model Require Import Float Str Satrec Constants Vec3 Initl Dscom Dpper Dsinit Dspace Sgp4 Sgp4init.
From Verif.Inst Require Import RInst RTac.
From Verif.Proofs Require Import Sgp4Errors StateFacts InitFrame InitKind.
From Verif.Spec Require Import Sgp4Spec StateSpec.
Import ListNotations.
Local Open Scope Z_scope.

(** option set with another drag term *)
Definition with_bstar {F} (b : F) (o : SGP4InitOptions F) : SGP4InitOptions F :=
  MkSGP4InitOptions (in_opsmode o) (in_satn o) (in_epoch o) b (in_xecco o) (in_xargpo o) (in_xinclo o)
    (in_xmo o) (in_xno o) (in_xnodeo o).

Section S.
Context {F : Type} {FO : FloatOps F}.
Implicit Types s u : Satrec F.

(** [s] with every field computed from the drag term set to 0 *)
Definition undrag s : Satrec F :=
    MkSatrec (sr_name s) (sr_init s) (sr_operationmode s) (sr_error s) (sr_satnum s) (sr_epochyr s)
    (sr_epochdays s) (sr_ndot s) (sr_nddot s) (L 0 0) (sr_inclo s) (sr_nodeo s) (sr_ecco s) (sr_mo s) (sr_no
    s) (sr_a s) (sr_argpo s) (sr_alta s) (sr_altp s) (sr_jdsatepoch s) (sr_isimp s) (sr_method s) (sr_aycof s)
    (sr_con41 s) (L 0 0) (sr_cc4 s) (sr_cc5 s) (L 0 0) (L 0 0) (L 0 0) (sr_delmo s) (sr_eta s) (sr_argpdot s)
    (L 0 0) (sr_sinmao s) (sr_t s) (L 0 0) (L 0 0) (L 0 0) (L 0 0) (sr_x1mth2 s) (sr_x7thm1 s) (sr_mdot s)
    (sr_nodedot s) (sr_xlcof s) (L 0 0) (L 0 0) (sr_irez s) (sr_d2201 s) (sr_d2211 s) (sr_d3210 s) (sr_d3222
    s) (sr_d4410 s) (sr_d4422 s) (sr_d5220 s) (sr_d5232 s) (sr_d5421 s) (sr_d5433 s) (sr_dedt s) (sr_del1 s)
    (sr_del2 s) (sr_del3 s) (sr_didt s) (sr_dmdt s) (sr_dnodt s) (sr_domdt s) (sr_e3 s) (sr_ee2 s) (sr_peo s)
    (sr_pgho s) (sr_pho s) (sr_pinco s) (sr_plo s) (sr_se2 s) (sr_se3 s) (sr_sgh2 s) (sr_sgh3 s) (sr_sgh4 s)
    (sr_sh2 s) (sr_sh3 s) (sr_si2 s) (sr_si3 s) (sr_sl2 s) (sr_sl3 s) (sr_sl4 s) (sr_gsto s) (sr_xfact s)
    (sr_xgh2 s) (sr_xgh3 s) (sr_xgh4 s) (sr_xh2 s) (sr_xh3 s) (sr_xi2 s) (sr_xi3 s) (sr_xl2 s) (sr_xl3 s)
    (sr_xl4 s) (sr_xlamo s) (sr_zmol s) (sr_zmos s) (sr_atime s) (sr_xli s) (sr_xni s).

Lemma initl_bstar b o s : sgp4init_initl (with_bstar b o) (sgp4init_reset (with_bstar b o) s) = sgp4init_initl o (sgp4init_reset o s).
Proof. reflexivity. Qed.
Lemma start_bstar b r o s : undrag (sgp4init_after_initl r (sgp4init_reset (with_bstar b o) s)) =
  undrag (sgp4init_after_initl r (sgp4init_reset o s)).
Proof. reflexivity. Qed.
Lemma near_undrag r s : undrag (ne_s (sgp4init_near r (undrag s))) = undrag (ne_s (sgp4init_near r s)).
Proof. reflexivity. Qed.
Lemma near_xpidot_undrag r s : ne_xpidot (sgp4init_near r (undrag s)) = ne_xpidot (sgp4init_near r s).
Proof. reflexivity. Qed.
Lemma set_md_undrag m i s : set_isimp i (set_method m (undrag s)) = undrag (set_isimp i (set_method m s)).
Proof. reflexivity. Qed.
Lemma inclo_undrag s : sr_inclo (undrag s) = sr_inclo s.
Proof. reflexivity. Qed.
Lemma no_undrag s : sr_no (undrag s) = sr_no s.
Proof. reflexivity. Qed.
Lemma dscom_undrag e s : sgp4init_dscom e (undrag s) = sgp4init_dscom e s.
Proof. reflexivity. Qed.
Lemma copy_dscom_undrag d s : sgp4init_copy_dscom d (undrag s) = undrag (sgp4init_copy_dscom d s).
Proof. reflexivity. Qed.
Lemma dpper_undrag s o : dpper (undrag s) o = dpper s o.
Proof. reflexivity. Qed.
Lemma init_dpper_undrag i s : sgp4init_dpper i (undrag s) = undrag (sgp4init_dpper i s).
Proof. unfold sgp4init_dpper. cbv zeta. rewrite dpper_undrag. reflexivity. Qed.
Lemma dsinit_options_undrag e x i d s :
  sgp4init_dsinit_options e x i d (undrag s) = sgp4init_dsinit_options e x i d s.
Proof. reflexivity. Qed.
Lemma copy_dsinit_undrag r s : sgp4init_copy_dsinit r (undrag s) = undrag (sgp4init_copy_dsinit r s).
Proof. reflexivity. Qed.
Lemma deep_undrag e c x s : sgp4init_deep e c x (undrag s) = undrag (sgp4init_deep e c x s).
Proof.
  unfold sgp4init_deep. rewrite no_undrag. destruct (fle (L 225 0) (fdiv kTWO_PI (sr_no s))); [|reflexivity].
  cbv zeta. rewrite set_md_undrag, inclo_undrag, dscom_undrag, copy_dscom_undrag,
    init_dpper_undrag, dsinit_options_undrag, copy_dsinit_undrag. reflexivity.
Qed.
Lemma drag_undrag a t f s : undrag (sgp4init_drag a t f s) = undrag s.
Proof. unfold sgp4init_drag. destruct (negb (sr_isimp s =? 1)); reflexivity. Qed.

Lemma elements_undrag b o s : undrag (sgp4init_elements (with_bstar b o) s) = undrag (sgp4init_elements o s).
Proof.
  unfold sgp4init_elements. cbv zeta. rewrite initl_bstar.
  set (r := sgp4init_initl o (sgp4init_reset o s)). clearbody r.
  pose proof (start_bstar b r o s) as K.
  set (s1 := sgp4init_after_initl r (sgp4init_reset (with_bstar b o) s)) in *.
  set (s2 := sgp4init_after_initl r (sgp4init_reset o s)) in *. clearbody s1 s2.
  rewrite <- (no_undrag s1), <- (no_undrag s2), K.
  match goal with |- context [if ?b then _ else _] => destruct b end; [|exact K].
  rewrite !drag_undrag, <- !deep_undrag, <- (near_undrag r s1), <- (near_undrag r s2),
    <- (near_xpidot_undrag r s1), <- (near_xpidot_undrag r s2), K. reflexivity.
Qed.

Definition econsts s := (sr_eta s, sr_mo s, sr_delmo s, sr_sinmao s).
Lemma econsts_near r s : exists eta, let d := fadd (L 1 0) (fmul eta (fcos (sr_mo s))) in
  econsts (ne_s (sgp4init_near r s)) = (eta, sr_mo s, fmul (fmul d d) d, fsin (sr_mo s)).
Proof. eexists. cbv zeta. unfold econsts. apply f_equal2; [apply f_equal2; [apply f_equal2|]|]; reflexivity. Qed.
Lemma econsts_copy_dsinit r s : econsts (sgp4init_copy_dsinit r s) = econsts s.
Proof. reflexivity. Qed.
Lemma econsts_copy_dscom d s : econsts (sgp4init_copy_dscom d s) = econsts s.
Proof. reflexivity. Qed.
Lemma econsts_set m i s : econsts (set_isimp i (set_method m s)) = econsts s.
Proof. reflexivity. Qed.
Lemma econsts_deep e c x s : sr_init s = InitY -> econsts (sgp4init_deep e c x s) = econsts s.
Proof.
  intros HY. unfold sgp4init_deep. destruct (fle (L 225 0) (fdiv kTWO_PI (sr_no s))); [|reflexivity].
  cbv zeta. rewrite init_dpper_id by (rewrite copy_dscom_init; exact HY).
  now rewrite econsts_copy_dsinit, econsts_copy_dscom, econsts_set.
Qed.
Lemma econsts_drag a t f s : econsts (sgp4init_drag a t f s) = econsts s.
Proof. unfold sgp4init_drag. destruct (negb (sr_isimp s =? 1)); reflexivity. Qed.

Lemma elements_econsts o s0 : let s := sgp4init_elements o s0 in
  (exists eta, let d := fadd (L 1 0) (fmul eta (fcos (sr_mo s))) in
     sr_eta s = eta /\ sr_delmo s = fmul (fmul d d) d /\ sr_sinmao s = fsin (sr_mo s)) \/
  fle (L 0 0) (sr_no s) = false.
Proof.
  cbv zeta. unfold sgp4init_elements. cbv zeta.
  set (r := sgp4init_initl o (sgp4init_reset o s0)). clearbody r.
  pose proof (start_init r o s0) as HY.
  set (s1 := sgp4init_after_initl r _) in *. clearbody s1.
  destruct (fle (L 0 0) (ir_omeosq r) || fle (L 0 0) (sr_no s1)) eqn:G.
  - left. destruct (econsts_near r s1) as [eta E]. exists eta. cbv zeta in *.
    match goal with |- context [sgp4init_drag ?a ?b ?c ?d] => pose proof (econsts_drag a b c d) as K; set (s2 := sgp4init_drag a b c d) in * end.
    clearbody s2. rewrite econsts_deep in K by (rewrite near_init; exact HY). rewrite E in K.
    unfold econsts in K. injection K as K1 K2 K3 K4. rewrite K1, K2, K3, K4. auto.
  - right. apply orb_false_iff in G. tauto.
Qed.
End S.

(** ** At t = 0 in exact arithmetic only the drag-free part of the record matters *)
Local Open Scope R_scope.
Section R.
Variable s : Satrec R.
Notation d3 := ((1 + sr_eta s * cos (sr_mo s)) * (1 + sr_eta s * cos (sr_mo s)) * (1 + sr_eta s * cos (sr_mo s))).
Hypothesis H : full_drag s = false \/ (sr_delmo s = d3 /\ sr_sinmao s = sin (sr_mo s)).
Notation v := (undrag s).

Lemma fd_u : full_drag v = full_drag s. Proof. reflexivity. Qed.
Lemma dp_u : deep v = deep s. Proof. reflexivity. Qed.
Lemma shift_0 : full_drag s = true -> shift s 0 = 0.
Proof.
  intros G. destruct H as [K|[K _]]; [congruence|]. unfold shift, M_df. cbv zeta. rops.
  replace (sr_mo s + sr_mdot s * 0) with (sr_mo s) by ring. rewrite K. ring.
Qed.
Lemma shift_u : shift v 0 = 0.
Proof. unfold shift. cbv zeta. cbn [undrag sr_omgcof sr_xmcof]. rops. ring. Qed.
Lemma M_0 : M_at s 0 = sr_mo s.
Proof.
  pose proof shift_0 as S0. unfold M_at. destruct (full_drag s); [rewrite S0 by reflexivity|]; unfold M_df; rops; ring.
Qed.
Lemma M_u : M_at v 0 = sr_mo s.
Proof. unfold M_at. rewrite fd_u, shift_u. unfold M_df. destruct (full_drag s); rops; cbn [undrag sr_mo sr_mdot]; ring. Qed.
Lemma argp_0 : argp_at s 0 = argp_at v 0.
Proof.
  pose proof shift_0 as S0. unfold argp_at. cbv zeta. rewrite fd_u, shift_u.
  destruct (full_drag s); [rewrite S0 by reflexivity|]; reflexivity.
Qed.
Lemma node_0 : node_at s 0 = node_at v 0.
Proof. unfold node_at. cbn [undrag sr_nodeo sr_nodedot sr_nodecf]. rops. ring. Qed.
Lemma drag_ecc_0 : drag_ecc s 0 = 0.
Proof.
  pose proof M_0 as E. pose proof H as K. unfold drag_ecc. cbv zeta. rewrite E.
  destruct (full_drag s); [|rops; ring]. destruct K as [K|[_ K]]; [discriminate|]. rewrite K. rops. ring.
Qed.
Lemma drag_ecc_u : drag_ecc v 0 = 0.
Proof. unfold drag_ecc. cbv zeta. rewrite fd_u. destruct (full_drag s); cbn [undrag sr_bstar]; rops; ring. Qed.
Lemma ecc_0 : ecc_at s 0 = ecc_at v 0.
Proof. unfold ecc_at. rewrite drag_ecc_0, drag_ecc_u. reflexivity. Qed.
Lemma used_0 : ecc_used s 0 = ecc_used v 0.
Proof. unfold ecc_used. now rewrite ecc_0. Qed.
Lemma tempa_0 : tempa_at s 0 = 1.
Proof. unfold tempa_at. cbv zeta. destruct (full_drag s); rops; ring. Qed.
Lemma tempa_u : tempa_at v 0 = 1.
Proof. unfold tempa_at. cbv zeta. destruct (full_drag v); rops; ring. Qed.
Lemma templ_0 : templ_at s 0 = 0.
Proof. unfold templ_at. cbv zeta. destruct (full_drag s); rops; ring. Qed.
Lemma templ_u : templ_at v 0 = 0.
Proof. unfold templ_at. cbv zeta. destruct (full_drag v); rops; ring. Qed.
Lemma a_0 : a_at s 0 = a_at v 0.
Proof. unfold a_at. now rewrite tempa_0, tempa_u. Qed.
Lemma n_0 : n_at s 0 = n_at v 0.
Proof. unfold n_at. now rewrite a_0. Qed.
Lemma nr_0 : node_red s 0 = node_red v 0.
Proof. unfold node_red. now rewrite node_0. Qed.
Lemma ar_0 : argp_red s 0 = argp_red v 0.
Proof. unfold argp_red. now rewrite argp_0. Qed.
Lemma Mr_0 : M_red s 0 = M_red v 0.
Proof. unfold M_red. rewrite M_0, M_u, templ_0, templ_u, nr_0, ar_0, argp_0, node_0. reflexivity. Qed.
Lemma set_t_undrag : set_t 0 v = undrag (set_t 0 s).
Proof. reflexivity. Qed.
Lemma per_0 : periodics s 0 = periodics v 0.
Proof.
  unfold periodics. rewrite used_0, nr_0, ar_0, Mr_0, set_t_undrag, dpper_undrag. reflexivity.
Qed.
Lemma incl_0 : incl_at s 0 = incl_at v 0.
Proof. unfold incl_at. rewrite per_0. reflexivity. Qed.
Lemma ayc_0 : aycof_at s 0 = aycof_at v 0.
Proof. unfold aycof_at. rewrite incl_0. reflexivity. Qed.
Lemma xlc_0 : xlcof_at s 0 = xlcof_at v 0.
Proof. unfold xlcof_at. rewrite incl_0. reflexivity. Qed.
Lemma pinv_0 : pinv s 0 = pinv v 0.
Proof. unfold pinv. now rewrite a_0, used_0. Qed.
Lemma axn_0 : axn s 0 = axn v 0.
Proof. unfold axn. now rewrite used_0, ar_0. Qed.
Lemma ayn_0 : ayn s 0 = ayn v 0.
Proof. unfold ayn. now rewrite used_0, ar_0, pinv_0, ayc_0. Qed.
Lemma u_0 : u_at s 0 = u_at v 0.
Proof. unfold u_at. now rewrite Mr_0, ar_0, nr_0, pinv_0, xlc_0, axn_0. Qed.
Lemma kepler_0 : kepler s 0 = kepler v 0.
Proof. unfold kepler. now rewrite axn_0, ayn_0, u_0. Qed.
Lemma latus_0 : semi_latus s 0 = semi_latus v 0.
Proof. unfold semi_latus. now rewrite a_0, axn_0, ayn_0. Qed.
Lemma con41_0 : con41_at s 0 = con41_at v 0.
Proof. unfold con41_at. rewrite incl_0. reflexivity. Qed.
Lemma x1_0 : x1mth2_at s 0 = x1mth2_at v 0.
Proof. unfold x1mth2_at. rewrite incl_0. reflexivity. Qed.
Lemma x7_0 : x7thm1_at s 0 = x7thm1_at v 0.
Proof. unfold x7thm1_at. rewrite incl_0. reflexivity. Qed.
Lemma ecosE_0 : ecosE s 0 = ecosE v 0.
Proof. unfold ecosE. now rewrite axn_0, ayn_0, kepler_0. Qed.
Lemma esinE_0 : esinE s 0 = esinE v 0.
Proof. unfold esinE. now rewrite axn_0, ayn_0, kepler_0. Qed.
Lemma radius0_0 : radius0 s 0 = radius0 v 0.
Proof. unfold radius0. now rewrite a_0, ecosE_0. Qed.
Lemma beta_0 : beta s 0 = beta v 0.
Proof. unfold beta. now rewrite axn_0, ayn_0. Qed.
Lemma sinu_0 : sin_u s 0 = sin_u v 0.
Proof. unfold sin_u. now rewrite a_0, radius0_0, kepler_0, axn_0, ayn_0, esinE_0, beta_0. Qed.
Lemma cosu_0 : cos_u s 0 = cos_u v 0.
Proof. unfold cos_u. now rewrite a_0, radius0_0, kepler_0, axn_0, ayn_0, esinE_0, beta_0. Qed.
Lemma sin2u_0 : sin_2u s 0 = sin_2u v 0.
Proof. unfold sin_2u. now rewrite sinu_0, cosu_0. Qed.
Lemma cos2u_0 : cos_2u s 0 = cos_2u v 0.
Proof. unfold cos_2u. now rewrite sinu_0. Qed.
Lemma j2p_0 : j2p s 0 = j2p v 0.
Proof. unfold j2p. now rewrite latus_0. Qed.
Lemma j2pp_0 : j2pp s 0 = j2pp v 0.
Proof. unfold j2pp. now rewrite j2p_0, latus_0. Qed.
Lemma rad_0 : osc_radius s 0 = osc_radius v 0.
Proof. unfold osc_radius. now rewrite radius0_0, j2pp_0, j2p_0, beta_0, con41_0, x1_0, cos2u_0. Qed.
Lemma lat_0 : osc_arglat s 0 = osc_arglat v 0.
Proof. unfold osc_arglat. now rewrite sinu_0, cosu_0, j2pp_0, x7_0, sin2u_0. Qed.
Lemma onode_0 : osc_node s 0 = osc_node v 0.
Proof. unfold osc_node. now rewrite nr_0, j2pp_0, incl_0, sin2u_0. Qed.
Lemma oincl_0 : osc_incl s 0 = osc_incl v 0.
Proof. unfold osc_incl. now rewrite j2pp_0, incl_0, cos2u_0. Qed.
Lemma rdot_0 : osc_rdot s 0 = osc_rdot v 0.
Proof. unfold osc_rdot. now rewrite a_0, esinE_0, radius0_0, n_0, j2p_0, x1_0, sin2u_0. Qed.
Lemma rfdot_0 : osc_rfdot s 0 = osc_rfdot v 0.
Proof. unfold osc_rfdot. now rewrite latus_0, radius0_0, n_0, j2p_0, x1_0, cos2u_0, con41_0. Qed.
Lemma pos_0 : position_at s 0 = position_at v 0.
Proof. unfold position_at. now rewrite rad_0, lat_0, onode_0, oincl_0. Qed.
Lemma vel_0 : velocity_at s 0 = velocity_at v 0.
Proof. unfold velocity_at. now rewrite rdot_0, rfdot_0, lat_0, onode_0, oincl_0. Qed.
Lemma first_0 : first_error s 0 = first_error v 0.
Proof.
  unfold first_error, bad_ecc, bad_perturbed_ecc, bad_latus, decayed. rewrite !radius_osc, rad_0, latus_0, per_0, ecc_0.
  reflexivity.
Qed.
End R.

Definition quiet (s : Satrec R) : Prop := 
  full_drag s = false \/
  (sr_delmo s = ((1 + sr_eta s * cos (sr_mo s)) * (1 + sr_eta s * cos (sr_mo s)) * (1 + sr_eta s * cos (sr_mo s))) /\
   sr_sinmao s = sin (sr_mo s)) \/
  bad_motion s = true.

Lemma elements_quiet o s0 : quiet (sgp4init_elements o s0).
Proof.
  destruct (elements_econsts o s0) as [(eta & A & B & C)|A]; cbv zeta in *.
  - right; left. rewrite A, B, C. split; reflexivity.
  - right; right. unfold bad_motion. rops_in A. rops. apply Rle_bool_iff_f in A. apply Rle_bool_true. lra.
Qed.

Lemma epoch_result fuel (s s' : Satrec R) r : quiet s -> sgp4 fuel s 0 = Done (s', r) ->
  r = match first_error (undrag s) 0 with
      | Some e => Err e
      | None => Ok (MkSGP4Result (position_at (undrag s) 0) (velocity_at (undrag s) 0))
      end.
Proof.
  intros Q G. pose proof (sgp4_errors _ _ _ _ _ G) as E.
  destruct Q as [Q|[Q|Q]].
  1,2: rewrite first_0 in E by (first [left; exact Q | right; exact Q]);
    destruct (first_error (undrag s) 0); [exact E|]; destruct E as [v ->];
    apply sgp4_state in G; destruct G as [-> _]; rewrite pos_0, vel_0 by (first [left; exact Q | right; exact Q]); reflexivity.
  assert (Q2 : bad_motion (undrag s) = true) by exact Q.
  unfold first_error in *. rewrite Q in E. rewrite Q2. exact E.
Qed.
