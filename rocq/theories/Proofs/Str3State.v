(** * Propagation computes the state of the published theory (exact arithmetic) *)
From Coq Require Import ZArith List Bool Reals Lra Psatz.
From Flocq Require Import Core.Raux.
From Verif.Model Require Import Float Str Satrec Constants Vec3 Dpper Sgp4 Sgp4init.
From Verif.Inst Require Import RInst RTac Atan2.
From Verif.Proofs Require Import Sgp4Errors StateFacts KeplerFacts Str3Init.
From Verif.Spec Require Import Vectors3 KeplerSpec Sgp4Spec StateSpec Str3Api.
From Verif.Spec Require Str3.
Local Open Scope R_scope.

(** ** Angles up to whole turns *)
Definition same_angle (x y : R) : Prop := exists k : Z, x = y + 2 * PI * IZR k.
Lemma sa_refl x : same_angle x x. Proof. exists 0%Z. lra. Qed.
Lemma sa_trans x y z : same_angle x y -> same_angle y z -> same_angle x z.
Proof. intros [a ->] [b ->]. exists (a + b)%Z. rewrite plus_IZR. ring. Qed.
Lemma sa_plus x y x' y' : same_angle x x' -> same_angle y y' -> same_angle (x + y) (x' + y').
Proof. intros [a ->] [b ->]. exists (a + b)%Z. rewrite plus_IZR. ring. Qed.
Lemma sa_opp x y : same_angle x y -> same_angle (- x) (- y).
Proof. intros [a ->]. exists (- a)%Z. rewrite opp_IZR. ring. Qed.
Lemma sa_minus x y x' y' : same_angle x x' -> same_angle y y' -> same_angle (x - y) (x' - y').
Proof. intros A B. apply sa_plus; [exact A|apply sa_opp, B]. Qed.
Lemma sa_rem x : same_angle (Rrem x (2 * PI)) x.
Proof. exists (- Ztrunc (x / (2 * PI)))%Z. rewrite opp_IZR. unfold Rrem. ring. Qed.
Lemma sa_sin x y : same_angle x y -> sin x = sin y. Proof. intros [k ->]. apply sin_turns. Qed.
Lemma sa_cos x y : same_angle x y -> cos x = cos y. Proof. intros [k ->]. apply cos_turns. Qed.

(** the solver commutes with whole turns *)
Lemma newton_turn ax ay u E k : newton ax ay (u + 2 * PI * IZR k) (E + 2 * PI * IZR k) = newton ax ay u E.
Proof. unfold newton. rops. rewrite sin_turns, cos_turns. f_equal. ring. Qed.
Lemma guess_turn ax ay u k j : guess ax ay (u + 2 * PI * IZR k) j = guess ax ay u j + 2 * PI * IZR k.
Proof. induction j as [|j IH]; cbn [guess]; [reflexivity|]. rewrite IH, newton_turn. rops. ring. Qed.
Lemma corr_turn ax ay u k j : corr ax ay (u + 2 * PI * IZR k) j = corr ax ay u j.
Proof. unfold corr. now rewrite guess_turn, newton_turn. Qed.
Lemma kepler_out ax ay u U : same_angle u U -> exists E, kepler_angle ax ay U E /\
  ko_sineo1 (sgp4_kepler ax ay u) = sin E /\ ko_coseo1 (sgp4_kepler ax ay u) = cos E.
Proof.
  intros [k ->]. destruct (kepler_trace ax ay (U + 2 * PI * IZR k) large_R) as (j & J1 & J2 & J3 & J4).
  exists (guess ax ay U j). rewrite J2. unfold out. cbn [ko_sineo1 ko_coseo1]. rewrite guess_turn. rops.
  rewrite sin_turns, cos_turns. split; [|now split]. exists j. split; [exact J1|]. split; [reflexivity|].
  setoid_rewrite corr_turn in J3. rewrite corr_turn in J4. split.
  - intros i Hi. apply J3 in Hi. unfold large in Hi. rops_in Hi. now apply Rle_bool_iff in Hi.
  - destruct J4 as [->|J4]; [now left|right]. unfold large in J4. rops_in J4. now apply Rle_bool_iff_f in J4.
Qed.

Lemma pow15 x : 0 < x -> Rpow x (15 / 10) = sqrt x ^ 3.
Proof.
  intros H. unfold Rpow. rewrite Rlt_bool_true by exact H. rewrite <- Rpower_sqrt by exact H.
  rewrite <- Rpower_pow by apply exp_pos. rewrite Rpower_mult. f_equal. simpl. field.
Qed.

(** position and velocity depend on the node and argument of latitude only as angles *)
Lemma uk_unit (ax ay p q b : R) : p * p + q * q = 1 -> 0 <= b -> b * b = 1 - (ax ^ 2 + ay ^ 2) ->
  let m := (ax * q - ay * p) / (1 + b) in
  (q - ay - ax * m) ^ 2 + (p - ax + ay * m) ^ 2 = (1 - (ax * p + ay * q)) ^ 2.
Proof.
  intros H B B2 m. assert (M : m * (1 + b) = ax * q - ay * p) by (unfold m; field; lra). clearbody m.
  assert (CS : (ax * p + ay * q) ^ 2 + (m * (1 + b)) ^ 2 = (ax ^ 2 + ay ^ 2) * (p * p + q * q)) by (rewrite M; ring).
  rewrite H in CS.
  assert (LHS : (q - ay - ax * m) ^ 2 + (p - ax + ay * m) ^ 2
    = (p * p + q * q) - 2 * (ax * p + ay * q) + (ax ^ 2 + ay ^ 2) + m ^ 2 * (ax ^ 2 + ay ^ 2) - 2 * m * (ax * q - ay * p)) by ring.
  rewrite LHS, <- M, H.
  assert (X : m ^ 2 * (ax ^ 2 + ay ^ 2) = m ^ 2 * (1 - b * b)) by (rewrite B2; ring). rewrite X.
  assert (Y : ax ^ 2 + ay ^ 2 = (ax * p + ay * q) ^ 2 + (m * (1 + b)) ^ 2) by lra. rewrite Y. ring.
Qed.

Section State.
Variables (s : Satrec R) (el : Str3.Elements) (t : R).
Hypothesis HO : orbital el.
Hypothesis HC : coefs_of s = coefs_T el.
Hypothesis HE : sr_no s = Str3.n el /\ sr_ecco s = Str3.e0 el /\ sr_inclo s = Str3.i0 el /\ sr_mo s = Str3.M0 el /\
  sr_argpo s = Str3.w0 el /\ sr_nodeo s = Str3.node0 el /\ sr_bstar s = Str3.Bstar el.
Hypothesis HH : full_drag s = true -> high_of s = high_T el.
Hypothesis HI : deep s = false -> incl_of s = incl_T' el.
Notation full := (full_drag s).
Definition de_of : R := if deep s then sr_dedt s * t else 0.
Notation de := de_of.
Notation i := (incl_at s t).

Lemma M_df_T : M_df s t = Str3.M_DF el t.
Proof.
  unfold M_df, Str3.M_DF. destruct HE as (_ & _ & _ & -> & _). pose proof (f_equal k_mdot HC) as E. cbn in E. rewrite E. reflexivity.
Qed.
Lemma shift_T : shift s t = Str3.delta_w el t + Str3.delta_M el t.
Proof.
  unfold shift. cbv zeta. rewrite M_df_T.
  pose proof (f_equal k_eta HC) as E1. pose proof (f_equal k_omgcof HC) as E2. pose proof (f_equal k_xmcof HC) as E3.
  pose proof (f_equal k_delmo HC) as E4. cbn [k_eta k_omgcof k_xmcof k_delmo coefs_of coefs_T] in E1, E2, E3, E4. rewrite E1, E2, E3, E4. rops.
  unfold Str3.delta_w, Str3.delta_M, Str3.eccentric. destruct (Rlt_dec _ _); ring.
Qed.
Lemma M_T : M_at s t = Str3.Mp el full t.
Proof. unfold M_at, Str3.Mp, Str3.if_full. rewrite shift_T, M_df_T. rops. destruct full; ring. Qed.
Lemma w_T : argp_at s t = Str3.w el full t.
Proof.
  unfold argp_at, Str3.w, Str3.if_full, Str3.w_DF. cbv zeta. rewrite shift_T. rops.
  destruct HE as (_ & _ & _ & _ & -> & _). pose proof (f_equal k_argpdot HC) as E. cbn [k_argpdot coefs_of coefs_T] in E. rewrite E.
  destruct full; ring.
Qed.
Lemma node_T : node_at s t = Str3.node el t.
Proof.
  unfold node_at, Str3.node, Str3.node_DF. rops. destruct HE as (_ & _ & _ & _ & _ & -> & _).
  pose proof (f_equal k_nodedot HC) as E. pose proof (f_equal k_nodecf HC) as E2. cbn [k_nodedot k_nodecf coefs_of coefs_T] in E, E2.
  rewrite E, E2. unfold Rdiv. generalize (/ (Str3.a el ^ 2 * Str3.beta0 el ^ 2)). intros z. field.
Qed.
Lemma ecc_T : ecc_at s t = Str3.e_unclamped el full t de.
Proof.
  unfold ecc_at, drag_ecc, Str3.e_unclamped, Str3.if_full, de_of. cbv zeta. rewrite M_T. rops.
  destruct HE as (_ & -> & _ & _ & _ & _ & ->).
  pose proof (f_equal k_cc4 HC) as E1. pose proof (f_equal k_cc5 HC) as E2. pose proof (f_equal k_sinmao HC) as E3.
  cbn [k_cc4 k_cc5 k_sinmao coefs_of coefs_T] in E1, E2, E3. rewrite E1, E2, E3. destruct (deep s), full; ring.
Qed.
Lemma e_T : ecc_used s t = Str3.e el full t de.
Proof.
  unfold ecc_used, Str3.e. rewrite ecc_T. rops. case Rlt_bool_spec; intros H.
  - rewrite Rmax_right; lra.
  - rewrite Rmax_left; lra.
Qed.
Lemma a_T : a_at s t = Str3.at_ el full t.
Proof.
  unfold a_at, tempa_at, Str3.at_, Str3.if_full. cbv zeta. rops. rewrite kX2O3_R, xke_T. destruct HE as (-> & _).
  rewrite pow23 by (apply Rdiv_lt_0_compat; [apply ke_pos|apply HO]). fold (Str3.a el).
  pose proof (f_equal k_cc1 HC) as E1. cbn [k_cc1 coefs_of coefs_T] in E1. rewrite E1.
  destruct full; [|ring]. pose proof (HH eq_refl) as K. unfold high_of, high_T in K. injection K as -> -> -> _ _ _. ring.
Qed.
Lemma templ_T : sr_no s * templ_at s t = Str3.Lt el full t - Str3.Mp el full t - Str3.w el full t - Str3.node el t.
Proof.
  unfold templ_at, Str3.Lt, Str3.if_full. cbv zeta. rops. destruct HE as (-> & _).
  pose proof (f_equal k_t2cof HC) as E1. cbn [k_t2cof coefs_of coefs_T] in E1. rewrite E1.
  destruct full; [|ring]. pose proof (HH eq_refl) as K. unfold high_of, high_T in K. injection K as _ _ _ -> -> ->. field.
Qed.
Lemma inclk_T : deep s = false -> i = Str3.i0 el.
Proof. intros D. unfold incl_at. rewrite D. apply HE. Qed.
Lemma ayc_T : aycof_at s t = ayc i.
Proof.
  unfold aycof_at. destruct (deep s) eqn:D.
  - rewrite J32_T. rops. unfold ayc, Str3.A30, Str3.k2. unfold Str3.J2. field.
  - rewrite inclk_T by exact D. exact (f_equal k_aycof (HI eq_refl)).
Qed.
Lemma xlc_T : xlcof_at s t = xlc i.
Proof.
  unfold xlcof_at. destruct (deep s) eqn:D.
  - cbv zeta. rewrite J32_T. rops. unfold xlc, Str3.A30, Str3.k2, Str3.one_plus_theta. rewrite (Rplus_comm (cos i) 1).
    assert (J : Str3.J2 <> 0) by (unfold Str3.J2; lra).
    case Rlt_bool_spec; intros G; destruct (Rlt_dec _ _); try lra.
    + field. split; [|exact J]. intros Z. rewrite Z, Rabs_R0 in G. lra.
    + field. exact J.
  - rewrite inclk_T by exact D. exact (f_equal k_xlcof (HI eq_refl)).
Qed.
Lemma con_T : con41_at s t = 3 * cos i ^ 2 - 1 /\ x1mth2_at s t = 1 - cos i ^ 2 /\ x7thm1_at s t = 7 * cos i ^ 2 - 1.
Proof.
  unfold con41_at, x1mth2_at, x7thm1_at. destruct (deep s) eqn:D.
  - cbv zeta. rops. repeat split; ring.
  - rewrite inclk_T by exact D. pose proof (HI eq_refl) as K. unfold incl_of, incl_T' in K. fold (Str3.theta el).
    injection K as _ _ -> -> ->. auto.
Qed.

(** angles *)
Lemma w_red : same_angle (argp_red s t) (Str3.w el full t).
Proof. unfold argp_red. rewrite w_T, kTWO_PI_R. apply sa_rem. Qed.
Lemma node_redT : same_angle (node_red s t) (Str3.node el t).
Proof. unfold node_red. rewrite node_T, kTWO_PI_R. apply sa_rem. Qed.
Lemma M_redT : same_angle (M_red s t) (Str3.Lt el full t - Str3.w el full t - Str3.node el t).
Proof.
  unfold M_red. rewrite kTWO_PI_R. rops. eapply sa_trans; [apply sa_rem|].
  apply sa_minus; [apply sa_minus|]; [|apply w_red|apply node_redT].
  eapply sa_trans; [apply sa_rem|]. rewrite templ_T, M_T, w_T, node_T. exists 0%Z. lra.
Qed.
Lemma ax_T : axn s t = Str3.axN el full t de.
Proof. unfold axn, Str3.axN. rewrite e_T. rops. now rewrite (sa_cos _ _ w_red). Qed.
Lemma pinv_T : pinv s t = / (Str3.at_ el full t * (1 - Str3.e el full t de ^ 2)).
Proof. unfold pinv. rewrite a_T, e_T. rops. unfold Rdiv. rewrite Rmult_1_l. do 2 f_equal. ring. Qed.
Lemma ay_T : ayn s t = Str3.ayN el full t de i.
Proof.
  unfold ayn, Str3.ayN. rewrite e_T, pinv_T, ayc_T. rops. rewrite (sa_sin _ _ w_red). unfold ayc.
  assert (K : 4 * Str3.k2 <> 0) by (unfold Str3.k2, Str3.J2; lra).
  unfold Rdiv. rewrite (Rmult_assoc (4 * Str3.k2)), (Rinv_mult (4 * Str3.k2)). ring.
Qed.
Lemma u_T : same_angle (u_at s t) (Str3.U el full t de i).
Proof.
  unfold u_at. rewrite kTWO_PI_R. rops. eapply sa_trans; [apply sa_rem|].
  unfold Str3.U.
  replace (Str3.Lt el full t + Str3.L_L el full t de i - Str3.node el t)
    with ((Str3.Lt el full t - Str3.w el full t - Str3.node el t) + Str3.w el full t + Str3.node el t + Str3.L_L el full t de i - Str3.node el t) by ring.
  apply sa_minus; [|apply node_redT]. apply sa_plus; [apply sa_plus; [apply sa_plus|]|];
    [apply M_redT|apply w_red|apply node_redT|].
  assert (K : pinv s t * xlcof_at s t * axn s t = Str3.L_L el full t de i).
  { rewrite pinv_T, xlc_T, ax_T. unfold xlc, Str3.L_L, Str3.axN, Rdiv. rewrite (Rmult_assoc (8 * Str3.k2)), (Rinv_mult (8 * Str3.k2)). ring. }
  rewrite K. apply sa_refl.
Qed.

(** the state *)
Hypothesis latus_pos : 0 < Str3.pL el full t de i.
Lemma at_pos : 0 < Str3.at_ el full t.
Proof.
  assert (0 <= Str3.at_ el full t).
  2:{ destruct H as [H|H]; [exact H|]. pose proof latus_pos as P. unfold Str3.pL in P. rewrite <- H in P. lra. }
  unfold Str3.at_.
  pose proof (exp_pos (2 / 3 * ln (Str3.ke / Str3.n el))) as A.
  apply Rmult_le_pos; [|apply pow2_ge_0]. apply Rlt_le. exact A.
Qed.
Lemma latus_T : semi_latus s t = Str3.pL el full t de i.
Proof. unfold semi_latus, Str3.pL, Str3.eL2. rewrite a_T, ax_T, ay_T. rops. ring. Qed.
Lemma eL_lt : Str3.eL2 el full t de i < 1.
Proof. pose proof latus_pos as P. pose proof at_pos as A. unfold Str3.pL in P. nra. Qed.

Lemma state_T : exists E u,
  kepler_angle (Str3.axN el full t de) (Str3.ayN el full t de i) (Str3.U el full t de i) E /\
  sin u = Str3.sin_u el full t de i E /\ cos u = Str3.cos_u el full t de i E /\
  radius s t = Str3.rk el full t de i E u /\
  position_at s t = Str3.position el full t de i E u /\
  velocity_at s t = Str3.velocity el full t de i E u.
Proof.
  destruct (kepler_out (Str3.axN el full t de) (Str3.ayN el full t de i) (u_at s t) _ u_T) as (E & KA & KS & KC).
  set (ax := Str3.axN el full t de) in *. set (ay := Str3.ayN el full t de i) in *.
  pose proof latus_T as LT. pose proof a_T as AT. pose proof ax_T as AX. pose proof ay_T as AY.
  fold ax in AX. fold ay in AY.
  assert (KP : kepler s t = sgp4_kepler ax ay (u_at s t)) by (unfold kepler; now rewrite AX, AY).
  assert (EC : ecosE s t = Str3.e_cosE el full t de i E).
  { unfold ecosE. rewrite KP, KS, KC, AX, AY. reflexivity. }
  assert (ES : esinE s t = Str3.e_sinE el full t de i E).
  { unfold esinE. rewrite KP, KS, KC, AX, AY. reflexivity. }
  assert (RT : radius0 s t = Str3.r el full t de i E) by (unfold radius0; now rewrite AT, EC).
  assert (BT : beta s t = sqrt (1 - Str3.eL2 el full t de i)).
  { unfold beta, Str3.eL2. rewrite AX, AY. rops. fold ax ay. f_equal. ring. }
  assert (SU : StateSpec.sin_u s t = Str3.sin_u el full t de i E).
  { unfold StateSpec.sin_u, Str3.sin_u. rewrite AT, RT, BT, KP, KS, AX, AY, ES. rops. fold ax ay. unfold Rdiv. ring. }
  assert (CU : StateSpec.cos_u s t = Str3.cos_u el full t de i E).
  { unfold StateSpec.cos_u, Str3.cos_u. rewrite AT, RT, BT, KP, KC, AX, AY, ES. rops. fold ax ay. unfold Rdiv. ring. }
  pose proof eL_lt as EL. pose proof at_pos as AP. pose proof latus_pos as PP.
  assert (EL2 : Str3.eL2 el full t de i = ax ^ 2 + ay ^ 2) by reflexivity.
  assert (CS : cos E * cos E + sin E * sin E = 1). { pose proof (sin2_cos2 E) as Q. unfold Rsqr in Q. lra. }
  assert (CE : Str3.e_cosE el full t de i E < 1).
  { unfold Str3.e_cosE. fold ax ay. assert ((ax * cos E + ay * sin E) ^ 2 <= ax ^ 2 + ay ^ 2).
    { replace (ax ^ 2 + ay ^ 2) with ((ax ^ 2 + ay ^ 2) * (cos E * cos E + sin E * sin E)) by (rewrite CS; ring).
      pose proof (pow2_ge_0 (ax * sin E - ay * cos E)). nra. }
    nra. }
  assert (RP : 0 < Str3.r el full t de i E). { unfold Str3.r. apply Rmult_lt_0_compat; lra. }
  assert (UN : Str3.cos_u el full t de i E ^ 2 + Str3.sin_u el full t de i E ^ 2 = 1).
  { set (b := sqrt (1 - Str3.eL2 el full t de i)).
    assert (B0 : 0 <= b) by apply sqrt_pos.
    assert (B2 : b * b = 1 - (ax ^ 2 + ay ^ 2)). { unfold b. rewrite sqrt_sqrt by lra. rewrite EL2. reflexivity. }
    pose proof (uk_unit ax ay (cos E) (sin E) b CS B0 B2) as Q. cbv zeta in Q.
    unfold Str3.cos_u, Str3.sin_u. fold b ax ay. unfold Str3.e_sinE. fold ax ay.
    replace ((Str3.at_ el full t / Str3.r el full t de i E * (cos E - ax + ay * (ax * sin E - ay * cos E) / (1 + b))) ^ 2 +
      (Str3.at_ el full t / Str3.r el full t de i E * (sin E - ay - ax * (ax * sin E - ay * cos E) / (1 + b))) ^ 2)
    with ((Str3.at_ el full t / Str3.r el full t de i E) ^ 2 *
      ((sin E - ay - ax * ((ax * sin E - ay * cos E) / (1 + b))) ^ 2 + (cos E - ax + ay * ((ax * sin E - ay * cos E) / (1 + b))) ^ 2))
      by (unfold Rdiv; ring).
    rewrite Q. unfold Str3.r at 1, Str3.e_cosE. fold ax ay. unfold Str3.e_cosE in CE. fold ax ay in CE. field. lra. }
  set (u := Ratan2 (Str3.sin_u el full t de i E) (Str3.cos_u el full t de i E)).
  destruct (Ratan2_polar (Str3.sin_u el full t de i E) (Str3.cos_u el full t de i E)) as [PC PS]. fold u in PC, PS.
  replace (Str3.cos_u el full t de i E * Str3.cos_u el full t de i E + Str3.sin_u el full t de i E * Str3.sin_u el full t de i E)
    with 1 in PC, PS by (rewrite <- UN; ring).
  rewrite sqrt_1, Rmult_1_l in PC, PS.
  exists E, u. split; [exact KA|]. split; [now symmetry|]. split; [now symmetry|].
  assert (S2 : sin_2u s t = sin (2 * u)).
  { unfold sin_2u. rewrite SU, CU, PS, PC. rops. rewrite sin_2a. ring. }
  assert (C2 : cos_2u s t = cos (2 * u)).
  { unfold cos_2u. rewrite SU, PS. rops. rewrite cos_2a_sin. ring. }
  destruct con_T as (K1 & K2 & K3).
  assert (JP : j2p s t = Str3.k2 / Str3.pL el full t de i).
  { unfold j2p. rewrite LT, J2_T. rops. unfold Str3.k2, Rdiv. field. lra. }
  assert (JPP : j2pp s t = Str3.k2 / Str3.pL el full t de i ^ 2).
  { unfold j2pp. rewrite JP, LT. rops. field. lra. }
  assert (OR : osc_radius s t = Str3.rk el full t de i E u).
  { unfold osc_radius. rewrite RT, JPP, JP, BT, K1, K2, C2. rops. unfold Str3.rk. field. lra. }
  assert (OU : osc_arglat s t = Str3.uk el full t de i u).
  { unfold osc_arglat. rewrite SU, CU, JPP, K3, S2. rops. fold u. unfold Str3.uk. field. lra. }
  assert (ON : same_angle (osc_node s t) (Str3.nodek el full t de i u)).
  { unfold osc_node. rops. unfold Str3.nodek. apply sa_plus; [apply node_redT|]. rewrite JPP, S2. exists 0%Z. field. lra. }
  assert (OI : osc_incl s t = Str3.ik el full t de i u).
  { unfold osc_incl. rops. rewrite JPP, C2. unfold Str3.ik. field. lra. }
  assert (KE : Str3.ke <> 0) by (pose proof ke_pos; lra).
  assert (NM : n_at s t = Str3.nt el full t).
  { unfold n_at. rops. rewrite AT, xke_T, pow15 by exact AP. reflexivity. }
  assert (OD : Str3.ke * osc_rdot s t = Str3.rdotk el full t de i E u).
  { unfold osc_rdot. rops. rewrite AT, ES, RT, NM, JP, K2, S2, xke_T. unfold Str3.rdotk, Str3.rdot. field. lra. }
  assert (OF : Str3.ke * osc_rfdot s t = Str3.rfdotk el full t de i E u).
  { unfold osc_rfdot. rops. rewrite LT, RT, NM, JP, K2, C2, K1, xke_T. unfold Str3.rfdotk, Str3.rfdot. field. lra. }
  split; [rewrite radius_osc; exact OR|]. split.
  - unfold position_at, position_of, Str3.position, Str3.Uvec, Str3.Mvec, Str3.Nvec, radial, plus, scale. cbn [v_x v_y v_z].
    rops. rewrite OR, OU, OI, aE_T, (sa_sin _ _ ON), (sa_cos _ _ ON). f_equal; ring.
  - unfold velocity_at, velocity_of, Str3.velocity, Str3.Uvec, Str3.Vvec, Str3.Mvec, Str3.Nvec, radial, transverse, plus, scale. cbv zeta. cbn [v_x v_y v_z].
    rops. rewrite OU, OI, aE_T, (sa_sin _ _ ON), (sa_cos _ _ ON), xke_T, <- OD, <- OF. f_equal; field.
Qed.
End State.

(** ** The outcome of a call *)
Section Outcome.
Variables (s : Satrec R) (el : Str3.Elements) (t : R).
Hypothesis HO : orbital el.
Hypothesis HC : coefs_of s = coefs_T el.
Hypothesis HE : sr_no s = Str3.n el /\ sr_ecco s = Str3.e0 el /\ sr_inclo s = Str3.i0 el /\ sr_mo s = Str3.M0 el /\
  sr_argpo s = Str3.w0 el /\ sr_nodeo s = Str3.node0 el /\ sr_bstar s = Str3.Bstar el.
Hypothesis HH : full_drag s = true -> high_of s = high_T el.
Hypothesis HI : deep s = false -> incl_of s = incl_T' el.
Notation full := (full_drag s).
Notation de := (de_of s t).
Notation i := (incl_at s t).
Variables (fuel : nat) (s' : Satrec R) (res : result (SGP4Result R) SGP4Error).
Hypothesis HD : sgp4 fuel s t = Done (s', res).
Notation e := (Str3.e_unclamped el full t de).
Notation pL := (Str3.pL el full t de i).

Lemma motion_T : bad_motion s = false.
Proof. unfold bad_motion. destruct HE as (-> & _). rops. apply Rle_bool_iff_f. apply HO. Qed.
Lemma bad_ecc_T : bad_ecc s t = true <-> ~ ecc_ok e.
Proof.
  unfold bad_ecc, ecc_ok. rewrite (ecc_T s el t HC HE HH HI). rops. rewrite orb_true_iff, Rle_bool_iff, Rlt_bool_iff.
  split; [lra|]. intros N. destruct (Rle_lt_dec 1 e) as [G|G]; [now left|right]. apply Rnot_le_lt. intros G2. apply N. lra.
Qed.
Lemma outcome_ecc : ~ ecc_ok e -> res = Err Eccentricty.
Proof.
  intros B. apply bad_ecc_T in B. pose proof (sgp4_errors _ _ _ _ _ HD) as E. unfold first_error in E.
  rewrite motion_T, B in E. exact E.
Qed.
Lemma good_ecc : ecc_ok e -> bad_ecc s t = false.
Proof. intros G. destruct (bad_ecc s t) eqn:B; [|reflexivity]. apply bad_ecc_T in B. contradiction. Qed.
Lemma outcome_ep : ecc_ok e -> bad_perturbed_ecc s t = true -> res = Err Ep.
Proof.
  intros G B. pose proof (sgp4_errors _ _ _ _ _ HD) as E. unfold first_error in E.
  rewrite motion_T, (good_ecc G), B in E. exact E.
Qed.
Lemma outcome_pl : ecc_ok e -> bad_perturbed_ecc s t = false -> pL < 0 -> res = Err Pl.
Proof.
  intros G B P. pose proof (sgp4_errors _ _ _ _ _ HD) as E. unfold first_error in E.
  rewrite motion_T, (good_ecc G), B in E.
  assert (BL : bad_latus s t = true).
  { unfold bad_latus. rewrite (latus_T s el t HO HC HE HH HI). rops. now apply Rlt_bool_iff. }
  rewrite BL in E. exact E.
Qed.
Lemma outcome_state : ecc_ok e -> bad_perturbed_ecc s t = false -> 0 < pL -> exists E u,
  kepler_angle (Str3.axN el full t de) (Str3.ayN el full t de i) (Str3.U el full t de i) E /\
  sin u = Str3.sin_u el full t de i E /\ cos u = Str3.cos_u el full t de i E /\
  (Str3.rk el full t de i E u < 1 -> res = Err DecayCondition) /\
  (1 <= Str3.rk el full t de i E u -> res = Ok (MkSGP4Result (Str3.position el full t de i E u) (Str3.velocity el full t de i E u))).
Proof.
  intros G B P. pose proof (sgp4_errors _ _ _ _ _ HD) as E. unfold first_error in E.
  rewrite motion_T, (good_ecc G), B in E.
  assert (BL : bad_latus s t = false).
  { unfold bad_latus. rewrite (latus_T s el t HO HC HE HH HI). rops. apply Rlt_bool_iff_f. lra. }
  rewrite BL in E.
  destruct (state_T s el t HO HC HE HH HI P) as (A & u & K & SU & CU & RK & PO & VE).
  exists A, u. split; [exact K|]. split; [exact SU|]. split; [exact CU|]. rewrite <- RK, <- PO, <- VE.
  unfold decayed in E. rops_in E. split; intros C.
  - rewrite Rlt_bool_true in E by exact C. exact E.
  - rewrite Rlt_bool_false in E by exact C. destruct E as [v ->].
    destruct (sgp4_state _ _ _ _ _ HD) as [-> _]. reflexivity.
Qed.
End Outcome.
