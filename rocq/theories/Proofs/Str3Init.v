(** * Initialisation computes the coefficients of the published theory (exact arithmetic) *)
From Coq Require Import ZArith List Bool Reals Lra.
From Flocq Require Import Core.Raux.
From Verif.Model Require Import Float Str Satrec Constants Vec3 Initl Dscom Dpper Dsinit Dspace Sgp4 Sgp4init.
From Verif.Inst Require Import RInst RTac.
From Verif.Proofs Require Import Sgp4Frame InitFrame InitKind InitElems.
From Verif.Spec Require Import Str3Api.
From Verif.Spec Require Str3.
Local Open Scope R_scope.

Lemma pow23 x : 0 < x -> Rpow x (2 / 3) = Str3.two_thirds x.
Proof. intros H. unfold Rpow. now rewrite Rlt_bool_true. Qed.
Lemma ke_pos : 0 < Str3.ke. Proof. unfold Str3.ke. lra. Qed.
Lemma xke_T : @kXKE R ROps = Str3.ke. Proof. apply kXKE_R. Qed.
Lemma aE_T : @kEARTH_RADIUS R ROps = Str3.aE. Proof. apply kEARTH_RADIUS_R. Qed.
Lemma J2_T : @kJ2 R ROps = Str3.J2. Proof. unfold kJ2. rlit. reflexivity. Qed.
Lemma J4_T : @kJ4 R ROps = Str3.J4. Proof. unfold kJ4. rops. reflexivity. Qed.
Lemma J32_T : @kJ3OJ2 R ROps = Str3.J3 / Str3.J2. Proof. unfold kJ3OJ2, kJ3. rewrite J2_T. rops. reflexivity. Qed.

Section Initl.
Variable o : SGP4InitOptions R.
Notation el := (elements o).
Hypothesis HO : orbital el.
Let r := initl (MkInitlOptions (in_opsmode o) MethodN (in_satn o) (in_xecco o) (in_epoch o) (in_xinclo o) (in_xno o)).

Lemma beta_pos : 0 < Str3.beta0 el.
Proof. destruct HO as (_ & H & _). apply sqrt_lt_R0. unfold elements in *. cbn [Str3.e0] in *. nra. Qed.
Lemma beta_sq : Str3.beta0 el ^ 2 = 1 - in_xecco o ^ 2.
Proof.
  destruct HO as (_ & H & _). unfold Str3.beta0. replace (sqrt (1 - Str3.e0 (elements o) ^ 2) ^ 2) with (sqrt (1 - Str3.e0 (elements o) ^ 2) * sqrt (1 - Str3.e0 (elements o) ^ 2)) by ring. rewrite sqrt_sqrt.
  - unfold elements; cbn [Str3.e0]; ring.
  - unfold elements in *. cbn [Str3.e0] in *. nra.
Qed.

Lemma initl_no_T : ir_no r = Str3.n el.
Proof.
  pose proof beta_pos as BP. pose proof beta_sq as BS.
  destruct HO as (H1 & H2 & H3).
  unfold r, initl. cbv zeta. cbn [ir_no il_no il_ecco il_inclo]. rops. rewrite kX2O3_R, xke_T, J2_T.
  change (in_xno o) with (Str3.n0 el). rewrite pow23 by (apply Rdiv_lt_0_compat; [apply ke_pos|exact H1]). fold (Str3.a1 el).
  assert (K : forall x, 75 / 100 * Str3.J2 * (3 * (cos (in_xinclo o) * cos (in_xinclo o)) - 1) /
    (sqrt (1 - in_xecco o * in_xecco o) * (1 - in_xecco o * in_xecco o)) / (x * x) = Str3.kozai el x).
  { intros x. replace (1 - in_xecco o * in_xecco o) with (Str3.beta0 el ^ 2) by (rewrite BS; ring).
    rewrite sqrt_pow2 by lra. unfold Str3.kozai, Str3.k2, Str3.theta. cbn [elements Str3.i0].
    replace (x ^ 2) with (x * x) by ring.
    replace (Str3.beta0 el ^ 3) with (Str3.beta0 el * Str3.beta0 el ^ 2) by ring.
    unfold Rdiv. set (ix := / (x * x)). set (ib := / (Str3.beta0 el * Str3.beta0 el ^ 2)). clearbody ix ib. field. }
  rewrite (K (Str3.a1 el)). change (Str3.kozai el (Str3.a1 el)) with (Str3.d1 el).
  assert (A : Str3.a1 el * (1 - Str3.d1 el * Str3.d1 el - Str3.d1 el * (1 / 3 + 134 * Str3.d1 el * Str3.d1 el / 81)) = Str3.a0 el).
  { unfold Str3.a0. field. }
  rewrite A, K. reflexivity.
Qed.
Lemma initl_ao_T : ir_ao r = Str3.a el.
Proof.
  assert (A : ir_ao r = Rpow (kXKE / ir_no r) (2 / 3)). { rewrite <- kX2O3_R. reflexivity. }
  rewrite A, initl_no_T, xke_T. apply pow23. apply Rdiv_lt_0_compat; [apply ke_pos|apply HO].
Qed.
Lemma a_pos : 0 < Str3.a el. Proof. apply exp_pos. Qed.
Lemma initl_rest_T :
  ir_con42 r = 1 - 5 * Str3.theta el ^ 2 /\ ir_con41 r = 3 * Str3.theta el ^ 2 - 1 /\
  ir_cosio r = Str3.theta el /\ ir_cosio2 r = Str3.theta el ^ 2 /\ ir_sinio r = sin (Str3.i0 el) /\
  ir_omeosq r = Str3.beta0 el ^ 2 /\ ir_rteosq r = Str3.beta0 el /\ ir_posq r = Str3.a el ^ 2 * Str3.beta0 el ^ 4 /\
  ir_rp r = Str3.a el * (1 - Str3.e0 el).
Proof.
  pose proof initl_ao_T as A. pose proof beta_sq as BS.
  assert (P : ir_posq r = (ir_ao r * (1 - in_xecco o * in_xecco o)) * (ir_ao r * (1 - in_xecco o * in_xecco o))) by reflexivity.
  assert (RP : ir_rp r = ir_ao r * (1 - in_xecco o)) by reflexivity.
  rewrite A in P, RP. rewrite P, RP. clear P RP A.
  assert (E1 : ir_con42 r = 1 - 5 * (cos (in_xinclo o) * cos (in_xinclo o))) by reflexivity.
  assert (E2 : ir_con41 r = - ir_con42 r - cos (in_xinclo o) * cos (in_xinclo o) - cos (in_xinclo o) * cos (in_xinclo o)) by reflexivity.
  rewrite E1 in E2. rewrite E1, E2. clear E1 E2.
  assert (E3 : ir_omeosq r = 1 - in_xecco o * in_xecco o) by reflexivity.
  assert (E4 : ir_rteosq r = sqrt (1 - in_xecco o * in_xecco o)) by reflexivity.
  assert (E5 : ir_cosio2 r = cos (in_xinclo o) * cos (in_xinclo o)) by reflexivity.
  rewrite E3, E4, E5. replace (1 - in_xecco o * in_xecco o) with (Str3.beta0 el ^ 2) by (rewrite BS; ring).
  rewrite sqrt_pow2 by (apply Rlt_le, beta_pos). unfold Str3.theta. cbn [elements Str3.i0 Str3.e0].
  repeat split; try reflexivity; ring.
Qed.
End Initl.

(** ** Near-earth coefficients from the values [initl] returns *)
Lemma powi4 x : powerRZ x 4 = x ^ 4.
Proof. reflexivity. Qed.
Lemma pow35 x : 0 <= x -> Rpow x (35 / 10) = sqrt x ^ 7.
Proof.
  intros [H|<-].
  - unfold Rpow. rewrite Rlt_bool_true by exact H. rewrite <- Rpower_sqrt by exact H.
    rewrite <- Rpower_pow by apply exp_pos. rewrite Rpower_mult. f_equal. simpl. field.
  - unfold Rpow. rewrite Rlt_bool_false by lra. rewrite Req_bool_true by reflexivity.
    rewrite Req_bool_false by lra. rewrite sqrt_0. ring.
Qed.

Section Near.
Variable el : Str3.Elements.
Variables (r : InitlReturn R) (u : Satrec R).
Hypothesis HO : orbital el.
Hypothesis Hao : ir_ao r = Str3.a el.
Hypothesis Hr : ir_con42 r = 1 - 5 * Str3.theta el ^ 2 /\
  ir_cosio r = Str3.theta el /\ ir_cosio2 r = Str3.theta el ^ 2 /\ ir_sinio r = sin (Str3.i0 el) /\
  ir_omeosq r = Str3.beta0 el ^ 2 /\ ir_rteosq r = Str3.beta0 el /\ ir_posq r = Str3.a el ^ 2 * Str3.beta0 el ^ 4 /\
  ir_rp r = Str3.a el * (1 - Str3.e0 el).
Hypothesis Hu : sr_no u = Str3.n el /\ sr_ecco u = Str3.e0 el /\ sr_bstar u = Str3.Bstar el /\
  sr_argpo u = Str3.w0 el /\ sr_mo u = Str3.M0 el /\ sr_con41 u = 3 * Str3.theta el ^ 2 - 1.
Let N := sgp4init_near r u.

Lemma atmo_T : at_sfour (sgp4init_atmo (ir_rp r)) = Str3.s el /\ at_qzms24 (sgp4init_atmo (ir_rp r)) = (Str3.q0 - Str3.s el) ^ 4.
Proof.
  destruct Hr as (_ & _ & _ & _ & _ & _ & _ & ->). unfold sgp4init_atmo. cbv zeta. rewrite aE_T. rops.
  unfold Str3.s, Str3.q0. fold (Str3.perigee_height el). unfold Str3.aE.
  assert (P : Str3.a el * (1 - Str3.e0 el) = Str3.perigee_height el / (6378137 / 1000) + 1).
  { unfold Str3.perigee_height, Str3.aE. field. }
  rewrite P. set (h := Str3.perigee_height el). clearbody h. clear.
  case Rlt_bool_spec; intros H1; [case Rlt_bool_spec; intros H2|]; cbn [at_sfour at_qzms24];
    repeat (destruct (Rlt_dec _ _)); try lra; split; try field.
Qed.
Lemma sfour_T : ne_sfour N = Str3.s el. Proof. apply atmo_T. Qed.
Lemma tsi_T : ne_tsi N = Str3.xi el.
Proof.
  assert (E : ne_tsi N = 1 / (ir_ao r - ne_sfour N)) by reflexivity. rewrite E, sfour_T, Hao. unfold Str3.xi, Rdiv. ring.
Qed.
Lemma eta_T : sr_eta (ne_s N) = Str3.eta el.
Proof.
  assert (E : sr_eta (ne_s N) = ir_ao r * sr_ecco u * ne_tsi N) by reflexivity. rewrite E, tsi_T, Hao.
  destruct Hu as (_ & -> & _). reflexivity.
Qed.
Definition psisq : R := Rabs (1 - sr_eta (ne_s N) * sr_eta (ne_s N)).
Definition coef : R := at_qzms24 (sgp4init_atmo (ir_rp r)) * powerRZ (ne_tsi N) 4.
Definition coef1 : R := coef / Rpow psisq (35 / 10).
Lemma psisq_T : psisq = Str3.psi2 el.
Proof. unfold psisq, Str3.psi2. rewrite eta_T. f_equal. ring. Qed.
Lemma coef_T : coef = Str3.Q el.
Proof. unfold coef, Str3.Q. rewrite tsi_T, powi4. destruct atmo_T as [_ ->]. reflexivity. Qed.
Lemma coef1_T : coef1 = Str3.Q el / Str3.psi7 el.
Proof. unfold coef1, Str3.psi7. rewrite coef_T, psisq_T, pow35; [reflexivity|apply Rabs_pos]. Qed.

Lemma cc1_T : sr_cc1 (ne_s N) = Str3.C1 el.
Proof.
  assert (E : sr_cc1 (ne_s N) = sr_bstar u * (coef1 * sr_no u *
    (ir_ao r * (1 + 15 / 10 * (sr_eta (ne_s N) * sr_eta (ne_s N)) + sr_ecco u * sr_eta (ne_s N) * (4 + sr_eta (ne_s N) * sr_eta (ne_s N)))
     + 375 / 1000 * kJ2 * ne_tsi N / psisq * sr_con41 u *
       (8 + 3 * (sr_eta (ne_s N) * sr_eta (ne_s N)) * (8 + sr_eta (ne_s N) * sr_eta (ne_s N)))))) by reflexivity.
  rewrite E, J2_T, coef1_T, psisq_T, tsi_T, eta_T, Hao. destruct Hu as (-> & -> & -> & _ & _ & ->). clear.
  unfold Str3.C1, Str3.C2, Str3.k2, Rdiv.
  generalize (/ Str3.psi7 el) (/ Str3.psi2 el). intros p7 p2. field.
Qed.

Notation et := (sr_eta (ne_s N)).
Notation es := (et * et).
Notation ee := (sr_ecco u * et).
Lemma beta_pos' : 0 < Str3.beta0 el.
Proof. destruct HO as (_ & H & _). apply sqrt_lt_R0. nra. Qed.
Lemma a_pos' : 0 < Str3.a el. Proof. apply exp_pos. Qed.

Lemma cc4_T : sr_cc4 (ne_s N) = Str3.C4 el.
Proof.
  assert (E : sr_cc4 (ne_s N) = 2 * sr_no u * coef1 * ir_ao r * ir_omeosq r *
    (et * (2 + 5 / 10 * es) + sr_ecco u * (5 / 10 + 2 * es) -
     kJ2 * ne_tsi N / (ir_ao r * psisq) *
     (- (3) * sr_con41 u * (1 - 2 * ee + es * (15 / 10 - 5 / 10 * ee)) +
      75 / 100 * (1 - ir_cosio2 r) * (2 * es - ee * (1 + es)) * cos (2 * sr_argpo u)))) by reflexivity.
  rewrite E, J2_T, coef1_T, psisq_T, tsi_T, eta_T, Hao.
  destruct Hu as (-> & -> & _ & -> & _ & ->). destruct Hr as (_ & _ & -> & _ & -> & _). clear.
  unfold Str3.C4, Str3.k2, Rdiv.
  generalize (/ Str3.psi7 el) (/ (Str3.a el * Str3.psi2 el)). intros p7 p2. field.
Qed.
Lemma cc5_T : sr_cc5 (ne_s N) = Str3.C5 el.
Proof.
  assert (E : sr_cc5 (ne_s N) = 2 * coef1 * ir_ao r * ir_omeosq r * (1 + 275 / 100 * (es + ee) + ee * es)) by reflexivity.
  rewrite E, coef1_T, eta_T, Hao. destruct Hu as (_ & -> & _). destruct Hr as (_ & _ & _ & _ & -> & _). clear.
  unfold Str3.C5, Rdiv. generalize (/ Str3.psi7 el). intros p7. field.
Qed.
Lemma rates_T : sr_mdot (ne_s N) = Str3.Mdot el /\ sr_argpdot (ne_s N) = Str3.wdot el /\ sr_nodedot (ne_s N) = Str3.nodedot el.
Proof.
  set (t1 := 15 / 10 * kJ2 * (1 / ir_posq r) * sr_no u).
  set (t2 := 5 / 10 * t1 * kJ2 * (1 / ir_posq r)).
  set (t3 := - (46875 / 100000) * kJ4 * (1 / ir_posq r) * (1 / ir_posq r) * sr_no u).
  assert (E1 : sr_mdot (ne_s N) = sr_no u + 5 / 10 * t1 * ir_rteosq r * sr_con41 u +
    625 / 10000 * t2 * ir_rteosq r * (13 - 78 * ir_cosio2 r + 137 * (ir_cosio2 r * ir_cosio2 r))) by reflexivity.
  assert (E2 : sr_argpdot (ne_s N) = - (5 / 10) * t1 * ir_con42 r +
    625 / 10000 * t2 * (7 - 114 * ir_cosio2 r + 395 * (ir_cosio2 r * ir_cosio2 r)) +
    t3 * (3 - 36 * ir_cosio2 r + 49 * (ir_cosio2 r * ir_cosio2 r))) by reflexivity.
  assert (E3 : sr_nodedot (ne_s N) = - t1 * ir_cosio r +
    (5 / 10 * t2 * (4 - 19 * ir_cosio2 r) + 2 * t3 * (3 - 7 * ir_cosio2 r)) * ir_cosio r) by reflexivity.
  rewrite E1, E2, E3. unfold t3, t2, t1. rewrite J2_T, J4_T.
  destruct Hu as (-> & _ & _ & _ & _ & ->). destruct Hr as (-> & -> & -> & _ & _ & -> & -> & _).
  pose proof beta_pos' as B. pose proof a_pos' as A.
  unfold Str3.Mdot, Str3.wdot, Str3.nodedot, Str3.k2, Str3.k4.
  repeat split; field; lra.
Qed.
Lemma eccentric_if (x y x' y' : R) : (1 / 10000 < Str3.e0 el -> x = x') -> y = y' ->
  (if Rlt_bool (1 / 10000) (Str3.e0 el) then x else y) = Str3.eccentric el x' y'.
Proof.
  intros H ->. unfold Str3.eccentric. case Rlt_bool_spec; intros G; destruct (Rlt_dec _ _); try lra; auto.
Qed.
Lemma omgcof_T : sr_omgcof (ne_s N) = Str3.Bstar el * Str3.C3 el * cos (Str3.w0 el).
Proof.
  assert (E : sr_omgcof (ne_s N) = sr_bstar u * (if Rlt_bool (1 / 10000) (sr_ecco u) then
    - (2) * coef * ne_tsi N * kJ3OJ2 * sr_no u * ir_sinio r / sr_ecco u else 0) * cos (sr_argpo u)) by reflexivity.
  rewrite E, coef_T, tsi_T, J32_T. destruct Hu as (-> & -> & -> & -> & _). destruct Hr as (_ & _ & _ & -> & _).
  do 2 f_equal. unfold Str3.C3. apply eccentric_if; [|reflexivity]. intros G.
  unfold Str3.Q, Str3.A30, Str3.k2. assert (Str3.J2 <> 0) by (unfold Str3.J2; lra). field. lra.
Qed.
Lemma xmcof_T : sr_xmcof (ne_s N) = Str3.eccentric el (- (2 / 3) * Str3.Q el * Str3.Bstar el / (Str3.e0 el * Str3.eta el)) 0.
Proof.
  assert (E : sr_xmcof (ne_s N) = if Rlt_bool (1 / 10000) (sr_ecco u) then
    - kX2O3 * coef * sr_bstar u / ee else 0) by reflexivity.
  rewrite E, coef_T, eta_T, kX2O3_R. destruct Hu as (_ & -> & -> & _). apply eccentric_if; [|reflexivity].
  intros _. unfold Rdiv. ring.
Qed.
Lemma nodecf_T : sr_nodecf (ne_s N) = - (21 / 2) * (Str3.n el * Str3.k2 * Str3.theta el / (Str3.a el ^ 2 * Str3.beta0 el ^ 2)) * Str3.C1 el.
Proof.
  assert (E : sr_nodecf (ne_s N) = 35 / 10 * ir_omeosq r * (- (15 / 10 * kJ2 * (1 / ir_posq r) * sr_no u) * ir_cosio r) * sr_cc1 (ne_s N))
    by reflexivity.
  rewrite E, cc1_T, J2_T. destruct Hu as (-> & _). destruct Hr as (_ & -> & _ & _ & -> & _ & -> & _).
  pose proof beta_pos' as B. pose proof a_pos' as A. unfold Str3.k2. field. lra.
Qed.
Lemma t2cof_T : sr_t2cof (ne_s N) = 3 / 2 * Str3.C1 el.
Proof. assert (E : sr_t2cof (ne_s N) = 15 / 10 * sr_cc1 (ne_s N)) by reflexivity. rewrite E, cc1_T. field. Qed.
Lemma epoch_T : sr_delmo (ne_s N) = (1 + Str3.eta el * cos (Str3.M0 el)) ^ 3 /\ sr_sinmao (ne_s N) = sin (Str3.M0 el).
Proof.
  assert (E : sr_delmo (ne_s N) = (1 + et * cos (sr_mo u)) * (1 + et * cos (sr_mo u)) * (1 + et * cos (sr_mo u))) by reflexivity.
  assert (E2 : sr_sinmao (ne_s N) = sin (sr_mo u)) by reflexivity.
  rewrite E, E2, eta_T. destruct Hu as (_ & _ & _ & _ & -> & _). split; [ring|reflexivity].
Qed.
(** inclination constants *)
Lemma incl_T : sr_x1mth2 (ne_s N) = 1 - Str3.theta el ^ 2 /\ sr_x7thm1 (ne_s N) = 7 * Str3.theta el ^ 2 - 1 /\
  sr_con41 (ne_s N) = 3 * Str3.theta el ^ 2 - 1.
Proof.
  assert (E1 : sr_x1mth2 (ne_s N) = 1 - ir_cosio2 r) by reflexivity.
  assert (E2 : sr_x7thm1 (ne_s N) = 7 * ir_cosio2 r - 1) by reflexivity.
  assert (E3 : sr_con41 (ne_s N) = sr_con41 u) by reflexivity.
  rewrite E1, E2, E3. destruct Hr as (_ & _ & -> & _). destruct Hu as (_ & _ & _ & _ & _ & ->). auto.
Qed.
(** long-period coefficients at inclination i *)
Definition ayc (i : R) : R := Str3.A30 / (4 * Str3.k2) * sin i.
Definition xlc (i : R) : R := Str3.A30 / (8 * Str3.k2) * sin i * ((3 + 5 * cos i) / Str3.one_plus_theta i).
Lemma long_T : sr_aycof (ne_s N) = ayc (Str3.i0 el) /\ sr_xlcof (ne_s N) = xlc (Str3.i0 el).
Proof.
  assert (E1 : sr_aycof (ne_s N) = - (5 / 10) * kJ3OJ2 * ir_sinio r) by reflexivity.
  assert (E2 : sr_xlcof (ne_s N) = if Rlt_bool (15 / 10000000000000) (Rabs (ir_cosio r + 1))
    then - (25 / 100) * kJ3OJ2 * ir_sinio r * (3 + 5 * ir_cosio r) / (1 + ir_cosio r)
    else - (25 / 100) * kJ3OJ2 * ir_sinio r * (3 + 5 * ir_cosio r) / (15 / 10000000000000)) by reflexivity.
  rewrite E1, E2, J32_T. destruct Hr as (_ & -> & _ & -> & _).
  assert (J : Str3.J2 <> 0) by (unfold Str3.J2; lra).
  unfold ayc, xlc, Str3.A30, Str3.k2. split; [field; exact J|].
  unfold Str3.one_plus_theta. fold (Str3.theta el). rewrite (Rplus_comm (Str3.theta el) 1).
  case Rlt_bool_spec; intros G; destruct (Rlt_dec _ _); try lra.
  - field. split; [|exact J]. intros Z. rewrite Z, Rabs_R0 in G. lra.
  - field. exact J.
Qed.
Lemma isimp_T : sr_isimp (ne_s N) = if Rlt_bool (Str3.perigee_height el) 220 then 1%Z else 0%Z.
Proof.
  assert (E : sr_isimp (ne_s N) = if Rlt_bool (ir_rp r) (220 / kEARTH_RADIUS + 1) then 1%Z else 0%Z) by reflexivity.
  rewrite E, aE_T. destruct Hr as (_ & _ & _ & _ & _ & _ & _ & ->).
  assert (A : Str3.perigee_height el = (Str3.a el * (1 - Str3.e0 el) - 1) * Str3.aE) by reflexivity. rewrite A.
  unfold Str3.aE. do 2 (case Rlt_bool_spec; intros ?); try reflexivity; exfalso; lra.
Qed.
Lemma xpidot_T : ne_xpidot N = Str3.wdot el + Str3.nodedot el.
Proof.
  assert (E : ne_xpidot N = sr_argpdot (ne_s N) + sr_nodedot (ne_s N)) by reflexivity. rewrite E.
  destruct rates_T as (_ & -> & ->). reflexivity.
Qed.

(** higher-order drag coefficients *)
Lemma drag_T v : sr_cc1 v = Str3.C1 el -> sr_isimp v <> 1%Z ->
  let d := sgp4init_drag (ir_ao r) (ne_tsi N) (ne_sfour N) v in
  sr_d2 d = Str3.D2 el /\ sr_d3 d = Str3.D3 el /\ sr_d4 d = Str3.D4 el /\
  sr_t3cof d = Str3.D2 el + 2 * Str3.C1 el ^ 2 /\
  sr_t4cof d = 1 / 4 * (3 * Str3.D3 el + 12 * Str3.C1 el * Str3.D2 el + 10 * Str3.C1 el ^ 3) /\
  sr_t5cof d = 1 / 5 * (3 * Str3.D4 el + 12 * Str3.C1 el * Str3.D3 el + 6 * Str3.D2 el ^ 2
                        + 30 * Str3.C1 el ^ 2 * Str3.D2 el + 15 * Str3.C1 el ^ 4).
Proof.
  intros HC HI. cbv zeta. unfold sgp4init_drag. rewrite (proj2 (Z.eqb_neq _ _) HI). cbn [negb]. cbv zeta.
  rewrite HC, Hao, tsi_T, sfour_T. cbn [sr_d2 sr_d3 sr_d4 sr_t3cof sr_t4cof sr_t5cof set_d2 set_d3 set_d4 set_t3cof set_t4cof set_t5cof].
  rops. unfold Str3.D2, Str3.D3, Str3.D4. repeat split; field.
Qed.
End Near.

(** ** The record after initialisation *)
Record secular_coefs := MkCoefs {
  k_cc1 : R; k_cc4 : R; k_cc5 : R; k_eta : R; k_mdot : R; k_argpdot : R; k_nodedot : R; k_omgcof : R; k_xmcof : R;
  k_nodecf : R; k_t2cof : R; k_delmo : R; k_sinmao : R }.
Definition coefs_of (s : Satrec R) : secular_coefs := MkCoefs (sr_cc1 s) (sr_cc4 s) (sr_cc5 s) (sr_eta s) (sr_mdot s)
  (sr_argpdot s) (sr_nodedot s) (sr_omgcof s) (sr_xmcof s) (sr_nodecf s) (sr_t2cof s) (sr_delmo s) (sr_sinmao s).
Record high_coefs := MkHigh { k_d2 : R; k_d3 : R; k_d4 : R; k_t3 : R; k_t4 : R; k_t5 : R }.
Definition high_of (s : Satrec R) : high_coefs := MkHigh (sr_d2 s) (sr_d3 s) (sr_d4 s) (sr_t3cof s) (sr_t4cof s) (sr_t5cof s).
Record incl_coefs := MkIncl { k_aycof : R; k_xlcof : R; k_con41 : R; k_x1mth2 : R; k_x7thm1 : R }.
Definition incl_of (s : Satrec R) : incl_coefs := MkIncl (sr_aycof s) (sr_xlcof s) (sr_con41 s) (sr_x1mth2 s) (sr_x7thm1 s).

Lemma copy_dsinit_coefs r s : coefs_of (sgp4init_copy_dsinit r s) = coefs_of s /\ incl_of (sgp4init_copy_dsinit r s) = incl_of s.
Proof. split; reflexivity. Qed.
Lemma copy_dscom_coefs d s : coefs_of (sgp4init_copy_dscom d s) = coefs_of s /\ incl_of (sgp4init_copy_dscom d s) = incl_of s.
Proof. split; reflexivity. Qed.
Lemma set_coefs m i s : coefs_of (set_isimp i (set_method m s)) = coefs_of s /\ incl_of (set_isimp i (set_method m s)) = incl_of s.
Proof. split; reflexivity. Qed.
Lemma deep_coefs e c x s : sr_init s = InitY -> coefs_of (sgp4init_deep e c x s) = coefs_of s /\ incl_of (sgp4init_deep e c x s) = incl_of s.
Proof.
  intros HY. unfold sgp4init_deep. destruct (fle (L 225 0) (fdiv kTWO_PI (sr_no s))); [|split; reflexivity].
  cbv zeta. rewrite init_dpper_id by (rewrite copy_dscom_init; exact HY).
  match goal with |- context [sgp4init_copy_dsinit ?a ?b] => destruct (copy_dsinit_coefs a b) as [-> ->] end.
  match goal with |- context [sgp4init_copy_dscom ?a ?b] => destruct (copy_dscom_coefs a b) as [-> ->] end.
  apply set_coefs.
Qed.
Lemma drag_coefs a t f s : coefs_of (sgp4init_drag a t f s) = coefs_of s /\ incl_of (sgp4init_drag a t f s) = incl_of s.
Proof. unfold sgp4init_drag. destruct (negb (sr_isimp s =? 1)%Z); split; reflexivity. Qed.

(** coefficients of the theory, in the order of the record *)
Definition coefs_T (el : Str3.Elements) : secular_coefs := MkCoefs (Str3.C1 el) (Str3.C4 el) (Str3.C5 el) (Str3.eta el)
  (Str3.Mdot el) (Str3.wdot el) (Str3.nodedot el) (Str3.Bstar el * Str3.C3 el * cos (Str3.w0 el))
  (Str3.eccentric el (- (2 / 3) * Str3.Q el * Str3.Bstar el / (Str3.e0 el * Str3.eta el)) 0)
  (- (21 / 2) * (Str3.n el * Str3.k2 * Str3.theta el / (Str3.a el ^ 2 * Str3.beta0 el ^ 2)) * Str3.C1 el)
  (3 / 2 * Str3.C1 el) ((1 + Str3.eta el * cos (Str3.M0 el)) ^ 3) (sin (Str3.M0 el)).
Definition high_T (el : Str3.Elements) : high_coefs := MkHigh (Str3.D2 el) (Str3.D3 el) (Str3.D4 el)
  (Str3.D2 el + 2 * Str3.C1 el ^ 2)
  (1 / 4 * (3 * Str3.D3 el + 12 * Str3.C1 el * Str3.D2 el + 10 * Str3.C1 el ^ 3))
  (1 / 5 * (3 * Str3.D4 el + 12 * Str3.C1 el * Str3.D3 el + 6 * Str3.D2 el ^ 2
                        + 30 * Str3.C1 el ^ 2 * Str3.D2 el + 15 * Str3.C1 el ^ 4)).
Definition incl_T' (el : Str3.Elements) : incl_coefs := MkIncl (ayc (Str3.i0 el)) (xlc (Str3.i0 el))
  (3 * Str3.theta el ^ 2 - 1) (1 - Str3.theta el ^ 2) (7 * Str3.theta el ^ 2 - 1).

Section Elements.
Variables (o : SGP4InitOptions R) (s0 : Satrec R).
Notation el := (elements o).
Hypothesis HO : orbital el.
Let s := sgp4init_elements o s0.

Lemma elements_coefs :
  coefs_of s = coefs_T el /\ incl_of s = incl_T' el /\
  (sr_isimp s <> 1%Z -> high_of s = high_T el) /\
  sr_isimp s = (if Rle_bool 225 (2 * PI / Str3.n el) || Rlt_bool (Str3.perigee_height el) 220 then 1 else 0)%Z /\
  sr_method s = (if Rle_bool 225 (2 * PI / Str3.n el) then MethodD else MethodN).
Proof.
  pose proof (elements_kind o s0) as (_ & KM & KI & _ & _ & _).
  pose proof (f_equal el_no (elements_elems o s0)) as KN. cbn [elems_of el_no] in KN.
  unfold s. clear s.
  assert (NO : brouwer_no o = Str3.n el) by (apply initl_no_T, HO).
  assert (AO := initl_ao_T o HO). assert (RS := initl_rest_T o HO).
  rewrite NO in KN.
  assert (AT : attempted (sgp4init_elements o s0) = true).
  { unfold attempted. rewrite KN. rops. apply orb_true_iff. right. apply Rle_bool_iff. apply Rlt_le, HO. }
  rewrite AT, KN in KM, KI. cbn [andb] in KM, KI. unfold perigee_of in KI. rewrite KN in KI.
  assert (EC : sr_ecco (sgp4init_elements o s0) = Str3.e0 el).
  { pose proof (f_equal el_ecco (elements_elems o s0)) as E. exact E. }
  rewrite EC in KI. rewrite kX2O3_R, xke_T, aE_T, kTWO_PI_R in KI. rewrite kTWO_PI_R in KM. rops_in KI. rops_in KM.
  rewrite pow23 in KI by (apply Rdiv_lt_0_compat; [apply ke_pos|apply HO]). fold (Str3.a el) in KI.
  assert (PH : Rlt_bool (Str3.a el * (1 - Str3.e0 el)) (220 / Str3.aE + 1) = Rlt_bool (Str3.perigee_height el) 220).
  { assert (A : Str3.perigee_height el = (Str3.a el * (1 - Str3.e0 el) - 1) * Str3.aE) by reflexivity. rewrite A.
    unfold Str3.aE. do 2 (case Rlt_bool_spec; intros ?); try reflexivity; exfalso; lra. }
  rewrite PH in KI. clear PH AT EC.

  enough (G : coefs_of (sgp4init_elements o s0) = coefs_T el /\ incl_of (sgp4init_elements o s0) = incl_T' el /\
    (sr_isimp (sgp4init_elements o s0) <> 1%Z -> high_of (sgp4init_elements o s0) = high_T el)) by tauto.
  clear KN KM KI.
  unfold sgp4init_elements. cbv zeta. change (sgp4init_initl o (sgp4init_reset o s0)) with
    (initl (MkInitlOptions (in_opsmode o) MethodN (in_satn o) (in_xecco o) (in_epoch o) (in_xinclo o) (in_xno o))).
  unfold brouwer_no in NO. set (r := initl _) in *. clearbody r.
  set (s1 := sgp4init_after_initl r (sgp4init_reset o s0)).
  destruct RS as (R1 & R2 & R3 & R4 & R5 & R6 & R7 & R8 & R9).
  assert (U : sr_no s1 = Str3.n el /\ sr_ecco s1 = Str3.e0 el /\ sr_bstar s1 = Str3.Bstar el /\
    sr_argpo s1 = Str3.w0 el /\ sr_mo s1 = Str3.M0 el /\ sr_con41 s1 = 3 * Str3.theta el ^ 2 - 1).
  { assert (F1 : sr_no s1 = ir_no r) by reflexivity. assert (F2 : sr_con41 s1 = ir_con41 r) by reflexivity.
    rewrite F1, F2, NO, R2. repeat split. }
  assert (IY : sr_init s1 = InitY) by reflexivity.
  clearbody s1.
  assert (G : (fle (L 0 0) (ir_omeosq r) || fle (L 0 0) (sr_no s1))%bool = true).
  { destruct U as (-> & _). rops. apply orb_true_iff. right. apply Rle_bool_iff. apply Rlt_le, HO. }
  rewrite G. clear G.
  assert (RR : ir_con42 r = 1 - 5 * Str3.theta el ^ 2 /\
    ir_cosio r = Str3.theta el /\ ir_cosio2 r = Str3.theta el ^ 2 /\ ir_sinio r = sin (Str3.i0 el) /\
    ir_omeosq r = Str3.beta0 el ^ 2 /\ ir_rteosq r = Str3.beta0 el /\ ir_posq r = Str3.a el ^ 2 * Str3.beta0 el ^ 4 /\
    ir_rp r = Str3.a el * (1 - Str3.e0 el)) by tauto.
  pose proof (near_init r s1) as NI. rewrite IY in NI.
  assert (NC : coefs_of (ne_s (sgp4init_near r s1)) = coefs_T el).
  { unfold coefs_of, coefs_T.
    rewrite (cc1_T el r s1 AO RR U), (cc4_T el r s1 AO RR U), (cc5_T el r s1 AO RR U), (eta_T el r s1 AO RR U).
    destruct (rates_T el r s1 HO RR U) as (-> & -> & ->).
    rewrite (omgcof_T el r s1 AO RR U), (xmcof_T el r s1 AO RR U), (nodecf_T el r s1 HO AO RR U), (t2cof_T el r s1 AO RR U).
    destruct (epoch_T el r s1 AO RR U) as [-> ->]. reflexivity. }
  assert (NL : incl_of (ne_s (sgp4init_near r s1)) = incl_T' el).
  { unfold incl_of, incl_T'. destruct (long_T el r s1 RR) as [-> ->]. destruct (incl_T el r s1 RR U) as (-> & -> & ->). reflexivity. }
  pose proof (deep_coefs (in_epoch o) (ir_eccsq r) (ne_xpidot (sgp4init_near r s1)) _ NI) as [DC DL].
  rewrite NC in DC. rewrite NL in DL.
  pose proof (drag_coefs (ir_ao r) (ne_tsi (sgp4init_near r s1)) (ne_sfour (sgp4init_near r s1))
    (sgp4init_deep (in_epoch o) (ir_eccsq r) (ne_xpidot (sgp4init_near r s1)) (ne_s (sgp4init_near r s1)))) as [GC GL].
  rewrite DC in GC. rewrite DL in GL.
  split; [exact GC|]. split; [exact GL|].
  intros HI.
  set (v := sgp4init_deep (in_epoch o) (ir_eccsq r) (ne_xpidot (sgp4init_near r s1)) (ne_s (sgp4init_near r s1))) in *.
  assert (C1 : sr_cc1 v = Str3.C1 el) by exact (f_equal k_cc1 DC).
  destruct (drag_kind (ir_ao r) (ne_tsi (sgp4init_near r s1)) (ne_sfour (sgp4init_near r s1)) v) as (_ & EI & _).
  rewrite EI in HI.
  destruct (drag_T el r s1 AO RR v C1 HI) as (H1 & H2 & H3 & H4 & H5 & H6).
  unfold high_of, high_T. rewrite H1, H2, H3, H4, H5, H6. reflexivity.
Qed.
End Elements.

(** The same for the record [sgp4init] leaves; the five inclination constants only near the Earth, since a
    deep-space propagation (the one at epoch included) recomputes them. *)
Lemma sgp4_coefs fuel s t s' r : sgp4 fuel s t = Done (s', r) ->
  coefs_of s' = coefs_of s /\ high_of s' = high_of s /\ (sr_method s = MethodN -> incl_of s' = incl_of s).
Proof.
  intros H. apply sgp4_frame in H. destruct H as [HN HD]. destruct (sr_method s).
  - now rewrite (HN eq_refl).
  - destruct (HD eq_refl) as (a & x & c & p & q & ->). repeat split. discriminate.
Qed.
Lemma sgp4init_coefs fuel s0 o s r : sgp4init fuel s0 o = Done (s, r) -> orbital (elements o) ->
  coefs_of s = coefs_T (elements o) /\
  (sr_method s = MethodN -> incl_of s = incl_T' (elements o)) /\
  (sr_isimp s <> 1%Z -> high_of s = high_T (elements o)) /\
  sr_isimp s = (if Rle_bool 225 (2 * PI / Str3.n (elements o)) || Rlt_bool (Str3.perigee_height (elements o)) 220 then 1 else 0)%Z /\
  sr_method s = (if Rle_bool 225 (2 * PI / Str3.n (elements o)) then MethodD else MethodN).
Proof.
  intros H HO. pose proof (sgp4init_kind _ _ _ _ _ H) as K.
  apply sgp4init_inv in H. destruct H as (s1 & H & E). apply sgp4_coefs in H. destruct H as (H1 & H2 & H3).
  pose proof (elements_coefs o s0 HO) as (C & I & G & SI & M).
  assert (X : coefs_of s = coefs_of s1 /\ high_of s = high_of s1 /\ incl_of s = incl_of s1).
  { rewrite E. destruct r; repeat split. }
  destruct X as (X1 & X2 & X3).
  pose proof (f_equal kd_method K) as KM. pose proof (f_equal kd_isimp K) as KI. cbn [kind_of kd_method kd_isimp] in KM, KI.
  rewrite X1, H1, X2, H2, X3, KM, KI. repeat split; auto.
  intros N. rewrite H3; auto.
Qed.
