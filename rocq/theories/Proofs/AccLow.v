(** * Binary64 accuracy under a low perigee (157 to 219 km), where the drag terms are cut short *)
From Coq Require Import ZArith QArith Reals Qreals Bool Lra Lia Psatz.
From Flocq Require Import Core IEEE754.BinarySingleNaN.
From Verif.Model Require Import Float Str Satrec Constants Initl Sgp4 Sgp4init.
From Verif.Spec Require Import LibmAccuracy.
From Verif.Inst Require Import RInst RTac B64 B64Facts B64Calc ApxCalc.
From Verif.Proofs Require Import CalcFun CalcPow ApxFun AccInit AccNear AccSecular.
Local Open Scope R_scope.

(** the part of the record that is read then, the exact one and the computed one, field by field *)
Record lbounds := LB { lb_cc1 : eb; lb_x1mth2 : eb; lb_cc4 : eb; lb_mdot : eb; lb_argpdot : eb; lb_nodedot : eb; lb_nodecf : eb; lb_t2cof : eb; lb_xlcof : eb; lb_aycof : eb; lb_x7thm1 : eb }.
Definition low_ok (b : lbounds) (n : @NearOut b64) (n' : @NearOut R) : Prop :=
  apx (sr_cc1 (ne_s n)) (sr_cc1 (ne_s n')) (lb_cc1 b) /\ apx (sr_x1mth2 (ne_s n)) (sr_x1mth2 (ne_s n')) (lb_x1mth2 b) /\
  apx (sr_cc4 (ne_s n)) (sr_cc4 (ne_s n')) (lb_cc4 b) /\ apx (sr_mdot (ne_s n)) (sr_mdot (ne_s n')) (lb_mdot b) /\
  apx (sr_argpdot (ne_s n)) (sr_argpdot (ne_s n')) (lb_argpdot b) /\ apx (sr_nodedot (ne_s n)) (sr_nodedot (ne_s n')) (lb_nodedot b) /\
  apx (sr_nodecf (ne_s n)) (sr_nodecf (ne_s n')) (lb_nodecf b) /\ apx (sr_t2cof (ne_s n)) (sr_t2cof (ne_s n')) (lb_t2cof b) /\
  apx (sr_xlcof (ne_s n)) (sr_xlcof (ne_s n')) (lb_xlcof b) /\ apx (sr_aycof (ne_s n)) (sr_aycof (ne_s n')) (lb_aycof b) /\
  apx (sr_x7thm1 (ne_s n)) (sr_x7thm1 (ne_s n')) (lb_x7thm1 b) /\ sr_isimp (ne_s n) = 1%Z /\ sr_isimp (ne_s n') = 1%Z.
Definition low_in (E : eb) (b : lbounds) (s : Satrec b64) (s' : Satrec R) : Prop :=
  (sr_isimp s = 1%Z /\ sr_isimp s' = 1%Z) /\
  apx (sr_t s) (sr_t s') (Eb (-1440) 1440 0 0) /\ apx (sr_bstar s) (sr_bstar s') in_bst /\
  apx (sr_mo s) (sr_mo s') in_ang /\ apx (sr_argpo s) (sr_argpo s') in_ang /\ apx (sr_nodeo s) (sr_nodeo s') in_ang /\
  apx (sr_ecco s) (sr_ecco s') E /\ apx (sr_no s) (sr_no s') noB /\
  apx (sr_cc1 s) (sr_cc1 s') (lb_cc1 b) /\ apx (sr_cc4 s) (sr_cc4 s') (lb_cc4 b) /\
  apx (sr_mdot s) (sr_mdot s') (lb_mdot b) /\ apx (sr_argpdot s) (sr_argpdot s') (lb_argpdot b) /\ apx (sr_nodedot s) (sr_nodedot s') (lb_nodedot b) /\
  apx (sr_nodecf s) (sr_nodecf s') (lb_nodecf b) /\ apx (sr_t2cof s) (sr_t2cof s') (lb_t2cof b).

(** a sharper form of [near_facts] when the eccentricity is bounded below *)
Lemma near_sharp P S Z A AH E l W ao e rp s tsi eta psisq : P <= rp -> rp = ao * (1 - e) -> 0 <= l <= e -> e <= 1 / 2 -> 1 <= A <= ao -> ao <= AH -> Z <= s <= S -> S < P -> P <= A ->
  tsi = 1 / (ao - s) -> eta = ao * e * tsi -> psisq = Rabs (1 - eta * eta) -> 0 < psisq -> 0 <= eta <= 1 ->
  0 <= E -> l <= E -> AH * (E - l) <= E * Z -> 1 <= W * ((P - S) * (1 + E)) ->
  E <= eta /\ 0 <= tsi / psisq <= W /\ 0 <= tsi / (ao * psisq) <= W / A.
Proof.
  intros RP RE Il Ie IA IH Is SP PA Etsi Eeta Epsisq P0 I1 E0 EL HE HW.
  assert (D0 : 0 < ao - s) by lra.
  assert (T1 : tsi * (ao - s) = 1) by (rewrite Etsi; field; lra).
  assert (T0 : 0 < tsi) by (rewrite Etsi; apply Rdiv_lt_0_compat; lra).
  assert (EG : E <= eta).
  { rewrite Eeta. apply (Rmult_le_reg_r (ao - s)); [lra|]. rewrite Rmult_assoc, T1.
    assert (ao * (E - l) <= AH * (E - l)) by (apply Rmult_le_compat_r; lra). assert (E * Z <= E * s) by (apply Rmult_le_compat_l; lra). assert (ao * l <= ao * e) by (apply Rmult_le_compat_l; lra). lra. }
  assert (EE : 1 - eta = (rp - s) * tsi) by (rewrite Eeta, RE; lra).
  assert (ES : 0 <= eta * eta <= 1) by (split; nra).
  assert (PE : psisq = (rp - s) * tsi * (1 + eta)) by (rewrite Epsisq, Rabs_pos_eq by lra; rewrite <- EE; ring).
  assert (K : (P - S) * (1 + E) * tsi <= psisq).
  { rewrite PE. replace ((P - S) * (1 + E) * tsi) with ((P - S) * tsi * (1 + E)) by ring. apply Rmult_le_compat; [apply Rmult_le_pos; lra|lra| |lra]. apply Rmult_le_compat_r; lra. }
  assert (WP : 0 < W) by (apply (Rmult_lt_reg_r ((P - S) * (1 + E))); [apply Rmult_lt_0_compat; lra|]; lra).
  assert (TW : tsi / psisq <= W).
  { apply (Rmult_le_reg_r psisq); [lra|]. unfold Rdiv at 1. rewrite Rmult_assoc, Rinv_l by lra. rewrite Rmult_1_r.
    apply Rle_trans with (W * ((P - S) * (1 + E) * tsi)); [|apply Rmult_le_compat_l; lra].
    rewrite <- Rmult_assoc. rewrite <- (Rmult_1_l tsi) at 1. apply Rmult_le_compat_r; lra. }
  assert (TP0 : 0 <= tsi / psisq) by (apply Rle_mult_inv_pos; lra).
  split; [exact EG|]. split; [lra|]. replace (tsi / (ao * psisq)) with (tsi / psisq * / ao) by (field; lra). split; [apply Rmult_le_pos; [lra|]; left; apply Rinv_0_lt_compat; lra|].
  unfold Rdiv at 2. apply Rmult_le_compat; [lra|left; apply Rinv_0_lt_compat; lra|lra|apply Rinv_le_contravar; lra].
Qed.

Section S.
Context (lm : libm) (ACC : accurate lm).
Notation B := (B64Ops lm).
Lemma atmo_low rp rp' : apx rp rp' rpB -> 10246 / 10000 <= rp' <= 103434 / 100000 ->
  (@sgp4init_atmo _ B rp = MkAtmo (@ss_v _ B) (@qz_v _ B)) /\ (@sgp4init_atmo _ ROps rp' = MkAtmo (@ss_v _ ROps) (@qz_v _ ROps)) /\
  @flt _ B rp (@lim_v _ B) = true /\ @flt _ ROps rp' (@lim_v _ ROps) = true.
Proof.
  intros H LO. acut H (10246 # 10000)%Q (103434 # 100000)%Q. unfold sgp4init_atmo. cbv zeta.
  assert (F : @flt _ B (@per_v _ B rp) (@L _ B 156 0) = false /\ @flt _ ROps (@per_v _ ROps rp') (@L _ ROps 156 0) = false).
  { eapply apx_lt_false; [arel|arel|vm_compute; reflexivity]. }
  assert (G : @flt _ B rp (@lim_v _ B) = true /\ @flt _ ROps rp' (@lim_v _ ROps) = true).
  { eapply apx_lt_true; [arel|arel|vm_compute; reflexivity]. }
  unfold per_v in F. destruct F as [F1 F2]. rewrite F1, F2. destruct G as [G1 G2]. repeat split; assumption.
Qed.
Definition low1 := Eb (0 # 1) (1 # 1000) (12 # 10 ^ 17) (1 # 10 ^ 60).
Definition lb1 := LB (Eb (-124099 # 10 ^ 10) (124099 # 10 ^ 10) (844 # 10 ^ 14) (644 # 10 ^ 63))
  (Eb 0 (100002 # 10 ^ 5) (113 # 10 ^ 18) (427 # 10 ^ 17))
  (Eb (-943859 # 10 ^ 8) (144526 # 10 ^ 7) (804 # 10 ^ 15) (879 # 10 ^ 17))
  (Eb (277657 # 10 ^ 7) (733126 # 10 ^ 7) (123 # 10 ^ 17) 0)
  (Eb (-586173 # 10 ^ 10) (230362 # 10 ^ 9) (113 # 10 ^ 18) (283 # 10 ^ 20))
  (Eb (-113983 # 10 ^ 9) (112854 # 10 ^ 9) (113 # 10 ^ 18) (952 # 10 ^ 21))
  (Eb (-491428 # 10 ^ 14) (491428 # 10 ^ 14) (844 # 10 ^ 14) (102 # 10 ^ 25))
  (Eb (-186148 # 10 ^ 10) (186148 # 10 ^ 10) (844 # 10 ^ 14) (160 # 10 ^ 62))
  (Eb (-472508 # 10 ^ 6) (472508 # 10 ^ 6) (211 # 10 ^ 15) (163 # 10 ^ 17))
  (Eb (-116946 # 10 ^ 8) (116946 # 10 ^ 8) (561 # 10 ^ 18) (243 # 10 ^ 20))
  (Eb (-100002 # 10 ^ 5) (600007 # 10 ^ 5) (113 # 10 ^ 18) (307 # 10 ^ 16)).
Lemma low_acc1 (r : InitlReturn b64) (r' : InitlReturn R) (s : Satrec b64) (s' : Satrec R) :
  apx (ir_ao r) (ir_ao r') aoB -> apx (ir_cosio r) (ir_cosio r') cosB -> apx (ir_cosio2 r) (ir_cosio2 r') cos2B ->
  apx (ir_con42 r) (ir_con42 r') con42B -> apx (ir_rteosq r) (ir_rteosq r') rteB ->
  apx (ir_omeosq r) (ir_omeosq r') omeB -> apx (ir_sinio r) (ir_sinio r') sinB -> apx (ir_posq r) (ir_posq r') posqB -> apx (ir_rp r) (ir_rp r') rpB ->
  10246 / 10000 <= ir_rp r' <= 103434 / 100000 -> ir_rp r' = ir_ao r' * (1 - sr_ecco s') -> ir_rp r' * ir_rp r' <= ir_posq r' ->
  apx (sr_ecco s) (sr_ecco s') low1 -> apx (sr_no s) (sr_no s') noB -> apx (sr_con41 s) (sr_con41 s') con41B ->
  apx (sr_bstar s) (sr_bstar s') in_bst -> apx (sr_argpo s) (sr_argpo s') in_ang ->
  low_ok lb1 (@sgp4init_near _ B r s) (@sgp4init_near _ ROps r' s').
Proof.
  intros Hao Hcosio Hcosio2 Hcon42 Hrte Home Hsin Hposq Hrp RP RE RS He Hno Hcon41 Hbs Hargp.
  assert (PQ : 1049 / 1000 <= ir_posq r') by nra. acut Hposq (1049 # 1000)%Q 4%Q.
  destruct (atmo_low _ _ Hrp RP) as (A1 & A2 & G1 & G2). set (P := low_ok lb1).
  assert (AL : 1024600 / 1000000 <= ir_ao r').
  { ivl Hao Ia. ivl He Ie. apply (Rmult_le_reg_r (1 - sr_ecco s')); [lra|]. rewrite <- RE. lra. }
  assert (AU : ir_ao r' <= 1035376 / 1000000).
  { ivl Hao Ia. ivl He Ie. apply (Rmult_le_reg_r (1 - sr_ecco s')); [lra|]. rewrite <- RE. lra. }
  acut Hao (1024600 # 1000000)%Q (1035376 # 1000000)%Q. ivl Hao Iao. ivl He Ie.
  aconst @kJ2. aconst @kJ4. aconst @kJ3OJ2. aconst @kX2O3. aconst @kEARTH_RADIUS.
  cbv beta delta [sgp4init_near]. do 13 astep. askip. astep. askip. askip. fold (@lim_v _ B). fold (@lim_v _ ROps). rewrite A1, A2, G1, G2. cbv beta iota delta [at_sfour at_qzms24].
  lets sfour. lets qzms24. lets pinvsq. lets tsi. lets eta. ivl Hsfour Isf. ivl Hqzms24 Iqz.
  destruct (near_facts (10246 / 10000) (101223 / 100000) (1024600 / 1000000) (80841 / 1000) (76565 / 1000000) (80841 / 1000) (1 / 1000) (ir_ao r') (sr_ecco s') (ir_rp r') sfour' tsi' eta' (Rabs (1 - eta' * eta'))) as (T0 & ET & (PS & P0) & TP & TA); try assumption; try lra; try reflexivity.
  destruct (near_sharp (10246 / 10000) (101223 / 100000) (101222 / 100000) (1024600 / 1000000) (1035376 / 1000000) (0 / 1) (0 / 1) (80841 / 1000) (ir_ao r') (sr_ecco s') (ir_rp r') sfour' tsi' eta' (Rabs (1 - eta' * eta'))) as (EG & TP2 & TA2); try assumption; try lra; try reflexivity. clear TP TA.
  acut Heta (0 # 1)%Q (76565 # 1000000)%Q. acut Htsi 1%Q (80841 # 1000)%Q. lets etasq. lets eeta. lets psisq.
  assert (PE : Rabs (1 - eta' * eta') = psisq') by (rewrite Epsisq, Eetasq; reflexivity). rewrite PE in PS, P0, TP2, TA2.
  assert (PH : psisq' <= 1 / 1) by (rewrite Epsisq, Eetasq; rops; rewrite Rabs_pos_eq by nra; nra).
  acut Hpsisq (99413 # 100000)%Q (1 # 1)%Q.
  lets coef. lets coef1.
  assert (C1 : 0 <= coef1' <= (80338 / 1000000)) by (rewrite Ecoef1, Ecoef; rops; rewrite Rpow_pos_base by lra; apply (coef1_R _ _ _ (80841 / 1000) (80841 / 1000) (80842 / 1000) _ (1881 / 1000000000000)); lra).
  acut Hcoef1 0%Q (80338 # 1000000)%Q.
  eassert (Hq1 : apx (@q1_v _ B tsi psisq) (@q1_v _ ROps tsi' psisq') _) by (unfold q1_v; arel).
  assert (Q1 : 0 <= @q1_v _ ROps tsi' psisq' <= 32821 / 1000000) by (rewrite q1_R by lra; lra).
  acut Hq1 0%Q (32821 # 1000000)%Q. unfold q1_v in Hq1.
  eassert (Hq2 : apx (@q2_v _ B tsi (ir_ao r) psisq) (@q2_v _ ROps tsi' (ir_ao r') psisq') _) by (unfold q2_v; arel).
  assert (Q2 : 0 <= @q2_v _ ROps tsi' (ir_ao r') psisq' <= 85420 / 1000000) by (rewrite q2_R by lra; lra).
  acut Hq2 0%Q (85420 # 1000000)%Q. unfold q2_v in Hq2.
  lets cc2. lets cc1. askip. askip. lets x1mth2. lets cc4. askip. lets cosio4. lets temp1. lets temp2. lets temp3.
  lets mdot. lets argpdot. lets xhdot1. lets nodedot. do 4 askip. lets nodecf. lets t2cof. lets xlcof. lets aycof. do 3 askip. lets x7thm1.
  do 18 askip. unfold P, low_ok. cbn [ne_s]. near_fields. asplit. split; reflexivity.
Qed.
Definition low2 := Eb (1 # 1000) (3 # 1000) (12 # 10 ^ 17) (1 # 10 ^ 60).
Definition lb2 := LB (Eb (-109367 # 10 ^ 10) (109367 # 10 ^ 10) (101 # 10 ^ 13) (642 # 10 ^ 63))
  (Eb 0 (100002 # 10 ^ 5) (113 # 10 ^ 18) (427 # 10 ^ 17))
  (Eb (-715614 # 10 ^ 8) (147625 # 10 ^ 7) (790 # 10 ^ 15) (895 # 10 ^ 17))
  (Eb (277657 # 10 ^ 7) (733126 # 10 ^ 7) (123 # 10 ^ 17) 0)
  (Eb (-586173 # 10 ^ 10) (230362 # 10 ^ 9) (113 # 10 ^ 18) (283 # 10 ^ 20))
  (Eb (-113983 # 10 ^ 9) (112854 # 10 ^ 9) (113 # 10 ^ 18) (952 # 10 ^ 21))
  (Eb (-433089 # 10 ^ 14) (433089 # 10 ^ 14) (101 # 10 ^ 13) (897 # 10 ^ 26))
  (Eb (-164050 # 10 ^ 10) (164050 # 10 ^ 10) (101 # 10 ^ 13) (160 # 10 ^ 62))
  (Eb (-472508 # 10 ^ 6) (472508 # 10 ^ 6) (211 # 10 ^ 15) (163 # 10 ^ 17))
  (Eb (-116946 # 10 ^ 8) (116946 # 10 ^ 8) (561 # 10 ^ 18) (243 # 10 ^ 20))
  (Eb (-100002 # 10 ^ 5) (600007 # 10 ^ 5) (113 # 10 ^ 18) (307 # 10 ^ 16)).
Lemma low_acc2 (r : InitlReturn b64) (r' : InitlReturn R) (s : Satrec b64) (s' : Satrec R) :
  apx (ir_ao r) (ir_ao r') aoB -> apx (ir_cosio r) (ir_cosio r') cosB -> apx (ir_cosio2 r) (ir_cosio2 r') cos2B ->
  apx (ir_con42 r) (ir_con42 r') con42B -> apx (ir_rteosq r) (ir_rteosq r') rteB ->
  apx (ir_omeosq r) (ir_omeosq r') omeB -> apx (ir_sinio r) (ir_sinio r') sinB -> apx (ir_posq r) (ir_posq r') posqB -> apx (ir_rp r) (ir_rp r') rpB ->
  10246 / 10000 <= ir_rp r' <= 103434 / 100000 -> ir_rp r' = ir_ao r' * (1 - sr_ecco s') -> ir_rp r' * ir_rp r' <= ir_posq r' ->
  apx (sr_ecco s) (sr_ecco s') low2 -> apx (sr_no s) (sr_no s') noB -> apx (sr_con41 s) (sr_con41 s') con41B ->
  apx (sr_bstar s) (sr_bstar s') in_bst -> apx (sr_argpo s) (sr_argpo s') in_ang ->
  low_ok lb2 (@sgp4init_near _ B r s) (@sgp4init_near _ ROps r' s').
Proof.
  intros Hao Hcosio Hcosio2 Hcon42 Hrte Home Hsin Hposq Hrp RP RE RS He Hno Hcon41 Hbs Hargp.
  assert (PQ : 1049 / 1000 <= ir_posq r') by nra. acut Hposq (1049 # 1000)%Q 4%Q.
  destruct (atmo_low _ _ Hrp RP) as (A1 & A2 & G1 & G2). set (P := low_ok lb2).
  assert (AL : 1025625 / 1000000 <= ir_ao r').
  { ivl Hao Ia. ivl He Ie. apply (Rmult_le_reg_r (1 - sr_ecco s')); [lra|]. rewrite <- RE. lra. }
  assert (AU : ir_ao r' <= 1037453 / 1000000).
  { ivl Hao Ia. ivl He Ie. apply (Rmult_le_reg_r (1 - sr_ecco s')); [lra|]. rewrite <- RE. lra. }
  acut Hao (1025625 # 1000000)%Q (1037453 # 1000000)%Q. ivl Hao Iao. ivl He Ie.
  aconst @kJ2. aconst @kJ4. aconst @kJ3OJ2. aconst @kX2O3. aconst @kEARTH_RADIUS.
  cbv beta delta [sgp4init_near]. do 13 astep. askip. astep. askip. askip. fold (@lim_v _ B). fold (@lim_v _ ROps). rewrite A1, A2, G1, G2. cbv beta iota delta [at_sfour at_qzms24].
  lets sfour. lets qzms24. lets pinvsq. lets tsi. lets eta. ivl Hsfour Isf. ivl Hqzms24 Iqz.
  destruct (near_facts (10246 / 10000) (101223 / 100000) (1025625 / 1000000) (74655 / 1000) (19952 / 100000) (80841 / 1000) (3 / 1000) (ir_ao r') (sr_ecco s') (ir_rp r') sfour' tsi' eta' (Rabs (1 - eta' * eta'))) as (T0 & ET & (PS & P0) & TP & TA); try assumption; try lra; try reflexivity.
  destruct (near_sharp (10246 / 10000) (101223 / 100000) (101222 / 100000) (1025625 / 1000000) (1037453 / 1000000) (41114 / 1000000) (1 / 1000) (77649 / 1000) (ir_ao r') (sr_ecco s') (ir_rp r') sfour' tsi' eta' (Rabs (1 - eta' * eta'))) as (EG & TP2 & TA2); try assumption; try lra; try reflexivity. clear TP TA.
  acut Heta (41114 # 1000000)%Q (19952 # 100000)%Q. acut Htsi 1%Q (74655 # 1000)%Q. lets etasq. lets eeta. lets psisq.
  assert (PE : Rabs (1 - eta' * eta') = psisq') by (rewrite Epsisq, Eetasq; reflexivity). rewrite PE in PS, P0, TP2, TA2.
  assert (PH : psisq' <= 99831 / 100000) by (rewrite Epsisq, Eetasq; rops; rewrite Rabs_pos_eq by nra; nra).
  acut Hpsisq (96019 # 100000)%Q (99831 # 100000)%Q.
  lets coef. lets coef1.
  assert (C1 : 0 <= coef1' <= (67050 / 1000000)) by (rewrite Ecoef1, Ecoef; rops; rewrite Rpow_pos_base by lra; apply (coef1_R _ _ _ (74655 / 1000) (77649 / 1000) (76138 / 1000) _ (1881 / 1000000000000)); lra).
  acut Hcoef1 0%Q (67050 # 1000000)%Q.
  eassert (Hq1 : apx (@q1_v _ B tsi psisq) (@q1_v _ ROps tsi' psisq') _) by (unfold q1_v; arel).
  assert (Q1 : 0 <= @q1_v _ ROps tsi' psisq' <= 31525 / 1000000) by (rewrite q1_R by lra; lra).
  acut Hq1 0%Q (31525 # 1000000)%Q. unfold q1_v in Hq1.
  eassert (Hq2 : apx (@q2_v _ B tsi (ir_ao r) psisq) (@q2_v _ ROps tsi' (ir_ao r') psisq') _) by (unfold q2_v; arel).
  assert (Q2 : 0 <= @q2_v _ ROps tsi' (ir_ao r') psisq' <= 81965 / 1000000) by (rewrite q2_R by lra; lra).
  acut Hq2 0%Q (81965 # 1000000)%Q. unfold q2_v in Hq2.
  lets cc2. lets cc1. askip. askip. lets x1mth2. lets cc4. askip. lets cosio4. lets temp1. lets temp2. lets temp3.
  lets mdot. lets argpdot. lets xhdot1. lets nodedot. do 4 askip. lets nodecf. lets t2cof. lets xlcof. lets aycof. do 3 askip. lets x7thm1.
  do 18 askip. unfold P, low_ok. cbn [ne_s]. near_fields. asplit. split; reflexivity.
Qed.
Definition low3 := Eb (3 # 1000) (1 # 125) (12 # 10 ^ 17) (1 # 10 ^ 60).
Definition lb3 := LB (Eb (-101766 # 10 ^ 10) (101766 # 10 ^ 10) (855 # 10 ^ 15) (700 # 10 ^ 20))
  (Eb 0 (100002 # 10 ^ 5) (113 # 10 ^ 18) (427 # 10 ^ 17))
  (Eb (-523642 # 10 ^ 8) (156194 # 10 ^ 7) (858 # 10 ^ 15) (902 # 10 ^ 17))
  (Eb (277657 # 10 ^ 7) (733126 # 10 ^ 7) (123 # 10 ^ 17) 0)
  (Eb (-586173 # 10 ^ 10) (230362 # 10 ^ 9) (113 # 10 ^ 18) (283 # 10 ^ 20))
  (Eb (-113983 # 10 ^ 9) (112854 # 10 ^ 9) (113 # 10 ^ 18) (952 # 10 ^ 21))
  (Eb (-402989 # 10 ^ 14) (402989 # 10 ^ 14) (862 # 10 ^ 15) (278 # 10 ^ 23))
  (Eb (-152648 # 10 ^ 10) (152648 # 10 ^ 10) (856 # 10 ^ 15) (105 # 10 ^ 19))
  (Eb (-472508 # 10 ^ 6) (472508 # 10 ^ 6) (211 # 10 ^ 15) (163 # 10 ^ 17))
  (Eb (-116946 # 10 ^ 8) (116946 # 10 ^ 8) (561 # 10 ^ 18) (243 # 10 ^ 20))
  (Eb (-100002 # 10 ^ 5) (600007 # 10 ^ 5) (113 # 10 ^ 18) (307 # 10 ^ 16)).
Lemma low_acc3 (r : InitlReturn b64) (r' : InitlReturn R) (s : Satrec b64) (s' : Satrec R) :
  apx (ir_ao r) (ir_ao r') aoB -> apx (ir_cosio r) (ir_cosio r') cosB -> apx (ir_cosio2 r) (ir_cosio2 r') cos2B ->
  apx (ir_con42 r) (ir_con42 r') con42B -> apx (ir_rteosq r) (ir_rteosq r') rteB ->
  apx (ir_omeosq r) (ir_omeosq r') omeB -> apx (ir_sinio r) (ir_sinio r') sinB -> apx (ir_posq r) (ir_posq r') posqB -> apx (ir_rp r) (ir_rp r') rpB ->
  10246 / 10000 <= ir_rp r' <= 103434 / 100000 -> ir_rp r' = ir_ao r' * (1 - sr_ecco s') -> ir_rp r' * ir_rp r' <= ir_posq r' ->
  apx (sr_ecco s) (sr_ecco s') low3 -> apx (sr_no s) (sr_no s') noB -> apx (sr_con41 s) (sr_con41 s') con41B ->
  apx (sr_bstar s) (sr_bstar s') in_bst -> apx (sr_argpo s) (sr_argpo s') in_ang ->
  low_ok lb3 (@sgp4init_near _ B r s) (@sgp4init_near _ ROps r' s').
Proof.
  intros Hao Hcosio Hcosio2 Hcon42 Hrte Home Hsin Hposq Hrp RP RE RS He Hno Hcon41 Hbs Hargp.
  assert (PQ : 1049 / 1000 <= ir_posq r') by nra. acut Hposq (1049 # 1000)%Q 4%Q.
  destruct (atmo_low _ _ Hrp RP) as (A1 & A2 & G1 & G2). set (P := low_ok lb3).
  assert (AL : 1027683 / 1000000 <= ir_ao r').
  { ivl Hao Ia. ivl He Ie. apply (Rmult_le_reg_r (1 - sr_ecco s')); [lra|]. rewrite <- RE. lra. }
  assert (AU : ir_ao r' <= 1042682 / 1000000).
  { ivl Hao Ia. ivl He Ie. apply (Rmult_le_reg_r (1 - sr_ecco s')); [lra|]. rewrite <- RE. lra. }
  acut Hao (1027683 # 1000000)%Q (1042682 # 1000000)%Q. ivl Hao Iao. ivl He Ie.
  aconst @kJ2. aconst @kJ4. aconst @kJ3OJ2. aconst @kX2O3. aconst @kEARTH_RADIUS.
  cbv beta delta [sgp4init_near]. do 13 astep. askip. astep. askip. askip. fold (@lim_v _ B). fold (@lim_v _ ROps). rewrite A1, A2, G1, G2. cbv beta iota delta [at_sfour at_qzms24].
  lets sfour. lets qzms24. lets pinvsq. lets tsi. lets eta. ivl Hsfour Isf. ivl Hqzms24 Iqz.
  destruct (near_facts (10246 / 10000) (101223 / 100000) (1027683 / 1000000) (64713 / 1000) (40048 / 100000) (80841 / 1000) (1 / 125) (ir_ao r') (sr_ecco s') (ir_rp r') sfour' tsi' eta' (Rabs (1 - eta' * eta'))) as (T0 & ET & (PS & P0) & TP & TA); try assumption; try lra; try reflexivity.
  destruct (near_sharp (10246 / 10000) (101223 / 100000) (101222 / 100000) (1027683 / 1000000) (1042682 / 1000000) (10268 / 100000) (3 / 1000) (73313 / 1000) (ir_ao r') (sr_ecco s') (ir_rp r') sfour' tsi' eta' (Rabs (1 - eta' * eta'))) as (EG & TP2 & TA2); try assumption; try lra; try reflexivity. clear TP TA.
  acut Heta (10268 # 100000)%Q (40048 # 100000)%Q. acut Htsi 1%Q (64713 # 1000)%Q. lets etasq. lets eeta. lets psisq.
  assert (PE : Rabs (1 - eta' * eta') = psisq') by (rewrite Epsisq, Eetasq; reflexivity). rewrite PE in PS, P0, TP2, TA2.
  assert (PH : psisq' <= 98946 / 100000) by (rewrite Epsisq, Eetasq; rops; rewrite Rabs_pos_eq by nra; nra).
  acut Hpsisq (83961 # 100000)%Q (98946 # 100000)%Q.
  lets coef. lets coef1.
  assert (C1 : 0 <= coef1' <= (51053 / 1000000)) by (rewrite Ecoef1, Ecoef; rops; rewrite Rpow_pos_base by lra; apply (coef1_R _ _ _ (64713 / 1000) (73313 / 1000) (68879 / 1000) _ (1881 / 1000000000000)); lra).
  acut Hcoef1 0%Q (51053 # 1000000)%Q.
  eassert (Hq1 : apx (@q1_v _ B tsi psisq) (@q1_v _ ROps tsi' psisq') _) by (unfold q1_v; arel).
  assert (Q1 : 0 <= @q1_v _ ROps tsi' psisq' <= 29765 / 1000000) by (rewrite q1_R by lra; lra).
  acut Hq1 0%Q (29765 # 1000000)%Q. unfold q1_v in Hq1.
  eassert (Hq2 : apx (@q2_v _ B tsi (ir_ao r) psisq) (@q2_v _ ROps tsi' (ir_ao r') psisq') _) by (unfold q2_v; arel).
  assert (Q2 : 0 <= @q2_v _ ROps tsi' (ir_ao r') psisq' <= 77233 / 1000000) by (rewrite q2_R by lra; lra).
  acut Hq2 0%Q (77233 # 1000000)%Q. unfold q2_v in Hq2.
  lets cc2. lets cc1. askip. askip. lets x1mth2. lets cc4. askip. lets cosio4. lets temp1. lets temp2. lets temp3.
  lets mdot. lets argpdot. lets xhdot1. lets nodedot. do 4 askip. lets nodecf. lets t2cof. lets xlcof. lets aycof. do 3 askip. lets x7thm1.
  do 18 askip. unfold P, low_ok. cbn [ne_s]. near_fields. asplit. split; reflexivity.
Qed.
Definition low4 := Eb (1 # 125) (1 # 50) (12 # 10 ^ 17) (1 # 10 ^ 60).
Definition lb4 := LB (Eb (-903226 # 10 ^ 11) (903226 # 10 ^ 11) (105 # 10 ^ 14) (531 # 10 ^ 20))
  (Eb 0 (100002 # 10 ^ 5) (113 # 10 ^ 18) (427 # 10 ^ 17))
  (Eb (-337472 # 10 ^ 8) (143913 # 10 ^ 7) (105 # 10 ^ 14) (719 # 10 ^ 17))
  (Eb (277657 # 10 ^ 7) (733126 # 10 ^ 7) (123 # 10 ^ 17) 0)
  (Eb (-586173 # 10 ^ 10) (230362 # 10 ^ 9) (113 # 10 ^ 18) (283 # 10 ^ 20))
  (Eb (-113983 # 10 ^ 9) (112854 # 10 ^ 9) (113 # 10 ^ 18) (952 # 10 ^ 21))
  (Eb (-357676 # 10 ^ 14) (357676 # 10 ^ 14) (106 # 10 ^ 14) (211 # 10 ^ 23))
  (Eb (-135484 # 10 ^ 10) (135484 # 10 ^ 10) (105 # 10 ^ 14) (796 # 10 ^ 20))
  (Eb (-472508 # 10 ^ 6) (472508 # 10 ^ 6) (211 # 10 ^ 15) (163 # 10 ^ 17))
  (Eb (-116946 # 10 ^ 8) (116946 # 10 ^ 8) (561 # 10 ^ 18) (243 # 10 ^ 20))
  (Eb (-100002 # 10 ^ 5) (600007 # 10 ^ 5) (113 # 10 ^ 18) (307 # 10 ^ 16)).
Lemma low_acc4 (r : InitlReturn b64) (r' : InitlReturn R) (s : Satrec b64) (s' : Satrec R) :
  apx (ir_ao r) (ir_ao r') aoB -> apx (ir_cosio r) (ir_cosio r') cosB -> apx (ir_cosio2 r) (ir_cosio2 r') cos2B ->
  apx (ir_con42 r) (ir_con42 r') con42B -> apx (ir_rteosq r) (ir_rteosq r') rteB ->
  apx (ir_omeosq r) (ir_omeosq r') omeB -> apx (ir_sinio r) (ir_sinio r') sinB -> apx (ir_posq r) (ir_posq r') posqB -> apx (ir_rp r) (ir_rp r') rpB ->
  10246 / 10000 <= ir_rp r' <= 103434 / 100000 -> ir_rp r' = ir_ao r' * (1 - sr_ecco s') -> ir_rp r' * ir_rp r' <= ir_posq r' ->
  apx (sr_ecco s) (sr_ecco s') low4 -> apx (sr_no s) (sr_no s') noB -> apx (sr_con41 s) (sr_con41 s') con41B ->
  apx (sr_bstar s) (sr_bstar s') in_bst -> apx (sr_argpo s) (sr_argpo s') in_ang ->
  low_ok lb4 (@sgp4init_near _ B r s) (@sgp4init_near _ ROps r' s').
Proof.
  intros Hao Hcosio Hcosio2 Hcon42 Hrte Home Hsin Hposq Hrp RP RE RS He Hno Hcon41 Hbs Hargp.
  assert (PQ : 1049 / 1000 <= ir_posq r') by nra. acut Hposq (1049 # 1000)%Q 4%Q.
  destruct (atmo_low _ _ Hrp RP) as (A1 & A2 & G1 & G2). set (P := low_ok lb4).
  assert (AL : 1032862 / 1000000 <= ir_ao r').
  { ivl Hao Ia. ivl He Ie. apply (Rmult_le_reg_r (1 - sr_ecco s')); [lra|]. rewrite <- RE. lra. }
  assert (AU : ir_ao r' <= 1055449 / 1000000).
  { ivl Hao Ia. ivl He Ie. apply (Rmult_le_reg_r (1 - sr_ecco s')); [lra|]. rewrite <- RE. lra. }
  acut Hao (1032862 # 1000000)%Q (1055449 # 1000000)%Q. ivl Hao Iao. ivl He Ie.
  aconst @kJ2. aconst @kJ4. aconst @kJ3OJ2. aconst @kX2O3. aconst @kEARTH_RADIUS.
  cbv beta delta [sgp4init_near]. do 13 astep. askip. astep. askip. askip. fold (@lim_v _ B). fold (@lim_v _ ROps). rewrite A1, A2, G1, G2. cbv beta iota delta [at_sfour at_qzms24].
  lets sfour. lets qzms24. lets pinvsq. lets tsi. lets eta. ivl Hsfour Isf. ivl Hqzms24 Iqz.
  destruct (near_facts (10246 / 10000) (101223 / 100000) (1032862 / 1000000) (48469 / 1000) (62831 / 100000) (80841 / 1000) (1 / 50) (ir_ao r') (sr_ecco s') (ir_rp r') sfour' tsi' eta' (Rabs (1 - eta' * eta'))) as (T0 & ET & (PS & P0) & TP & TA); try assumption; try lra; try reflexivity.
  destruct (near_sharp (10246 / 10000) (101223 / 100000) (101222 / 100000) (1032862 / 1000000) (1055449 / 1000000) (19532 / 100000) (1 / 125) (67632 / 1000) (ir_ao r') (sr_ecco s') (ir_rp r') sfour' tsi' eta' (Rabs (1 - eta' * eta'))) as (EG & TP2 & TA2); try assumption; try lra; try reflexivity. clear TP TA.
  acut Heta (19532 # 100000)%Q (62831 # 100000)%Q. acut Htsi 1%Q (48469 # 1000)%Q. lets etasq. lets eeta. lets psisq.
  assert (PE : Rabs (1 - eta' * eta') = psisq') by (rewrite Epsisq, Eetasq; reflexivity). rewrite PE in PS, P0, TP2, TA2.
  assert (PH : psisq' <= 96186 / 100000) by (rewrite Epsisq, Eetasq; rops; rewrite Rabs_pos_eq by nra; nra).
  acut Hpsisq (60522 # 100000)%Q (96186 # 100000)%Q.
  lets coef. lets coef1.
  assert (C1 : 0 <= coef1' <= (33317 / 1000000)) by (rewrite Ecoef1, Ecoef; rops; rewrite Rpow_pos_base by lra; apply (coef1_R _ _ _ (48469 / 1000) (67632 / 1000) (57255 / 1000) _ (1881 / 1000000000000)); lra).
  acut Hcoef1 0%Q (33317 # 1000000)%Q.
  eassert (Hq1 : apx (@q1_v _ B tsi psisq) (@q1_v _ ROps tsi' psisq') _) by (unfold q1_v; arel).
  assert (Q1 : 0 <= @q1_v _ ROps tsi' psisq' <= 27458 / 1000000) by (rewrite q1_R by lra; lra).
  acut Hq1 0%Q (27458 # 1000000)%Q. unfold q1_v in Hq1.
  eassert (Hq2 : apx (@q2_v _ B tsi (ir_ao r) psisq) (@q2_v _ ROps tsi' (ir_ao r') psisq') _) by (unfold q2_v; arel).
  assert (Q2 : 0 <= @q2_v _ ROps tsi' (ir_ao r') psisq' <= 70891 / 1000000) by (rewrite q2_R by lra; lra).
  acut Hq2 0%Q (70891 # 1000000)%Q. unfold q2_v in Hq2.
  lets cc2. lets cc1. askip. askip. lets x1mth2. lets cc4. askip. lets cosio4. lets temp1. lets temp2. lets temp3.
  lets mdot. lets argpdot. lets xhdot1. lets nodedot. do 4 askip. lets nodecf. lets t2cof. lets xlcof. lets aycof. do 3 askip. lets x7thm1.
  do 18 askip. unfold P, low_ok. cbn [ne_s]. near_fields. asplit. split; reflexivity.
Qed.
Definition low5 := Eb (1 # 50) (1 # 20) (12 # 10 ^ 17) (1 # 10 ^ 60).
Definition lb5 := LB (Eb (-738034 # 10 ^ 11) (738034 # 10 ^ 11) (140 # 10 ^ 14) (358 # 10 ^ 20))
  (Eb 0 (100002 # 10 ^ 5) (113 # 10 ^ 18) (427 # 10 ^ 17))
  (Eb (-205081 # 10 ^ 8) (116844 # 10 ^ 7) (140 # 10 ^ 14) (491 # 10 ^ 17))
  (Eb (277657 # 10 ^ 7) (733126 # 10 ^ 7) (123 # 10 ^ 17) 0)
  (Eb (-586173 # 10 ^ 10) (230362 # 10 ^ 9) (113 # 10 ^ 18) (283 # 10 ^ 20))
  (Eb (-113983 # 10 ^ 9) (112854 # 10 ^ 9) (113 # 10 ^ 18) (952 # 10 ^ 21))
  (Eb (-292260 # 10 ^ 14) (292260 # 10 ^ 14) (140 # 10 ^ 14) (143 # 10 ^ 23))
  (Eb (-110706 # 10 ^ 10) (110706 # 10 ^ 10) (140 # 10 ^ 14) (537 # 10 ^ 20))
  (Eb (-472508 # 10 ^ 6) (472508 # 10 ^ 6) (211 # 10 ^ 15) (163 # 10 ^ 17))
  (Eb (-116946 # 10 ^ 8) (116946 # 10 ^ 8) (561 # 10 ^ 18) (243 # 10 ^ 20))
  (Eb (-100002 # 10 ^ 5) (600007 # 10 ^ 5) (113 # 10 ^ 18) (307 # 10 ^ 16)).
Lemma low_acc5 (r : InitlReturn b64) (r' : InitlReturn R) (s : Satrec b64) (s' : Satrec R) :
  apx (ir_ao r) (ir_ao r') aoB -> apx (ir_cosio r) (ir_cosio r') cosB -> apx (ir_cosio2 r) (ir_cosio2 r') cos2B ->
  apx (ir_con42 r) (ir_con42 r') con42B -> apx (ir_rteosq r) (ir_rteosq r') rteB ->
  apx (ir_omeosq r) (ir_omeosq r') omeB -> apx (ir_sinio r) (ir_sinio r') sinB -> apx (ir_posq r) (ir_posq r') posqB -> apx (ir_rp r) (ir_rp r') rpB ->
  10246 / 10000 <= ir_rp r' <= 103434 / 100000 -> ir_rp r' = ir_ao r' * (1 - sr_ecco s') -> ir_rp r' * ir_rp r' <= ir_posq r' ->
  apx (sr_ecco s) (sr_ecco s') low5 -> apx (sr_no s) (sr_no s') noB -> apx (sr_con41 s) (sr_con41 s') con41B ->
  apx (sr_bstar s) (sr_bstar s') in_bst -> apx (sr_argpo s) (sr_argpo s') in_ang ->
  low_ok lb5 (@sgp4init_near _ B r s) (@sgp4init_near _ ROps r' s').
Proof.
  intros Hao Hcosio Hcosio2 Hcon42 Hrte Home Hsin Hposq Hrp RP RE RS He Hno Hcon41 Hbs Hargp.
  assert (PQ : 1049 / 1000 <= ir_posq r') by nra. acut Hposq (1049 # 1000)%Q 4%Q.
  destruct (atmo_low _ _ Hrp RP) as (A1 & A2 & G1 & G2). set (P := low_ok lb5).
  assert (AL : 1045510 / 1000000 <= ir_ao r').
  { ivl Hao Ia. ivl He Ie. apply (Rmult_le_reg_r (1 - sr_ecco s')); [lra|]. rewrite <- RE. lra. }
  assert (AU : ir_ao r' <= 1088779 / 1000000).
  { ivl Hao Ia. ivl He Ie. apply (Rmult_le_reg_r (1 - sr_ecco s')); [lra|]. rewrite <- RE. lra. }
  acut Hao (1045510 # 1000000)%Q (1088779 # 1000000)%Q. ivl Hao Iao. ivl He Ie.
  aconst @kJ2. aconst @kJ4. aconst @kJ3OJ2. aconst @kX2O3. aconst @kEARTH_RADIUS.
  cbv beta delta [sgp4init_near]. do 13 astep. askip. astep. askip. askip. fold (@lim_v _ B). fold (@lim_v _ ROps). rewrite A1, A2, G1, G2. cbv beta iota delta [at_sfour at_qzms24].
  lets sfour. lets qzms24. lets pinvsq. lets tsi. lets eta. ivl Hsfour Isf. ivl Hqzms24 Iqz.
  destruct (near_facts (10246 / 10000) (101223 / 100000) (1045510 / 1000000) (30049 / 1000) (81342 / 100000) (80841 / 1000) (1 / 20) (ir_ao r') (sr_ecco s') (ir_rp r') sfour' tsi' eta' (Rabs (1 - eta' * eta'))) as (T0 & ET & (PS & P0) & TP & TA); try assumption; try lra; try reflexivity.
  destruct (near_sharp (10246 / 10000) (101223 / 100000) (101222 / 100000) (1045510 / 1000000) (1088779 / 1000000) (28442 / 100000) (1 / 50) (62940 / 1000) (ir_ao r') (sr_ecco s') (ir_rp r') sfour' tsi' eta' (Rabs (1 - eta' * eta'))) as (EG & TP2 & TA2); try assumption; try lra; try reflexivity. clear TP TA.
  acut Heta (28442 # 100000)%Q (81342 # 100000)%Q. acut Htsi 1%Q (30049 # 1000)%Q. lets etasq. lets eeta. lets psisq.
  assert (PE : Rabs (1 - eta' * eta') = psisq') by (rewrite Epsisq, Eetasq; reflexivity). rewrite PE in PS, P0, TP2, TA2.
  assert (PH : psisq' <= 91911 / 100000) by (rewrite Epsisq, Eetasq; rops; rewrite Rabs_pos_eq by nra; nra).
  acut Hpsisq (33834 # 100000)%Q (91911 # 100000)%Q.
  lets coef. lets coef1.
  assert (C1 : 0 <= coef1' <= (20397 / 1000000)) by (rewrite Ecoef1, Ecoef; rops; rewrite Rpow_pos_base by lra; apply (coef1_R _ _ _ (30049 / 1000) (62940 / 1000) (43489 / 1000) _ (1881 / 1000000000000)); lra).
  acut Hcoef1 0%Q (20397 # 1000000)%Q.
  eassert (Hq1 : apx (@q1_v _ B tsi psisq) (@q1_v _ ROps tsi' psisq') _) by (unfold q1_v; arel).
  assert (Q1 : 0 <= @q1_v _ ROps tsi' psisq' <= 25553 / 1000000) by (rewrite q1_R by lra; lra).
  acut Hq1 0%Q (25553 # 1000000)%Q. unfold q1_v in Hq1.
  eassert (Hq2 : apx (@q2_v _ B tsi (ir_ao r) psisq) (@q2_v _ ROps tsi' (ir_ao r') psisq') _) by (unfold q2_v; arel).
  assert (Q2 : 0 <= @q2_v _ ROps tsi' (ir_ao r') psisq' <= 65175 / 1000000) by (rewrite q2_R by lra; lra).
  acut Hq2 0%Q (65175 # 1000000)%Q. unfold q2_v in Hq2.
  lets cc2. lets cc1. askip. askip. lets x1mth2. lets cc4. askip. lets cosio4. lets temp1. lets temp2. lets temp3.
  lets mdot. lets argpdot. lets xhdot1. lets nodedot. do 4 askip. lets nodecf. lets t2cof. lets xlcof. lets aycof. do 3 askip. lets x7thm1.
  do 18 askip. unfold P, low_ok. cbn [ne_s]. near_fields. asplit. split; reflexivity.
Qed.
Definition low6 := Eb (1 # 20) (1 # 10) (12 # 10 ^ 17) (1 # 10 ^ 60).
Definition lb6 := LB (Eb (-430474 # 10 ^ 11) (430474 # 10 ^ 11) (148 # 10 ^ 14) (151 # 10 ^ 20))
  (Eb 0 (100002 # 10 ^ 5) (113 # 10 ^ 18) (427 # 10 ^ 17))
  (Eb (-457568 # 10 ^ 9) (674598 # 10 ^ 8) (148 # 10 ^ 14) (199 # 10 ^ 17))
  (Eb (277657 # 10 ^ 7) (733126 # 10 ^ 7) (123 # 10 ^ 17) 0)
  (Eb (-586173 # 10 ^ 10) (230362 # 10 ^ 9) (113 # 10 ^ 18) (283 # 10 ^ 20))
  (Eb (-113983 # 10 ^ 9) (112854 # 10 ^ 9) (113 # 10 ^ 18) (952 # 10 ^ 21))
  (Eb (-170467 # 10 ^ 14) (170467 # 10 ^ 14) (149 # 10 ^ 14) (600 # 10 ^ 24))
  (Eb (-645711 # 10 ^ 11) (645711 # 10 ^ 11) (148 # 10 ^ 14) (226 # 10 ^ 20))
  (Eb (-472508 # 10 ^ 6) (472508 # 10 ^ 6) (211 # 10 ^ 15) (163 # 10 ^ 17))
  (Eb (-116946 # 10 ^ 8) (116946 # 10 ^ 8) (561 # 10 ^ 18) (243 # 10 ^ 20))
  (Eb (-100002 # 10 ^ 5) (600007 # 10 ^ 5) (113 # 10 ^ 18) (307 # 10 ^ 16)).
Lemma low_acc6 (r : InitlReturn b64) (r' : InitlReturn R) (s : Satrec b64) (s' : Satrec R) :
  apx (ir_ao r) (ir_ao r') aoB -> apx (ir_cosio r) (ir_cosio r') cosB -> apx (ir_cosio2 r) (ir_cosio2 r') cos2B ->
  apx (ir_con42 r) (ir_con42 r') con42B -> apx (ir_rteosq r) (ir_rteosq r') rteB ->
  apx (ir_omeosq r) (ir_omeosq r') omeB -> apx (ir_sinio r) (ir_sinio r') sinB -> apx (ir_posq r) (ir_posq r') posqB -> apx (ir_rp r) (ir_rp r') rpB ->
  10246 / 10000 <= ir_rp r' <= 103434 / 100000 -> ir_rp r' = ir_ao r' * (1 - sr_ecco s') -> ir_rp r' * ir_rp r' <= ir_posq r' ->
  apx (sr_ecco s) (sr_ecco s') low6 -> apx (sr_no s) (sr_no s') noB -> apx (sr_con41 s) (sr_con41 s') con41B ->
  apx (sr_bstar s) (sr_bstar s') in_bst -> apx (sr_argpo s) (sr_argpo s') in_ang ->
  low_ok lb6 (@sgp4init_near _ B r s) (@sgp4init_near _ ROps r' s').
Proof.
  intros Hao Hcosio Hcosio2 Hcon42 Hrte Home Hsin Hposq Hrp RP RE RS He Hno Hcon41 Hbs Hargp.
  assert (PQ : 1049 / 1000 <= ir_posq r') by nra. acut Hposq (1049 # 1000)%Q 4%Q.
  destruct (atmo_low _ _ Hrp RP) as (A1 & A2 & G1 & G2). set (P := low_ok lb6).
  assert (AL : 1078526 / 1000000 <= ir_ao r').
  { ivl Hao Ia. ivl He Ie. apply (Rmult_le_reg_r (1 - sr_ecco s')); [lra|]. rewrite <- RE. lra. }
  assert (AU : ir_ao r' <= 1149267 / 1000000).
  { ivl Hao Ia. ivl He Ie. apply (Rmult_le_reg_r (1 - sr_ecco s')); [lra|]. rewrite <- RE. lra. }
  acut Hao (1078526 # 1000000)%Q (1149267 # 1000000)%Q. ivl Hao Iao. ivl He Ie.
  aconst @kJ2. aconst @kJ4. aconst @kJ3OJ2. aconst @kX2O3. aconst @kEARTH_RADIUS.
  cbv beta delta [sgp4init_near]. do 13 astep. askip. astep. askip. askip. fold (@lim_v _ B). fold (@lim_v _ ROps). rewrite A1, A2, G1, G2. cbv beta iota delta [at_sfour at_qzms24].
  lets sfour. lets qzms24. lets pinvsq. lets tsi. lets eta. ivl Hsfour Isf. ivl Hqzms24 Iqz.
  destruct (near_facts (10246 / 10000) (101223 / 100000) (1078526 / 1000000) (15084 / 1000) (90200 / 100000) (80841 / 1000) (1 / 10) (ir_ao r') (sr_ecco s') (ir_rp r') sfour' tsi' eta' (Rabs (1 - eta' * eta'))) as (T0 & ET & (PS & P0) & TP & TA); try assumption; try lra; try reflexivity.
  destruct (near_sharp (10246 / 10000) (101223 / 100000) (101222 / 100000) (1078526 / 1000000) (1149267 / 1000000) (41929 / 100000) (1 / 20) (56959 / 1000) (ir_ao r') (sr_ecco s') (ir_rp r') sfour' tsi' eta' (Rabs (1 - eta' * eta'))) as (EG & TP2 & TA2); try assumption; try lra; try reflexivity. clear TP TA.
  acut Heta (41929 # 100000)%Q (90200 # 100000)%Q. acut Htsi 1%Q (15084 # 1000)%Q. lets etasq. lets eeta. lets psisq.
  assert (PE : Rabs (1 - eta' * eta') = psisq') by (rewrite Epsisq, Eetasq; reflexivity). rewrite PE in PS, P0, TP2, TA2.
  assert (PH : psisq' <= 82420 / 100000) by (rewrite Epsisq, Eetasq; rops; rewrite Rabs_pos_eq by nra; nra).
  acut Hpsisq (18639 # 100000)%Q (82420 # 100000)%Q.
  lets coef. lets coef1.
  assert (C1 : 0 <= coef1' <= (10189 / 1000000)) by (rewrite Ecoef1, Ecoef; rops; rewrite Rpow_pos_base by lra; apply (coef1_R _ _ _ (15084 / 1000) (56959 / 1000) (29312 / 1000) _ (1881 / 1000000000000)); lra).
  acut Hcoef1 0%Q (10189 # 1000000)%Q.
  eassert (Hq1 : apx (@q1_v _ B tsi psisq) (@q1_v _ ROps tsi' psisq') _) by (unfold q1_v; arel).
  assert (Q1 : 0 <= @q1_v _ ROps tsi' psisq' <= 23125 / 1000000) by (rewrite q1_R by lra; lra).
  acut Hq1 0%Q (23125 # 1000000)%Q. unfold q1_v in Hq1.
  eassert (Hq2 : apx (@q2_v _ B tsi (ir_ao r) psisq) (@q2_v _ ROps tsi' (ir_ao r') psisq') _) by (unfold q2_v; arel).
  assert (Q2 : 0 <= @q2_v _ ROps tsi' (ir_ao r') psisq' <= 57176 / 1000000) by (rewrite q2_R by lra; lra).
  acut Hq2 0%Q (57176 # 1000000)%Q. unfold q2_v in Hq2.
  lets cc2. lets cc1. askip. askip. lets x1mth2. lets cc4. askip. lets cosio4. lets temp1. lets temp2. lets temp3.
  lets mdot. lets argpdot. lets xhdot1. lets nodedot. do 4 askip. lets nodecf. lets t2cof. lets xlcof. lets aycof. do 3 askip. lets x7thm1.
  do 18 askip. unfold P, low_ok. cbn [ne_s]. near_fields. asplit. split; reflexivity.
Qed.
Definition low7 := Eb (1 # 10) (1 # 5) (12 # 10 ^ 17) (1 # 10 ^ 60).
Definition lb7 := LB (Eb (-350232 # 10 ^ 11) (350232 # 10 ^ 11) (195 # 10 ^ 14) (111 # 10 ^ 20))
  (Eb 0 (100002 # 10 ^ 5) (113 # 10 ^ 18) (427 # 10 ^ 17))
  (Eb (-933781 # 10 ^ 10) (542546 # 10 ^ 8) (195 # 10 ^ 14) (162 # 10 ^ 17))
  (Eb (277657 # 10 ^ 7) (733126 # 10 ^ 7) (123 # 10 ^ 17) 0)
  (Eb (-586173 # 10 ^ 10) (230362 # 10 ^ 9) (113 # 10 ^ 18) (283 # 10 ^ 20))
  (Eb (-113983 # 10 ^ 9) (112854 # 10 ^ 9) (113 # 10 ^ 18) (952 # 10 ^ 21))
  (Eb (-138691 # 10 ^ 14) (138691 # 10 ^ 14) (195 # 10 ^ 14) (443 # 10 ^ 24))
  (Eb (-525347 # 10 ^ 11) (525347 # 10 ^ 11) (195 # 10 ^ 14) (167 # 10 ^ 20))
  (Eb (-472508 # 10 ^ 6) (472508 # 10 ^ 6) (211 # 10 ^ 15) (163 # 10 ^ 17))
  (Eb (-116946 # 10 ^ 8) (116946 # 10 ^ 8) (561 # 10 ^ 18) (243 # 10 ^ 20))
  (Eb (-100002 # 10 ^ 5) (600007 # 10 ^ 5) (113 # 10 ^ 18) (307 # 10 ^ 16)).
Lemma low_acc7 (r : InitlReturn b64) (r' : InitlReturn R) (s : Satrec b64) (s' : Satrec R) :
  apx (ir_ao r) (ir_ao r') aoB -> apx (ir_cosio r) (ir_cosio r') cosB -> apx (ir_cosio2 r) (ir_cosio2 r') cos2B ->
  apx (ir_con42 r) (ir_con42 r') con42B -> apx (ir_rteosq r) (ir_rteosq r') rteB ->
  apx (ir_omeosq r) (ir_omeosq r') omeB -> apx (ir_sinio r) (ir_sinio r') sinB -> apx (ir_posq r) (ir_posq r') posqB -> apx (ir_rp r) (ir_rp r') rpB ->
  10246 / 10000 <= ir_rp r' <= 103434 / 100000 -> ir_rp r' = ir_ao r' * (1 - sr_ecco s') -> ir_rp r' * ir_rp r' <= ir_posq r' ->
  apx (sr_ecco s) (sr_ecco s') low7 -> apx (sr_no s) (sr_no s') noB -> apx (sr_con41 s) (sr_con41 s') con41B ->
  apx (sr_bstar s) (sr_bstar s') in_bst -> apx (sr_argpo s) (sr_argpo s') in_ang ->
  low_ok lb7 (@sgp4init_near _ B r s) (@sgp4init_near _ ROps r' s').
Proof.
  intros Hao Hcosio Hcosio2 Hcon42 Hrte Home Hsin Hposq Hrp RP RE RS He Hno Hcon41 Hbs Hargp.
  assert (PQ : 1049 / 1000 <= ir_posq r') by nra. acut Hposq (1049 # 1000)%Q 4%Q.
  destruct (atmo_low _ _ Hrp RP) as (A1 & A2 & G1 & G2). set (P := low_ok lb7).
  assert (AL : 1138444 / 1000000 <= ir_ao r').
  { ivl Hao Ia. ivl He Ie. apply (Rmult_le_reg_r (1 - sr_ecco s')); [lra|]. rewrite <- RE. lra. }
  assert (AU : ir_ao r' <= 1292926 / 1000000).
  { ivl Hao Ia. ivl He Ie. apply (Rmult_le_reg_r (1 - sr_ecco s')); [lra|]. rewrite <- RE. lra. }
  acut Hao (1138444 # 1000000)%Q (1292926 # 1000000)%Q. ivl Hao Iao. ivl He Ie.
  aconst @kJ2. aconst @kJ4. aconst @kJ3OJ2. aconst @kX2O3. aconst @kEARTH_RADIUS.
  cbv beta delta [sgp4init_near]. do 13 astep. askip. astep. askip. askip. fold (@lim_v _ B). fold (@lim_v _ ROps). rewrite A1, A2, G1, G2. cbv beta iota delta [at_sfour at_qzms24].
  lets sfour. lets qzms24. lets pinvsq. lets tsi. lets eta. ivl Hsfour Isf. ivl Hqzms24 Iqz.
  destruct (near_facts (10246 / 10000) (101223 / 100000) (1138444 / 1000000) (79231 / 10000) (95394 / 100000) (80841 / 1000) (1 / 5) (ir_ao r') (sr_ecco s') (ir_rp r') sfour' tsi' eta' (Rabs (1 - eta' * eta'))) as (T0 & ET & (PS & P0) & TP & TA); try assumption; try lra; try reflexivity.
  destruct (near_sharp (10246 / 10000) (101223 / 100000) (101222 / 100000) (1138444 / 1000000) (1292926 / 1000000) (46059 / 100000) (1 / 10) (55349 / 1000) (ir_ao r') (sr_ecco s') (ir_rp r') sfour' tsi' eta' (Rabs (1 - eta' * eta'))) as (EG & TP2 & TA2); try assumption; try lra; try reflexivity. clear TP TA.
  acut Heta (46059 # 100000)%Q (95394 # 100000)%Q. acut Htsi 1%Q (79231 # 10000)%Q. lets etasq. lets eeta. lets psisq.
  assert (PE : Rabs (1 - eta' * eta') = psisq') by (rewrite Epsisq, Eetasq; reflexivity). rewrite PE in PS, P0, TP2, TA2.
  assert (PH : psisq' <= 78786 / 100000) by (rewrite Epsisq, Eetasq; rops; rewrite Rabs_pos_eq by nra; nra).
  acut Hpsisq (89998 # 1000000)%Q (78786 # 100000)%Q.
  lets coef. lets coef1.
  assert (C1 : 0 <= coef1' <= (66794 / 10000000)) by (rewrite Ecoef1, Ecoef; rops; rewrite Rpow_pos_base by lra; apply (coef1_R _ _ _ (79231 / 10000) (55349 / 1000) (20942 / 1000) _ (1881 / 1000000000000)); lra).
  acut Hcoef1 0%Q (66794 # 10000000)%Q.
  eassert (Hq1 : apx (@q1_v _ B tsi psisq) (@q1_v _ ROps tsi' psisq') _) by (unfold q1_v; arel).
  assert (Q1 : 0 <= @q1_v _ ROps tsi' psisq' <= 22471 / 1000000) by (rewrite q1_R by lra; lra).
  acut Hq1 0%Q (22471 # 1000000)%Q. unfold q1_v in Hq1.
  eassert (Hq2 : apx (@q2_v _ B tsi (ir_ao r) psisq) (@q2_v _ ROps tsi' (ir_ao r') psisq') _) by (unfold q2_v; arel).
  assert (Q2 : 0 <= @q2_v _ ROps tsi' (ir_ao r') psisq' <= 52636 / 1000000) by (rewrite q2_R by lra; lra).
  acut Hq2 0%Q (52636 # 1000000)%Q. unfold q2_v in Hq2.
  lets cc2. lets cc1. askip. askip. lets x1mth2. lets cc4. askip. lets cosio4. lets temp1. lets temp2. lets temp3.
  lets mdot. lets argpdot. lets xhdot1. lets nodedot. do 4 askip. lets nodecf. lets t2cof. lets xlcof. lets aycof. do 3 askip. lets x7thm1.
  do 18 askip. unfold P, low_ok. cbn [ne_s]. near_fields. asplit. split; reflexivity.
Qed.
Definition low8 := Eb (1 # 5) (8 # 25) (12 # 10 ^ 17) (1 # 10 ^ 60).
Definition lb8 := LB (Eb (-214939 # 10 ^ 11) (214939 # 10 ^ 11) (592 # 10 ^ 14) (638 # 10 ^ 63))
  (Eb 0 (100002 # 10 ^ 5) (113 # 10 ^ 18) (427 # 10 ^ 17))
  (Eb (503362 # 10 ^ 14) (322010 # 10 ^ 8) (353 # 10 ^ 14) (109 # 10 ^ 61))
  (Eb (277657 # 10 ^ 7) (733126 # 10 ^ 7) (123 # 10 ^ 17) 0)
  (Eb (-586173 # 10 ^ 10) (230362 # 10 ^ 9) (113 # 10 ^ 18) (283 # 10 ^ 20))
  (Eb (-113983 # 10 ^ 9) (112854 # 10 ^ 9) (113 # 10 ^ 18) (952 # 10 ^ 21))
  (Eb (-851150 # 10 ^ 15) (851150 # 10 ^ 15) (592 # 10 ^ 14) (177 # 10 ^ 26))
  (Eb (-322408 # 10 ^ 11) (322408 # 10 ^ 11) (592 # 10 ^ 14) (159 # 10 ^ 62))
  (Eb (-472508 # 10 ^ 6) (472508 # 10 ^ 6) (211 # 10 ^ 15) (163 # 10 ^ 17))
  (Eb (-116946 # 10 ^ 8) (116946 # 10 ^ 8) (561 # 10 ^ 18) (243 # 10 ^ 20))
  (Eb (-100002 # 10 ^ 5) (600007 # 10 ^ 5) (113 # 10 ^ 18) (307 # 10 ^ 16)).
Lemma low_acc8 (r : InitlReturn b64) (r' : InitlReturn R) (s : Satrec b64) (s' : Satrec R) :
  apx (ir_ao r) (ir_ao r') aoB -> apx (ir_cosio r) (ir_cosio r') cosB -> apx (ir_cosio2 r) (ir_cosio2 r') cos2B ->
  apx (ir_con42 r) (ir_con42 r') con42B -> apx (ir_rteosq r) (ir_rteosq r') rteB ->
  apx (ir_omeosq r) (ir_omeosq r') omeB -> apx (ir_sinio r) (ir_sinio r') sinB -> apx (ir_posq r) (ir_posq r') posqB -> apx (ir_rp r) (ir_rp r') rpB ->
  10246 / 10000 <= ir_rp r' <= 103434 / 100000 -> ir_rp r' = ir_ao r' * (1 - sr_ecco s') -> ir_rp r' * ir_rp r' <= ir_posq r' ->
  apx (sr_ecco s) (sr_ecco s') low8 -> apx (sr_no s) (sr_no s') noB -> apx (sr_con41 s) (sr_con41 s') con41B ->
  apx (sr_bstar s) (sr_bstar s') in_bst -> apx (sr_argpo s) (sr_argpo s') in_ang ->
  low_ok lb8 (@sgp4init_near _ B r s) (@sgp4init_near _ ROps r' s').
Proof.
  intros Hao Hcosio Hcosio2 Hcon42 Hrte Home Hsin Hposq Hrp RP RE RS He Hno Hcon41 Hbs Hargp.
  assert (PQ : 1049 / 1000 <= ir_posq r') by nra. acut Hposq (1049 # 1000)%Q 4%Q.
  destruct (atmo_low _ _ Hrp RP) as (A1 & A2 & G1 & G2). set (P := low_ok lb8).
  assert (AL : 1280749 / 1000000 <= ir_ao r').
  { ivl Hao Ia. ivl He Ie. apply (Rmult_le_reg_r (1 - sr_ecco s')); [lra|]. rewrite <- RE. lra. }
  assert (AU : ir_ao r' <= 1521089 / 1000000).
  { ivl Hao Ia. ivl He Ie. apply (Rmult_le_reg_r (1 - sr_ecco s')); [lra|]. rewrite <- RE. lra. }
  acut Hao (1280749 # 1000000)%Q (1521089 # 1000000)%Q. ivl Hao Iao. ivl He Ie.
  aconst @kJ2. aconst @kJ4. aconst @kJ3OJ2. aconst @kX2O3. aconst @kEARTH_RADIUS.
  cbv beta delta [sgp4init_near]. do 13 astep. askip. astep. askip. askip. fold (@lim_v _ B). fold (@lim_v _ ROps). rewrite A1, A2, G1, G2. cbv beta iota delta [at_sfour at_qzms24].
  lets sfour. lets qzms24. lets pinvsq. lets tsi. lets eta. ivl Hsfour Isf. ivl Hqzms24 Iqz.
  destruct (near_facts (10246 / 10000) (101223 / 100000) (1280749 / 1000000) (37242 / 10000) (97499 / 100000) (80841 / 1000) (8 / 25) (ir_ao r') (sr_ecco s') (ir_rp r') sfour' tsi' eta' (Rabs (1 - eta' * eta'))) as (T0 & ET & (PS & P0) & TP & TA); try assumption; try lra; try reflexivity.
  destruct (near_sharp (10246 / 10000) (101223 / 100000) (101222 / 100000) (1280749 / 1000000) (1521089 / 1000000) (59783 / 100000) (1 / 5) (50595 / 1000) (ir_ao r') (sr_ecco s') (ir_rp r') sfour' tsi' eta' (Rabs (1 - eta' * eta'))) as (EG & TP2 & TA2); try assumption; try lra; try reflexivity. clear TP TA.
  acut Heta (59783 # 100000)%Q (97499 # 100000)%Q. acut Htsi 1%Q (37242 # 10000)%Q. lets etasq. lets eeta. lets psisq.
  assert (PE : Rabs (1 - eta' * eta') = psisq') by (rewrite Epsisq, Eetasq; reflexivity). rewrite PE in PS, P0, TP2, TA2.
  assert (PH : psisq' <= 64260 / 100000) by (rewrite Epsisq, Eetasq; rops; rewrite Rabs_pos_eq by nra; nra).
  acut Hpsisq (49394 # 1000000)%Q (64260 # 100000)%Q.
  lets coef. lets coef1.
  assert (C1 : 0 <= coef1' <= (33442 / 10000000)) by (rewrite Ecoef1, Ecoef; rops; rewrite Rpow_pos_base by lra; apply (coef1_R _ _ _ (37242 / 10000) (50595 / 1000) (13727 / 1000) _ (1881 / 1000000000000)); lra).
  acut Hcoef1 0%Q (33442 # 10000000)%Q.
  eassert (Hq1 : apx (@q1_v _ B tsi psisq) (@q1_v _ ROps tsi' psisq') _) by (unfold q1_v; arel).
  assert (Q1 : 0 <= @q1_v _ ROps tsi' psisq' <= 20541 / 1000000) by (rewrite q1_R by lra; lra).
  acut Hq1 0%Q (20541 # 1000000)%Q. unfold q1_v in Hq1.
  eassert (Hq2 : apx (@q2_v _ B tsi (ir_ao r) psisq) (@q2_v _ ROps tsi' (ir_ao r') psisq') _) by (unfold q2_v; arel).
  assert (Q2 : 0 <= @q2_v _ ROps tsi' (ir_ao r') psisq' <= 42769 / 1000000) by (rewrite q2_R by lra; lra).
  acut Hq2 0%Q (42769 # 1000000)%Q. unfold q2_v in Hq2.
  lets cc2. lets cc1. askip. askip. lets x1mth2. lets cc4. askip. lets cosio4. lets temp1. lets temp2. lets temp3.
  lets mdot. lets argpdot. lets xhdot1. lets nodedot. do 4 askip. lets nodecf. lets t2cof. lets xlcof. lets aycof. do 3 askip. lets x7thm1.
  do 18 askip. unfold P, low_ok. cbn [ne_s]. near_fields. asplit. split; reflexivity.
Qed.
Definition low9 := Eb (8 # 25) (451 # 1000) (12 # 10 ^ 17) (1 # 10 ^ 60).
Definition lb9 := LB (Eb (-168797 # 10 ^ 11) (168797 # 10 ^ 11) (382 # 10 ^ 14) (639 # 10 ^ 63))
  (Eb 0 (100002 # 10 ^ 5) (113 # 10 ^ 18) (427 # 10 ^ 17))
  (Eb (294280 # 10 ^ 14) (243410 # 10 ^ 8) (328 # 10 ^ 14) (121 # 10 ^ 61))
  (Eb (277657 # 10 ^ 7) (733126 # 10 ^ 7) (123 # 10 ^ 17) 0)
  (Eb (-586173 # 10 ^ 10) (230362 # 10 ^ 9) (113 # 10 ^ 18) (283 # 10 ^ 20))
  (Eb (-113983 # 10 ^ 9) (112854 # 10 ^ 9) (113 # 10 ^ 18) (952 # 10 ^ 21))
  (Eb (-668432 # 10 ^ 15) (668432 # 10 ^ 15) (383 # 10 ^ 14) (139 # 10 ^ 26))
  (Eb (-253196 # 10 ^ 11) (253196 # 10 ^ 11) (383 # 10 ^ 14) (159 # 10 ^ 62))
  (Eb (-472508 # 10 ^ 6) (472508 # 10 ^ 6) (211 # 10 ^ 15) (163 # 10 ^ 17))
  (Eb (-116946 # 10 ^ 8) (116946 # 10 ^ 8) (561 # 10 ^ 18) (243 # 10 ^ 20))
  (Eb (-100002 # 10 ^ 5) (600007 # 10 ^ 5) (113 # 10 ^ 18) (307 # 10 ^ 16)).
Lemma low_acc9 (r : InitlReturn b64) (r' : InitlReturn R) (s : Satrec b64) (s' : Satrec R) :
  apx (ir_ao r) (ir_ao r') aoB -> apx (ir_cosio r) (ir_cosio r') cosB -> apx (ir_cosio2 r) (ir_cosio2 r') cos2B ->
  apx (ir_con42 r) (ir_con42 r') con42B -> apx (ir_rteosq r) (ir_rteosq r') rteB ->
  apx (ir_omeosq r) (ir_omeosq r') omeB -> apx (ir_sinio r) (ir_sinio r') sinB -> apx (ir_posq r) (ir_posq r') posqB -> apx (ir_rp r) (ir_rp r') rpB ->
  10246 / 10000 <= ir_rp r' <= 103434 / 100000 -> ir_rp r' = ir_ao r' * (1 - sr_ecco s') -> ir_rp r' * ir_rp r' <= ir_posq r' ->
  apx (sr_ecco s) (sr_ecco s') low9 -> apx (sr_no s) (sr_no s') noB -> apx (sr_con41 s) (sr_con41 s') con41B ->
  apx (sr_bstar s) (sr_bstar s') in_bst -> apx (sr_argpo s) (sr_argpo s') in_ang ->
  low_ok lb9 (@sgp4init_near _ B r s) (@sgp4init_near _ ROps r' s').
Proof.
  intros Hao Hcosio Hcosio2 Hcon42 Hrte Home Hsin Hposq Hrp RP RE RS He Hno Hcon41 Hbs Hargp.
  assert (PQ : 1049 / 1000 <= ir_posq r') by nra. acut Hposq (1049 # 1000)%Q 4%Q.
  destruct (atmo_low _ _ Hrp RP) as (A1 & A2 & G1 & G2). set (P := low_ok lb9).
  assert (AL : 1506764 / 1000000 <= ir_ao r').
  { ivl Hao Ia. ivl He Ie. apply (Rmult_le_reg_r (1 - sr_ecco s')); [lra|]. rewrite <- RE. lra. }
  assert (AU : ir_ao r' <= 1884044 / 1000000).
  { ivl Hao Ia. ivl He Ie. apply (Rmult_le_reg_r (1 - sr_ecco s')); [lra|]. rewrite <- RE. lra. }
  acut Hao (1506764 # 1000000)%Q (1884044 # 1000000)%Q. ivl Hao Iao. ivl He Ie.
  aconst @kJ2. aconst @kJ4. aconst @kJ3OJ2. aconst @kX2O3. aconst @kEARTH_RADIUS.
  cbv beta delta [sgp4init_near]. do 13 astep. askip. astep. askip. askip. fold (@lim_v _ B). fold (@lim_v _ ROps). rewrite A1, A2, G1, G2. cbv beta iota delta [at_sfour at_qzms24].
  lets sfour. lets qzms24. lets pinvsq. lets tsi. lets eta. ivl Hsfour Isf. ivl Hqzms24 Iqz.
  destruct (near_facts (10246 / 10000) (101223 / 100000) (1506764 / 1000000) (20222 / 10000) (98552 / 100000) (80841 / 1000) (451 / 1000) (ir_ao r') (sr_ecco s') (ir_rp r') sfour' tsi' eta' (Rabs (1 - eta' * eta'))) as (T0 & ET & (PS & P0) & TP & TA); try assumption; try lra; try reflexivity.
  destruct (near_sharp (10246 / 10000) (101223 / 100000) (101222 / 100000) (1506764 / 1000000) (1884044 / 1000000) (69153 / 100000) (8 / 25) (47792 / 1000) (ir_ao r') (sr_ecco s') (ir_rp r') sfour' tsi' eta' (Rabs (1 - eta' * eta'))) as (EG & TP2 & TA2); try assumption; try lra; try reflexivity. clear TP TA.
  acut Heta (69153 # 100000)%Q (98552 # 100000)%Q. acut Htsi 1%Q (20222 # 10000)%Q. lets etasq. lets eeta. lets psisq.
  assert (PE : Rabs (1 - eta' * eta') = psisq') by (rewrite Epsisq, Eetasq; reflexivity). rewrite PE in PS, P0, TP2, TA2.
  assert (PH : psisq' <= 52179 / 100000) by (rewrite Epsisq, Eetasq; rops; rewrite Rabs_pos_eq by nra; nra).
  acut Hpsisq (28750 # 1000000)%Q (52179 # 100000)%Q.
  lets coef. lets coef1.
  assert (C1 : 0 <= coef1' <= (20186 / 10000000)) by (rewrite Ecoef1, Ecoef; rops; rewrite Rpow_pos_base by lra; apply (coef1_R _ _ _ (20222 / 10000) (47792 / 1000) (98309 / 10000) _ (1881 / 1000000000000)); lra).
  acut Hcoef1 0%Q (20186 # 10000000)%Q.
  eassert (Hq1 : apx (@q1_v _ B tsi psisq) (@q1_v _ ROps tsi' psisq') _) by (unfold q1_v; arel).
  assert (Q1 : 0 <= @q1_v _ ROps tsi' psisq' <= 19403 / 1000000) by (rewrite q1_R by lra; lra).
  acut Hq1 0%Q (19403 # 1000000)%Q. unfold q1_v in Hq1.
  eassert (Hq2 : apx (@q2_v _ B tsi (ir_ao r) psisq) (@q2_v _ ROps tsi' (ir_ao r') psisq') _) by (unfold q2_v; arel).
  assert (Q2 : 0 <= @q2_v _ ROps tsi' (ir_ao r') psisq' <= 34340 / 1000000) by (rewrite q2_R by lra; lra).
  acut Hq2 0%Q (34340 # 1000000)%Q. unfold q2_v in Hq2.
  lets cc2. lets cc1. askip. askip. lets x1mth2. lets cc4. askip. lets cosio4. lets temp1. lets temp2. lets temp3.
  lets mdot. lets argpdot. lets xhdot1. lets nodedot. do 4 askip. lets nodecf. lets t2cof. lets xlcof. lets aycof. do 3 askip. lets x7thm1.
  do 18 askip. unfold P, low_ok. cbn [ne_s]. near_fields. asplit. split; reflexivity.
Qed.
Definition sl1 := SB (Eb (-733180 # 10 ^ 5) (733180 # 10 ^ 5) (113 # 10 ^ 18) (844 # 10 ^ 17))
  (Eb (-112572 # 10 ^ 3) (112572 # 10 ^ 3) (113 # 10 ^ 18) (148 # 10 ^ 15))
  (Eb (-717440 # 10 ^ 5) (717440 # 10 ^ 5) (113 # 10 ^ 18) (934 # 10 ^ 16))
  (Eb (-208120 # 10 ^ 7) (208120 # 10 ^ 7) (813 # 10 ^ 15) (128 # 10 ^ 16))
  (Eb (-386001 # 10 ^ 4) (386001 # 10 ^ 4) (853 # 10 ^ 14) (336 # 10 ^ 56))
  (Eb (-208120 # 10 ^ 7) (218120 # 10 ^ 7) (113 # 10 ^ 18) (297 # 10 ^ 16))
  (Eb (975814 # 10 ^ 6) (199006 # 10 ^ 5) (313 # 10 ^ 15) 0)
  (Eb (264900 # 10 ^ 7) (771483 # 10 ^ 7) (470 # 10 ^ 15) 0).
Lemma low_sec1 (s : Satrec b64) (s' : Satrec R) : low_in low1 lb1 s s' ->
  sec_post lm sl1 s s' (@sgp4_secular _ B s) (@sgp4_secular _ ROps s').
Proof.
  intros ((I1 & I2) & Ht & Hbs & Hmo & Hargpo & Hnodeo & He & Hno & Hcc1 & Hcc4 & Hmdot & Hargpdot & Hnodedot & Hnodecf & Ht2cof).
  aconst @kXKE. aconst @kX2O3.
  match goal with |- ?G _ _ => set (PP := G) end.
  cbv beta delta [sgp4_secular]. rewrite I1, I2. change (negb (1 =? 1)%Z) with false; cbv iota. lets xmdf. lets argpdf. lets nodedf. lets argpm. lets mm. lets t2. assert (0 <= t2') by (rewrite Et2; rops; apply Rle_0_sqr). acut Ht2 0%Q 2073601%Q. lets nodem. lets tempa. lets tempe. lets templ.
  unfold PP, sec_post. cbn [se_tempe]. intros em em' am am' nm nm' Eem Eem' Eam Eam' Enm Enm'. unfold sgp4_am in Eam, Eam'. cbn [se_tempa] in Eam, Eam'. cbv zeta in Eam, Eam'. unfold sgp4_nm in Enm, Enm'. cbv zeta in Enm, Enm'.
  eassert (Hem : apx em em' _) by (rewrite Eem, Eem'; arel). eassert (Ham : apx am am' _) by (rewrite Eam, Eam'; arel). eassert (Hnm : apx nm nm' _) by (rewrite Enm, Enm'; arel).
  unfold sec_ok. cbn [se_argpm se_mm se_nodem se_tempe se_templ]. asplit.
Qed.
Definition sl2 := SB (Eb (-733180 # 10 ^ 5) (733180 # 10 ^ 5) (113 # 10 ^ 18) (844 # 10 ^ 17))
  (Eb (-112572 # 10 ^ 3) (112572 # 10 ^ 3) (113 # 10 ^ 18) (148 # 10 ^ 15))
  (Eb (-717319 # 10 ^ 5) (717319 # 10 ^ 5) (113 # 10 ^ 18) (981 # 10 ^ 16))
  (Eb (-212583 # 10 ^ 7) (212583 # 10 ^ 7) (799 # 10 ^ 15) (131 # 10 ^ 16))
  (Eb (-340178 # 10 ^ 4) (340178 # 10 ^ 4) (103 # 10 ^ 13) (336 # 10 ^ 56))
  (Eb (-202583 # 10 ^ 7) (242583 # 10 ^ 7) (113 # 10 ^ 18) (300 # 10 ^ 16))
  (Eb (980035 # 10 ^ 6) (198178 # 10 ^ 5) (329 # 10 ^ 15) 0)
  (Eb (266563 # 10 ^ 7) (766505 # 10 ^ 7) (495 # 10 ^ 15) 0).
Lemma low_sec2 (s : Satrec b64) (s' : Satrec R) : low_in low2 lb2 s s' ->
  sec_post lm sl2 s s' (@sgp4_secular _ B s) (@sgp4_secular _ ROps s').
Proof.
  intros ((I1 & I2) & Ht & Hbs & Hmo & Hargpo & Hnodeo & He & Hno & Hcc1 & Hcc4 & Hmdot & Hargpdot & Hnodedot & Hnodecf & Ht2cof).
  aconst @kXKE. aconst @kX2O3.
  match goal with |- ?G _ _ => set (PP := G) end.
  cbv beta delta [sgp4_secular]. rewrite I1, I2. change (negb (1 =? 1)%Z) with false; cbv iota. lets xmdf. lets argpdf. lets nodedf. lets argpm. lets mm. lets t2. assert (0 <= t2') by (rewrite Et2; rops; apply Rle_0_sqr). acut Ht2 0%Q 2073601%Q. lets nodem. lets tempa. lets tempe. lets templ.
  unfold PP, sec_post. cbn [se_tempe]. intros em em' am am' nm nm' Eem Eem' Eam Eam' Enm Enm'. unfold sgp4_am in Eam, Eam'. cbn [se_tempa] in Eam, Eam'. cbv zeta in Eam, Eam'. unfold sgp4_nm in Enm, Enm'. cbv zeta in Enm, Enm'.
  eassert (Hem : apx em em' _) by (rewrite Eem, Eem'; arel). eassert (Ham : apx am am' _) by (rewrite Eam, Eam'; arel). eassert (Hnm : apx nm nm' _) by (rewrite Enm, Enm'; arel).
  unfold sec_ok. cbn [se_argpm se_mm se_nodem se_tempe se_templ]. asplit.
Qed.
Definition sl3 := SB (Eb (-733180 # 10 ^ 5) (733180 # 10 ^ 5) (113 # 10 ^ 18) (844 # 10 ^ 17))
  (Eb (-112572 # 10 ^ 3) (112572 # 10 ^ 3) (113 # 10 ^ 18) (148 # 10 ^ 15))
  (Eb (-717257 # 10 ^ 5) (717257 # 10 ^ 5) (113 # 10 ^ 18) (196 # 10 ^ 16))
  (Eb (-224922 # 10 ^ 7) (224922 # 10 ^ 7) (867 # 10 ^ 15) (132 # 10 ^ 16))
  (Eb (-316535 # 10 ^ 4) (316535 # 10 ^ 4) (865 # 10 ^ 15) (220 # 10 ^ 13))
  (Eb (-194922 # 10 ^ 7) (304923 # 10 ^ 7) (113 # 10 ^ 18) (327 # 10 ^ 16))
  (Eb (982216 # 10 ^ 6) (197751 # 10 ^ 5) (488 # 10 ^ 16) 0)
  (Eb (267427 # 10 ^ 7) (763954 # 10 ^ 7) (742 # 10 ^ 16) 0).
Lemma low_sec3 (s : Satrec b64) (s' : Satrec R) : low_in low3 lb3 s s' ->
  sec_post lm sl3 s s' (@sgp4_secular _ B s) (@sgp4_secular _ ROps s').
Proof.
  intros ((I1 & I2) & Ht & Hbs & Hmo & Hargpo & Hnodeo & He & Hno & Hcc1 & Hcc4 & Hmdot & Hargpdot & Hnodedot & Hnodecf & Ht2cof).
  aconst @kXKE. aconst @kX2O3.
  match goal with |- ?G _ _ => set (PP := G) end.
  cbv beta delta [sgp4_secular]. rewrite I1, I2. change (negb (1 =? 1)%Z) with false; cbv iota. lets xmdf. lets argpdf. lets nodedf. lets argpm. lets mm. lets t2. assert (0 <= t2') by (rewrite Et2; rops; apply Rle_0_sqr). acut Ht2 0%Q 2073601%Q. lets nodem. lets tempa. lets tempe. lets templ.
  unfold PP, sec_post. cbn [se_tempe]. intros em em' am am' nm nm' Eem Eem' Eam Eam' Enm Enm'. unfold sgp4_am in Eam, Eam'. cbn [se_tempa] in Eam, Eam'. cbv zeta in Eam, Eam'. unfold sgp4_nm in Enm, Enm'. cbv zeta in Enm, Enm'.
  eassert (Hem : apx em em' _) by (rewrite Eem, Eem'; arel). eassert (Ham : apx am am' _) by (rewrite Eam, Eam'; arel). eassert (Hnm : apx nm nm' _) by (rewrite Enm, Enm'; arel).
  unfold sec_ok. cbn [se_argpm se_mm se_nodem se_tempe se_templ]. asplit.
Qed.
Definition sl4 := SB (Eb (-733180 # 10 ^ 5) (733180 # 10 ^ 5) (113 # 10 ^ 18) (844 # 10 ^ 17))
  (Eb (-112572 # 10 ^ 3) (112572 # 10 ^ 3) (113 # 10 ^ 18) (148 # 10 ^ 15))
  (Eb (-717163 # 10 ^ 5) (717163 # 10 ^ 5) (113 # 10 ^ 18) (189 # 10 ^ 16))
  (Eb (-207237 # 10 ^ 7) (207237 # 10 ^ 7) (107 # 10 ^ 14) (105 # 10 ^ 16))
  (Eb (-280943 # 10 ^ 4) (280943 # 10 ^ 4) (107 # 10 ^ 14) (167 # 10 ^ 13))
  (Eb (-127236 # 10 ^ 7) (407239 # 10 ^ 7) (113 # 10 ^ 18) (325 # 10 ^ 16))
  (Eb (985503 # 10 ^ 6) (197109 # 10 ^ 5) (460 # 10 ^ 16) 0)
  (Eb (268734 # 10 ^ 7) (760134 # 10 ^ 7) (701 # 10 ^ 16) 0).
Lemma low_sec4 (s : Satrec b64) (s' : Satrec R) : low_in low4 lb4 s s' ->
  sec_post lm sl4 s s' (@sgp4_secular _ B s) (@sgp4_secular _ ROps s').
Proof.
  intros ((I1 & I2) & Ht & Hbs & Hmo & Hargpo & Hnodeo & He & Hno & Hcc1 & Hcc4 & Hmdot & Hargpdot & Hnodedot & Hnodecf & Ht2cof).
  aconst @kXKE. aconst @kX2O3.
  match goal with |- ?G _ _ => set (PP := G) end.
  cbv beta delta [sgp4_secular]. rewrite I1, I2. change (negb (1 =? 1)%Z) with false; cbv iota. lets xmdf. lets argpdf. lets nodedf. lets argpm. lets mm. lets t2. assert (0 <= t2') by (rewrite Et2; rops; apply Rle_0_sqr). acut Ht2 0%Q 2073601%Q. lets nodem. lets tempa. lets tempe. lets templ.
  unfold PP, sec_post. cbn [se_tempe]. intros em em' am am' nm nm' Eem Eem' Eam Eam' Enm Enm'. unfold sgp4_am in Eam, Eam'. cbn [se_tempa] in Eam, Eam'. cbv zeta in Eam, Eam'. unfold sgp4_nm in Enm, Enm'. cbv zeta in Enm, Enm'.
  eassert (Hem : apx em em' _) by (rewrite Eem, Eem'; arel). eassert (Ham : apx am am' _) by (rewrite Eam, Eam'; arel). eassert (Hnm : apx nm nm' _) by (rewrite Enm, Enm'; arel).
  unfold sec_ok. cbn [se_argpm se_mm se_nodem se_tempe se_templ]. asplit.
Qed.
Definition sl5 := SB (Eb (-733180 # 10 ^ 5) (733180 # 10 ^ 5) (113 # 10 ^ 18) (844 # 10 ^ 17))
  (Eb (-112572 # 10 ^ 3) (112572 # 10 ^ 3) (113 # 10 ^ 18) (148 # 10 ^ 15))
  (Eb (-717027 # 10 ^ 5) (717027 # 10 ^ 5) (113 # 10 ^ 18) (181 # 10 ^ 16))
  (Eb (-168258 # 10 ^ 7) (168258 # 10 ^ 7) (142 # 10 ^ 14) (715 # 10 ^ 17))
  (Eb (-229563 # 10 ^ 4) (229563 # 10 ^ 4) (142 # 10 ^ 14) (113 # 10 ^ 13))
  (Eb (317443 # 10 ^ 8) (668263 # 10 ^ 7) (975 # 10 ^ 14) 0)
  (Eb (990260 # 10 ^ 6) (196184 # 10 ^ 5) (433 # 10 ^ 16) 0)
  (Eb (270636 # 10 ^ 7) (754664 # 10 ^ 7) (660 # 10 ^ 16) 0).
Lemma low_sec5 (s : Satrec b64) (s' : Satrec R) : low_in low5 lb5 s s' ->
  sec_post lm sl5 s s' (@sgp4_secular _ B s) (@sgp4_secular _ ROps s').
Proof.
  intros ((I1 & I2) & Ht & Hbs & Hmo & Hargpo & Hnodeo & He & Hno & Hcc1 & Hcc4 & Hmdot & Hargpdot & Hnodedot & Hnodecf & Ht2cof).
  aconst @kXKE. aconst @kX2O3.
  match goal with |- ?G _ _ => set (PP := G) end.
  cbv beta delta [sgp4_secular]. rewrite I1, I2. change (negb (1 =? 1)%Z) with false; cbv iota. lets xmdf. lets argpdf. lets nodedf. lets argpm. lets mm. lets t2. assert (0 <= t2') by (rewrite Et2; rops; apply Rle_0_sqr). acut Ht2 0%Q 2073601%Q. lets nodem. lets tempa. lets tempe. lets templ.
  unfold PP, sec_post. cbn [se_tempe]. intros em em' am am' nm nm' Eem Eem' Eam Eam' Enm Enm'. unfold sgp4_am in Eam, Eam'. cbn [se_tempa] in Eam, Eam'. cbv zeta in Eam, Eam'. unfold sgp4_nm in Enm, Enm'. cbv zeta in Enm, Enm'.
  eassert (Hem : apx em em' _) by (rewrite Eem, Eem'; arel). eassert (Ham : apx am am' _) by (rewrite Eam, Eam'; arel). eassert (Hnm : apx nm nm' _) by (rewrite Enm, Enm'; arel).
  unfold sec_ok. cbn [se_argpm se_mm se_nodem se_tempe se_templ]. asplit.
Qed.
Definition sl6 := SB (Eb (-733180 # 10 ^ 5) (733180 # 10 ^ 5) (113 # 10 ^ 18) (844 # 10 ^ 17))
  (Eb (-112572 # 10 ^ 3) (112572 # 10 ^ 3) (113 # 10 ^ 18) (148 # 10 ^ 15))
  (Eb (-716775 # 10 ^ 5) (716775 # 10 ^ 5) (113 # 10 ^ 18) (131 # 10 ^ 16))
  (Eb (-971431 # 10 ^ 8) (971431 # 10 ^ 8) (150 # 10 ^ 14) (290 # 10 ^ 17))
  (Eb (-133896 # 10 ^ 4) (133896 # 10 ^ 4) (150 # 10 ^ 14) (474 # 10 ^ 14))
  (Eb (402853 # 10 ^ 7) (109716 # 10 ^ 6) (433 # 10 ^ 15) 0)
  (Eb (999145 # 10 ^ 6) (194469 # 10 ^ 5) (255 # 10 ^ 16) 0)
  (Eb (274225 # 10 ^ 7) (744619 # 10 ^ 7) (393 # 10 ^ 16) 0).
Lemma low_sec6 (s : Satrec b64) (s' : Satrec R) : low_in low6 lb6 s s' ->
  sec_post lm sl6 s s' (@sgp4_secular _ B s) (@sgp4_secular _ ROps s').
Proof.
  intros ((I1 & I2) & Ht & Hbs & Hmo & Hargpo & Hnodeo & He & Hno & Hcc1 & Hcc4 & Hmdot & Hargpdot & Hnodedot & Hnodecf & Ht2cof).
  aconst @kXKE. aconst @kX2O3.
  match goal with |- ?G _ _ => set (PP := G) end.
  cbv beta delta [sgp4_secular]. rewrite I1, I2. change (negb (1 =? 1)%Z) with false; cbv iota. lets xmdf. lets argpdf. lets nodedf. lets argpm. lets mm. lets t2. assert (0 <= t2') by (rewrite Et2; rops; apply Rle_0_sqr). acut Ht2 0%Q 2073601%Q. lets nodem. lets tempa. lets tempe. lets templ.
  unfold PP, sec_post. cbn [se_tempe]. intros em em' am am' nm nm' Eem Eem' Eam Eam' Enm Enm'. unfold sgp4_am in Eam, Eam'. cbn [se_tempa] in Eam, Eam'. cbv zeta in Eam, Eam'. unfold sgp4_nm in Enm, Enm'. cbv zeta in Enm, Enm'.
  eassert (Hem : apx em em' _) by (rewrite Eem, Eem'; arel). eassert (Ham : apx am am' _) by (rewrite Eam, Eam'; arel). eassert (Hnm : apx nm nm' _) by (rewrite Enm, Enm'; arel).
  unfold sec_ok. cbn [se_argpm se_mm se_nodem se_tempe se_templ]. asplit.
Qed.
Definition sl7 := SB (Eb (-733180 # 10 ^ 5) (733180 # 10 ^ 5) (113 # 10 ^ 18) (844 # 10 ^ 17))
  (Eb (-112572 # 10 ^ 3) (112572 # 10 ^ 3) (113 # 10 ^ 18) (148 # 10 ^ 15))
  (Eb (-716709 # 10 ^ 5) (716709 # 10 ^ 5) (113 # 10 ^ 18) (131 # 10 ^ 16))
  (Eb (-781275 # 10 ^ 8) (781275 # 10 ^ 8) (197 # 10 ^ 14) (236 # 10 ^ 17))
  (Eb (-108938 # 10 ^ 4) (108938 # 10 ^ 4) (197 # 10 ^ 14) (350 # 10 ^ 14))
  (Eb (921864 # 10 ^ 7) (207815 # 10 ^ 6) (193 # 10 ^ 15) 0)
  (Eb (100147 # 10 ^ 5) (194022 # 10 ^ 5) (256 # 10 ^ 16) 0)
  (Eb (275172 # 10 ^ 7) (742028 # 10 ^ 7) (395 # 10 ^ 16) 0).
Lemma low_sec7 (s : Satrec b64) (s' : Satrec R) : low_in low7 lb7 s s' ->
  sec_post lm sl7 s s' (@sgp4_secular _ B s) (@sgp4_secular _ ROps s').
Proof.
  intros ((I1 & I2) & Ht & Hbs & Hmo & Hargpo & Hnodeo & He & Hno & Hcc1 & Hcc4 & Hmdot & Hargpdot & Hnodedot & Hnodecf & Ht2cof).
  aconst @kXKE. aconst @kX2O3.
  match goal with |- ?G _ _ => set (PP := G) end.
  cbv beta delta [sgp4_secular]. rewrite I1, I2. change (negb (1 =? 1)%Z) with false; cbv iota. lets xmdf. lets argpdf. lets nodedf. lets argpm. lets mm. lets t2. assert (0 <= t2') by (rewrite Et2; rops; apply Rle_0_sqr). acut Ht2 0%Q 2073601%Q. lets nodem. lets tempa. lets tempe. lets templ.
  unfold PP, sec_post. cbn [se_tempe]. intros em em' am am' nm nm' Eem Eem' Eam Eam' Enm Enm'. unfold sgp4_am in Eam, Eam'. cbn [se_tempa] in Eam, Eam'. cbv zeta in Eam, Eam'. unfold sgp4_nm in Enm, Enm'. cbv zeta in Enm, Enm'.
  eassert (Hem : apx em em' _) by (rewrite Eem, Eem'; arel). eassert (Ham : apx am am' _) by (rewrite Eam, Eam'; arel). eassert (Hnm : apx nm nm' _) by (rewrite Enm, Enm'; arel).
  unfold sec_ok. cbn [se_argpm se_mm se_nodem se_tempe se_templ]. asplit.
Qed.
Definition sl8 := SB (Eb (-733180 # 10 ^ 5) (733180 # 10 ^ 5) (113 # 10 ^ 18) (844 # 10 ^ 17))
  (Eb (-112572 # 10 ^ 3) (112572 # 10 ^ 3) (113 # 10 ^ 18) (148 # 10 ^ 15))
  (Eb (-716598 # 10 ^ 5) (716598 # 10 ^ 5) (113 # 10 ^ 18) (171 # 10 ^ 16))
  (Eb (-463700 # 10 ^ 8) (463700 # 10 ^ 8) (357 # 10 ^ 14) (927 # 10 ^ 60))
  (Eb (-668552 # 10 ^ 5) (668552 # 10 ^ 5) (598 # 10 ^ 14) (333 # 10 ^ 56))
  (Eb (195361 # 10 ^ 6) (324641 # 10 ^ 6) (849 # 10 ^ 16) 0)
  (Eb (100539 # 10 ^ 5) (193271 # 10 ^ 5) (395 # 10 ^ 16) 0)
  (Eb (276779 # 10 ^ 7) (737686 # 10 ^ 7) (604 # 10 ^ 16) 0).
Lemma low_sec8 (s : Satrec b64) (s' : Satrec R) : low_in low8 lb8 s s' ->
  sec_post lm sl8 s s' (@sgp4_secular _ B s) (@sgp4_secular _ ROps s').
Proof.
  intros ((I1 & I2) & Ht & Hbs & Hmo & Hargpo & Hnodeo & He & Hno & Hcc1 & Hcc4 & Hmdot & Hargpdot & Hnodedot & Hnodecf & Ht2cof).
  aconst @kXKE. aconst @kX2O3.
  match goal with |- ?G _ _ => set (PP := G) end.
  cbv beta delta [sgp4_secular]. rewrite I1, I2. change (negb (1 =? 1)%Z) with false; cbv iota. lets xmdf. lets argpdf. lets nodedf. lets argpm. lets mm. lets t2. assert (0 <= t2') by (rewrite Et2; rops; apply Rle_0_sqr). acut Ht2 0%Q 2073601%Q. lets nodem. lets tempa. lets tempe. lets templ.
  unfold PP, sec_post. cbn [se_tempe]. intros em em' am am' nm nm' Eem Eem' Eam Eam' Enm Enm'. unfold sgp4_am in Eam, Eam'. cbn [se_tempa] in Eam, Eam'. cbv zeta in Eam, Eam'. unfold sgp4_nm in Enm, Enm'. cbv zeta in Enm, Enm'.
  eassert (Hem : apx em em' _) by (rewrite Eem, Eem'; arel). eassert (Ham : apx am am' _) by (rewrite Eam, Eam'; arel). eassert (Hnm : apx nm nm' _) by (rewrite Enm, Enm'; arel).
  unfold sec_ok. cbn [se_argpm se_mm se_nodem se_tempe se_templ]. asplit.
Qed.
Definition sl9 := SB (Eb (-733180 # 10 ^ 5) (733180 # 10 ^ 5) (113 # 10 ^ 18) (844 # 10 ^ 17))
  (Eb (-112572 # 10 ^ 3) (112572 # 10 ^ 3) (113 # 10 ^ 18) (148 # 10 ^ 15))
  (Eb (-716560 # 10 ^ 5) (716560 # 10 ^ 5) (113 # 10 ^ 18) (119 # 10 ^ 16))
  (Eb (-350514 # 10 ^ 8) (350514 # 10 ^ 8) (332 # 10 ^ 14) (927 # 10 ^ 60))
  (Eb (-525033 # 10 ^ 5) (525033 # 10 ^ 5) (387 # 10 ^ 14) (333 # 10 ^ 56))
  (Eb (316491 # 10 ^ 6) (454510 # 10 ^ 6) (370 # 10 ^ 16) 0)
  (Eb (100673 # 10 ^ 5) (193015 # 10 ^ 5) (212 # 10 ^ 16) 0)
  (Eb (277329 # 10 ^ 7) (736213 # 10 ^ 7) (329 # 10 ^ 16) 0).
Lemma low_sec9 (s : Satrec b64) (s' : Satrec R) : low_in low9 lb9 s s' ->
  sec_post lm sl9 s s' (@sgp4_secular _ B s) (@sgp4_secular _ ROps s').
Proof.
  intros ((I1 & I2) & Ht & Hbs & Hmo & Hargpo & Hnodeo & He & Hno & Hcc1 & Hcc4 & Hmdot & Hargpdot & Hnodedot & Hnodecf & Ht2cof).
  aconst @kXKE. aconst @kX2O3.
  match goal with |- ?G _ _ => set (PP := G) end.
  cbv beta delta [sgp4_secular]. rewrite I1, I2. change (negb (1 =? 1)%Z) with false; cbv iota. lets xmdf. lets argpdf. lets nodedf. lets argpm. lets mm. lets t2. assert (0 <= t2') by (rewrite Et2; rops; apply Rle_0_sqr). acut Ht2 0%Q 2073601%Q. lets nodem. lets tempa. lets tempe. lets templ.
  unfold PP, sec_post. cbn [se_tempe]. intros em em' am am' nm nm' Eem Eem' Eam Eam' Enm Enm'. unfold sgp4_am in Eam, Eam'. cbn [se_tempa] in Eam, Eam'. cbv zeta in Eam, Eam'. unfold sgp4_nm in Enm, Enm'. cbv zeta in Enm, Enm'.
  eassert (Hem : apx em em' _) by (rewrite Eem, Eem'; arel). eassert (Ham : apx am am' _) by (rewrite Eam, Eam'; arel). eassert (Hnm : apx nm nm' _) by (rewrite Enm, Enm'; arel).
  unfold sec_ok. cbn [se_argpm se_mm se_nodem se_tempe se_templ]. asplit.
Qed.
End S.
