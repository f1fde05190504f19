(** * Binary64 accuracy of orbits with perigee above 400 km, up to three weeks from the epoch *)
From Coq Require Import ZArith QArith Reals Qreals Bool Lra Lia Psatz.
From Flocq Require Import Core IEEE754.BinarySingleNaN.
From Verif.Model Require Import Float Str Satrec Constants Initl Sgp4 Sgp4init.
From Verif.Spec Require Import LibmAccuracy.
From Verif.Inst Require Import RInst RTac B64 B64Facts B64Calc ApxCalc.
From Verif.Proofs Require Import CalcFun CalcPow ApxFun AccInit AccNear AccSecular.
Local Open Scope R_scope.

(** minutes: three weeks *)
Definition tweeks := Eb (-30240) 30240 0 0.

Section S.
Context (lm : libm) (ACC : accurate lm).
Notation B := (B64Ops lm).
Definition wb1 := NB (Eb 0 (210143 # 10 ^ 8) (863 # 10 ^ 16) (516 # 10 ^ 61))
  (Eb (-461325 # 10 ^ 13) (461325 # 10 ^ 13) (105 # 10 ^ 14) (631 # 10 ^ 63))
  (Eb 0 (100002 # 10 ^ 5) (113 # 10 ^ 18) (427 # 10 ^ 17))
  (Eb (-147807 # 10 ^ 10) (200536 # 10 ^ 10) (344 # 10 ^ 15) (537 # 10 ^ 20))
  (Eb (467151 # 10 ^ 14) (111326 # 10 ^ 8) (602 # 10 ^ 15) (793 # 10 ^ 62))
  (Eb (277778 # 10 ^ 7) (732965 # 10 ^ 7) (122 # 10 ^ 17) 0)
  (Eb (-543290 # 10 ^ 10) (213770 # 10 ^ 9) (113 # 10 ^ 18) (262 # 10 ^ 20))
  (Eb (-105851 # 10 ^ 9) (104803 # 10 ^ 9) (113 # 10 ^ 18) (883 # 10 ^ 21))
  (Eb 0 0 (346 # 10 ^ 18) (126 # 10 ^ 62))
  (Eb 0 0 0 0)
  (Eb (-169739 # 10 ^ 16) (169739 # 10 ^ 16) (106 # 10 ^ 14) (352 # 10 ^ 28))
  (Eb (-691987 # 10 ^ 13) (691987 # 10 ^ 13) (105 # 10 ^ 14) (158 # 10 ^ 62))
  (Eb (-472508 # 10 ^ 6) (472508 # 10 ^ 6) (211 # 10 ^ 15) (163 # 10 ^ 17))
  (Eb (-116946 # 10 ^ 8) (116946 # 10 ^ 8) (561 # 10 ^ 18) (243 # 10 ^ 20))
  (Eb (993699 # 10 ^ 6) (100633 # 10 ^ 5) (114 # 10 ^ 17) 0)
  (Eb (-100001 # 10 ^ 5) (100001 # 10 ^ 5) 0 (447 # 10 ^ 17))
  (Eb (-100002 # 10 ^ 5) (600007 # 10 ^ 5) (113 # 10 ^ 18) (307 # 10 ^ 16))
  (Eb (110061 # 10 ^ 5) (198137 # 10 ^ 4) (839 # 10 ^ 16) 0)
  (Eb (101221 # 10 ^ 5) (101224 # 10 ^ 5) (337 # 10 ^ 18) 0).
Lemma week_acc1 (r : InitlReturn b64) (r' : InitlReturn R) (s : Satrec b64) (s' : Satrec R) :
  apx (ir_ao r) (ir_ao r') aoB -> apx (ir_cosio r) (ir_cosio r') cosB -> apx (ir_cosio2 r) (ir_cosio2 r') cos2B ->
  apx (ir_con42 r) (ir_con42 r') con42B -> apx (ir_rteosq r) (ir_rteosq r') rteB ->
  apx (ir_omeosq r) (ir_omeosq r') omeB -> apx (ir_sinio r) (ir_sinio r') sinB -> apx (ir_posq r) (ir_posq r') posqB -> apx (ir_rp r) (ir_rp r') rpB ->
  10627 / 10000 <= ir_rp r' -> ir_rp r' = ir_ao r' * (1 - sr_ecco s') -> ir_rp r' * ir_rp r' <= ir_posq r' ->
  @flt _ B (@L _ B 1 4) (sr_ecco s) = @flt _ ROps (@L _ ROps 1 4) (sr_ecco s') ->
  apx (sr_ecco s) (sr_ecco s') box1 -> apx (sr_no s) (sr_no s') noB -> apx (sr_con41 s) (sr_con41 s') con41B ->
  apx (sr_bstar s) (sr_bstar s') in_bst -> apx (sr_argpo s) (sr_argpo s') in_ang -> apx (sr_mo s) (sr_mo s') in_ang ->
  near_ok wb1 (@sgp4init_near _ B r s) (@sgp4init_near _ ROps r' s').
Proof.
  intros Hao Hcosio Hcosio2 Hcon42 Hrte Home Hsin Hposq Hrp RP RE RS BR He Hno Hcon41 Hbs Hargp Hmo.
  assert (PQ : 1129 / 1000 <= ir_posq r') by nra. acut Hposq (1129 # 1000)%Q 4%Q.
  destruct (atmo_acc lm _ _ Hrp ltac:(lra)) as (A1 & A2 & G1 & G2). set (P := near_ok wb1).
  assert (AL : 1062700 / 1000000 <= ir_ao r').
  { ivl Hao Ia. ivl He Ie. apply (Rmult_le_reg_r (1 - sr_ecco s')); [lra|]. rewrite <- RE. lra. }
  acut Hao (1062700 # 1000000)%Q 2%Q. ivl Hao Iao. ivl He Ie.
  aconst @kJ2. aconst @kJ4. aconst @kJ3OJ2. aconst @kX2O3. aconst @kEARTH_RADIUS.
  cbv beta delta [sgp4init_near]. do 15 astep. askip. askip. fold (@lim_v _ B). fold (@lim_v _ ROps). rewrite A1, A2, G1, G2. cbv beta iota delta [at_sfour at_qzms24].
  lets sfour. lets qzms24. lets pinvsq. lets tsi. lets eta. ivl Hsfour Isf. ivl Hqzms24 Iqz.
  destruct (near_facts (10627 / 10000) (101223 / 100000) (1062700 / 1000000) (19814 / 1000) (21014 / 10000000) (19814 / 1000) (1 / 10000) (ir_ao r') (sr_ecco s') (ir_rp r') sfour' tsi' eta' (Rabs (1 - eta' * eta'))) as (T0 & ET & (PS & P0) & TP & TA); try assumption; try lra; try reflexivity.
  acut Heta 0%Q (21014 # 10000000)%Q. acut Htsi 1%Q (19814 # 1000)%Q. lets etasq. lets eeta. lets psisq.
  assert (PE : Rabs (1 - eta' * eta') = psisq') by (rewrite Epsisq, Eetasq; reflexivity). rewrite PE in PS, P0, TP, TA.
  acut Hpsisq (99999 # 100000)%Q 1%Q.
  lets coef. lets coef1.
  assert (C1 : 0 <= coef1' <= (28994 / 100000000)) by (rewrite Ecoef1, Ecoef; rops; rewrite Rpow_pos_base by lra; apply (coef1_R _ _ _ (19814 / 1000) (19814 / 1000) (19815 / 1000) _ (1881 / 1000000000000)); lra).
  acut Hcoef1 0%Q (28994 # 100000000)%Q.
  eassert (Hq1 : apx (@q1_v _ B tsi psisq) (@q1_v _ ROps tsi' psisq') _) by (unfold q1_v; arel).
  assert (Q1 : 0 <= @q1_v _ ROps tsi' psisq' <= 80443 / 10000000) by (rewrite q1_R by lra; lra).
  acut Hq1 0%Q (80443 # 10000000)%Q. unfold q1_v in Hq1.
  eassert (Hq2 : apx (@q2_v _ B tsi (ir_ao r) psisq) (@q2_v _ ROps tsi' (ir_ao r') psisq') _) by (unfold q2_v; arel).
  assert (Q2 : 0 <= @q2_v _ ROps tsi' (ir_ao r') psisq' <= 21452 / 1000000) by (rewrite q2_R by lra; lra).
  acut Hq2 0%Q (21452 # 1000000)%Q. unfold q2_v in Hq2.
  assert (BR2 : @flt _ ROps (@L _ ROps 1 4) (sr_ecco s') = false) by (rops; apply Rlt_bool_false; lra). rewrite BR2 in BR. rewrite BR, BR2. cbv iota.
  lets cc2. lets cc1. askip. lets cc3. lets x1mth2. lets cc4. lets cc5. lets cosio4. lets temp1. lets temp2. lets temp3.
  lets mdot. lets argpdot. lets xhdot1. lets nodedot. lets xpidot. lets omgcof. askip. lets xmcof. lets nodecf. lets t2cof. lets xlcof. lets aycof. lets delmotemp. lets delmo. lets sinmao. lets x7thm1.
  do 18 askip. unfold P, near_ok. cbn [ne_s ne_tsi ne_sfour]. near_fields. asplit. split; reflexivity.
Qed.
Definition wd1 := DB (Eb (-323986 # 10 ^ 18) (323986 # 10 ^ 18) (221 # 10 ^ 14) (964 # 10 ^ 61))
  (Eb (-332328 # 10 ^ 23) (332328 # 10 ^ 23) (336 # 10 ^ 14) (289 # 10 ^ 61))
  (Eb (-395048 # 10 ^ 28) (395048 # 10 ^ 28) (451 # 10 ^ 14) (630 # 10 ^ 63))
  (Eb (-328243 # 10 ^ 18) (328243 # 10 ^ 18) (113 # 10 ^ 18) (725 # 10 ^ 27))
  (Eb (-253755 # 10 ^ 23) (253755 # 10 ^ 23) (225 # 10 ^ 18) (852 # 10 ^ 32))
  (Eb (-242009 # 10 ^ 28) (242009 # 10 ^ 28) (337 # 10 ^ 18) (109 # 10 ^ 36)).
Lemma drag_week1 ao ao' tsi tsi' sfour sfour' (s : Satrec b64) (s' : Satrec R) :
  sr_isimp s = 0%Z -> sr_isimp s' = 0%Z -> apx ao ao' aoB -> 1062700 / 1000000 <= ao' -> apx tsi tsi' (nb_tsi wb1) -> apx sfour sfour' (nb_sfour wb1) ->
  apx (sr_cc1 s) (sr_cc1 s') (nb_cc1 wb1) ->
  drag_ok wd1 (@sgp4init_drag _ B ao tsi sfour s) (@sgp4init_drag _ ROps ao' tsi' sfour' s').
Proof.
  intros I1 I2 Hao AL Htsi Hsf Hcc1. set (P := drag_ok wd1). acut Hao (1062700 # 1000000)%Q 2%Q.
  cbv beta delta [sgp4init_drag]. rewrite I1, I2. change (negb (0 =? 1)%Z) with true; cbv iota. astep. lets cc1sq. lets d2. lets temp. lets d3. lets d4. lets t3cof. lets t4cof. lets t5cof.
  do 5 askip. unfold P, drag_ok. drag_fields. asplit.
Qed.
Definition ws1 := SB (Eb (-134646 # 10 ^ 4) (134646 # 10 ^ 4) (113 # 10 ^ 18) (873 # 10 ^ 16))
  (Eb (-222351 # 10 ^ 2) (222351 # 10 ^ 2) (113 # 10 ^ 18) (324 # 10 ^ 14))
  (Eb (-102166 # 10 ^ 4) (102166 # 10 ^ 4) (113 # 10 ^ 18) (498 # 10 ^ 16))
  (Eb (-608654 # 10 ^ 9) (608654 # 10 ^ 9) (113 # 10 ^ 18) (381 # 10 ^ 18))
  (Eb (-750910 # 10 ^ 4) (750910 # 10 ^ 4) (113 # 10 ^ 18) (974 # 10 ^ 13))
  (Eb (-608654 # 10 ^ 9) (708655 # 10 ^ 9) (113 # 10 ^ 18) (381 # 10 ^ 18))
  (Eb (100797 # 10 ^ 5) (192778 # 10 ^ 5) (824 # 10 ^ 17) 0)
  (Eb (277840 # 10 ^ 7) (734855 # 10 ^ 7) (135 # 10 ^ 16) 0).
Lemma sec_week1 (s : Satrec b64) (s' : Satrec R) : sec_in tweeks box1 wb1 wd1 s s' ->
  (sec_post lm) ws1 s s' (@sgp4_secular _ B s) (@sgp4_secular _ ROps s').
Proof.
  intros ((I1 & I2) & Ht & Hbs & Hmo & Hargpo & Hnodeo & He & Hno & Heta & Hcc1 & Hcc4 & Hcc5 & Hmdot & Hargpdot & Hnodedot & Homgcof & Hxmcof & Hnodecf & Ht2cof & Hdelmo & Hsinmao & Hd2 & Hd3 & Hd4 & Ht3cof & Ht4cof & Ht5cof).
  aconst @kXKE. aconst @kX2O3.
  match goal with |- ?G _ _ => set (PP := G) end.
  cbv beta delta [sgp4_secular]. rewrite I1, I2. change (negb (0 =? 1)%Z) with true; cbv iota. lets xmdf. lets argpdf. lets nodedf. astep. astep. lets t2. assert (0 <= t2') by (rewrite Et2; rops; apply Rle_0_sqr). acut Ht2 0%Q 914457601%Q. lets nodem. lets tempa0. lets tempe0. lets templ0.
  lets delomg. lets delmtemp. lets delm. lets temp. lets mm. lets argpm. lets t3. lets t4. assert (0 <= t4') by (rewrite Et4, Et3, Et2; rops; replace (sr_t s' * sr_t s' * sr_t s' * sr_t s') with ((sr_t s' * sr_t s') * (sr_t s' * sr_t s')) by ring; apply Rle_0_sqr). acut Ht4 0%Q 852957356241715200%Q. lets tempa. lets tempe. lets templ.
  unfold PP, sec_post. cbn [se_tempe]. intros em em' am am' nm nm' Eem Eem' Eam Eam' Enm Enm'. unfold sgp4_am in Eam, Eam'. cbn [se_tempa] in Eam, Eam'. cbv zeta in Eam, Eam'. unfold sgp4_nm in Enm, Enm'. cbv zeta in Enm, Enm'.
  eassert (Hem : apx em em' _) by (rewrite Eem, Eem'; arel). eassert (Ham : apx am am' _) by (rewrite Eam, Eam'; arel). eassert (Hnm : apx nm nm' _) by (rewrite Enm, Enm'; arel).
  unfold sec_ok. cbn [se_argpm se_mm se_nodem se_tempe se_templ]. asplit.
Qed.
Definition wb2 := NB (Eb (116974 # 10 ^ 9) (206433 # 10 ^ 7) (861 # 10 ^ 16) (629 # 10 ^ 63))
  (Eb (-458411 # 10 ^ 13) (458411 # 10 ^ 13) (105 # 10 ^ 14) (631 # 10 ^ 63))
  (Eb 0 (100002 # 10 ^ 5) (113 # 10 ^ 18) (427 # 10 ^ 17))
  (Eb (-146401 # 10 ^ 10) (229271 # 10 ^ 10) (343 # 10 ^ 15) (610 # 10 ^ 20))
  (Eb (467198 # 10 ^ 14) (110693 # 10 ^ 8) (601 # 10 ^ 15) (794 # 10 ^ 62))
  (Eb (277778 # 10 ^ 7) (732965 # 10 ^ 7) (122 # 10 ^ 17) 0)
  (Eb (-543290 # 10 ^ 10) (213770 # 10 ^ 9) (113 # 10 ^ 18) (262 # 10 ^ 20))
  (Eb (-105851 # 10 ^ 9) (104803 # 10 ^ 9) (113 # 10 ^ 18) (883 # 10 ^ 21))
  (Eb (-194241 # 10 ^ 10) (194241 # 10 ^ 10) (424 # 10 ^ 15) (127 # 10 ^ 21))
  (Eb (-912150 # 10 ^ 6) (912150 # 10 ^ 6) (425 # 10 ^ 15) (539 # 10 ^ 55))
  (Eb (-168667 # 10 ^ 16) (168667 # 10 ^ 16) (106 # 10 ^ 14) (350 # 10 ^ 28))
  (Eb (-687617 # 10 ^ 13) (687617 # 10 ^ 13) (105 # 10 ^ 14) (158 # 10 ^ 62))
  (Eb (-472508 # 10 ^ 6) (472508 # 10 ^ 6) (211 # 10 ^ 15) (163 # 10 ^ 17))
  (Eb (-116946 # 10 ^ 8) (116946 # 10 ^ 8) (561 # 10 ^ 18) (243 # 10 ^ 20))
  (Eb (939331 # 10 ^ 6) (106323 # 10 ^ 5) (630 # 10 ^ 17) 0)
  (Eb (-100001 # 10 ^ 5) (100001 # 10 ^ 5) 0 (447 # 10 ^ 17))
  (Eb (-100002 # 10 ^ 5) (600007 # 10 ^ 5) (113 # 10 ^ 18) (307 # 10 ^ 16))
  (Eb (110061 # 10 ^ 5) (197722 # 10 ^ 4) (837 # 10 ^ 16) 0)
  (Eb (101221 # 10 ^ 5) (101224 # 10 ^ 5) (337 # 10 ^ 18) 0).
Lemma week_acc2 (r : InitlReturn b64) (r' : InitlReturn R) (s : Satrec b64) (s' : Satrec R) :
  apx (ir_ao r) (ir_ao r') aoB -> apx (ir_cosio r) (ir_cosio r') cosB -> apx (ir_cosio2 r) (ir_cosio2 r') cos2B ->
  apx (ir_con42 r) (ir_con42 r') con42B -> apx (ir_rteosq r) (ir_rteosq r') rteB ->
  apx (ir_omeosq r) (ir_omeosq r') omeB -> apx (ir_sinio r) (ir_sinio r') sinB -> apx (ir_posq r) (ir_posq r') posqB -> apx (ir_rp r) (ir_rp r') rpB ->
  10627 / 10000 <= ir_rp r' -> ir_rp r' = ir_ao r' * (1 - sr_ecco s') -> ir_rp r' * ir_rp r' <= ir_posq r' ->
  @flt _ B (@L _ B 1 4) (sr_ecco s) = true -> @flt _ ROps (@L _ ROps 1 4) (sr_ecco s') = true ->
  apx (sr_ecco s) (sr_ecco s') box2 -> apx (sr_no s) (sr_no s') noB -> apx (sr_con41 s) (sr_con41 s') con41B ->
  apx (sr_bstar s) (sr_bstar s') in_bst -> apx (sr_argpo s) (sr_argpo s') in_ang -> apx (sr_mo s) (sr_mo s') in_ang ->
  near_ok wb2 (@sgp4init_near _ B r s) (@sgp4init_near _ ROps r' s').
Proof.
  intros Hao Hcosio Hcosio2 Hcon42 Hrte Home Hsin Hposq Hrp RP RE RS BR BR2 He Hno Hcon41 Hbs Hargp Hmo.
  assert (PQ : 1129 / 1000 <= ir_posq r') by nra. acut Hposq (1129 # 1000)%Q 4%Q.
  destruct (atmo_acc lm _ _ Hrp ltac:(lra)) as (A1 & A2 & G1 & G2). set (P := near_ok wb2).
  assert (AL : 1062806 / 1000000 <= ir_ao r').
  { ivl Hao Ia. ivl He Ie. apply (Rmult_le_reg_r (1 - sr_ecco s')); [lra|]. rewrite <- RE. lra. }
  acut Hao (1062806 # 1000000)%Q 2%Q. ivl Hao Iao. ivl He Ie.
  aconst @kJ2. aconst @kJ4. aconst @kJ3OJ2. aconst @kX2O3. aconst @kEARTH_RADIUS.
  cbv beta delta [sgp4init_near]. do 15 astep. askip. askip. fold (@lim_v _ B). fold (@lim_v _ ROps). rewrite A1, A2, G1, G2. cbv beta iota delta [at_sfour at_qzms24].
  lets sfour. lets qzms24. lets pinvsq. lets tsi. lets eta. ivl Hsfour Isf. ivl Hqzms24 Iqz.
  destruct (near_facts (10627 / 10000) (101223 / 100000) (1062806 / 1000000) (19773 / 1000) (20643 / 1000000) (19814 / 1000) (1 / 1000) (ir_ao r') (sr_ecco s') (ir_rp r') sfour' tsi' eta' (Rabs (1 - eta' * eta'))) as (T0 & ET & (PS & P0) & TP & TA); try assumption; try lra; try reflexivity.
  acut Heta 0%Q (20643 # 1000000)%Q. acut Htsi 1%Q (19773 # 1000)%Q. lets etasq. lets eeta. lets psisq.
  assert (PE : Rabs (1 - eta' * eta') = psisq') by (rewrite Epsisq, Eetasq; reflexivity). rewrite PE in PS, P0, TP, TA.
  acut Hpsisq (99957 # 100000)%Q 1%Q.
  lets coef. lets coef1.
  assert (C1 : 0 <= coef1' <= (28963 / 100000000)) by (rewrite Ecoef1, Ecoef; rops; rewrite Rpow_pos_base by lra; apply (coef1_R _ _ _ (19773 / 1000) (19814 / 1000) (19794 / 1000) _ (1881 / 1000000000000)); lra).
  acut Hcoef1 0%Q (28963 # 100000000)%Q.
  eassert (Hq1 : apx (@q1_v _ B tsi psisq) (@q1_v _ ROps tsi' psisq') _) by (unfold q1_v; arel).
  assert (Q1 : 0 <= @q1_v _ ROps tsi' psisq' <= 80443 / 10000000) by (rewrite q1_R by lra; lra).
  acut Hq1 0%Q (80443 # 10000000)%Q. unfold q1_v in Hq1.
  eassert (Hq2 : apx (@q2_v _ B tsi (ir_ao r) psisq) (@q2_v _ ROps tsi' (ir_ao r') psisq') _) by (unfold q2_v; arel).
  assert (Q2 : 0 <= @q2_v _ ROps tsi' (ir_ao r') psisq' <= 21452 / 1000000) by (rewrite q2_R by lra; lra).
  acut Hq2 0%Q (21452 # 1000000)%Q. unfold q2_v in Hq2.
  rewrite BR, BR2. cbv iota.
  lets cc2. lets cc1. askip. lets cc3. lets x1mth2. lets cc4. lets cc5. lets cosio4. lets temp1. lets temp2. lets temp3.
  lets mdot. lets argpdot. lets xhdot1. lets nodedot. lets xpidot. lets omgcof. askip. lets xmcof.
  ivl Hbs Ibs. assert (XM : - (91214 / 100000) <= xmcof' <= (91214 / 100000)) by (rewrite Exmcof, Ecoef, Eeeta, Eeta; rops; rewrite xo3_R; apply (xm_R _ _ _ _ _ (19773 / 1000) (1062806 / 1000000) (1 / 10000) _ (1881 / 1000000000000)); lra).
  acut Hxmcof (-91214 # 100000)%Q (91214 # 100000)%Q.
  lets nodecf. lets t2cof. lets xlcof. lets aycof. lets delmotemp. lets delmo. lets sinmao. lets x7thm1.
  do 18 askip. unfold P, near_ok. cbn [ne_s ne_tsi ne_sfour]. near_fields. asplit. split; reflexivity.
Qed.
Definition wd2 := DB (Eb (-319236 # 10 ^ 18) (319236 # 10 ^ 18) (221 # 10 ^ 14) (962 # 10 ^ 61))
  (Eb (-324706 # 10 ^ 23) (324706 # 10 ^ 23) (336 # 10 ^ 14) (289 # 10 ^ 61))
  (Eb (-382745 # 10 ^ 28) (382745 # 10 ^ 28) (451 # 10 ^ 14) (630 # 10 ^ 63))
  (Eb (-323439 # 10 ^ 18) (323439 # 10 ^ 18) (113 # 10 ^ 18) (714 # 10 ^ 27))
  (Eb (-247944 # 10 ^ 23) (247944 # 10 ^ 23) (225 # 10 ^ 18) (832 # 10 ^ 32))
  (Eb (-234483 # 10 ^ 28) (234483 # 10 ^ 28) (337 # 10 ^ 18) (106 # 10 ^ 36)).
Lemma drag_week2 ao ao' tsi tsi' sfour sfour' (s : Satrec b64) (s' : Satrec R) :
  sr_isimp s = 0%Z -> sr_isimp s' = 0%Z -> apx ao ao' aoB -> 1062806 / 1000000 <= ao' -> apx tsi tsi' (nb_tsi wb2) -> apx sfour sfour' (nb_sfour wb2) ->
  apx (sr_cc1 s) (sr_cc1 s') (nb_cc1 wb2) ->
  drag_ok wd2 (@sgp4init_drag _ B ao tsi sfour s) (@sgp4init_drag _ ROps ao' tsi' sfour' s').
Proof.
  intros I1 I2 Hao AL Htsi Hsf Hcc1. set (P := drag_ok wd2). acut Hao (1062806 # 1000000)%Q 2%Q.
  cbv beta delta [sgp4init_drag]. rewrite I1, I2. change (negb (0 =? 1)%Z) with true; cbv iota. astep. lets cc1sq. lets d2. lets temp. lets d3. lets d4. lets t3cof. lets t4cof. lets t5cof.
  do 5 askip. unfold P, drag_ok. drag_fields. asplit.
Qed.
Definition ws2 := SB (Eb (-141650 # 10 ^ 4) (141650 # 10 ^ 4) (113 # 10 ^ 18) (602 # 10 ^ 15))
  (Eb (-222421 # 10 ^ 2) (222421 # 10 ^ 2) (113 # 10 ^ 18) (375 # 10 ^ 14))
  (Eb (-102165 # 10 ^ 4) (102165 # 10 ^ 4) (113 # 10 ^ 18) (497 # 10 ^ 16))
  (Eb (-695537 # 10 ^ 9) (695537 # 10 ^ 9) (113 # 10 ^ 18) (433 # 10 ^ 18))
  (Eb (-744909 # 10 ^ 4) (744909 # 10 ^ 4) (113 # 10 ^ 18) (964 # 10 ^ 13))
  (Eb (-595536 # 10 ^ 9) (169555 # 10 ^ 8) (113 # 10 ^ 18) (433 # 10 ^ 18))
  (Eb (100801 # 10 ^ 5) (192772 # 10 ^ 5) (818 # 10 ^ 17) 0)
  (Eb (277854 # 10 ^ 7) (734819 # 10 ^ 7) (134 # 10 ^ 16) 0).
Lemma sec_week2 (s : Satrec b64) (s' : Satrec R) : sec_in tweeks box2 wb2 wd2 s s' ->
  (sec_post lm) ws2 s s' (@sgp4_secular _ B s) (@sgp4_secular _ ROps s').
Proof.
  intros ((I1 & I2) & Ht & Hbs & Hmo & Hargpo & Hnodeo & He & Hno & Heta & Hcc1 & Hcc4 & Hcc5 & Hmdot & Hargpdot & Hnodedot & Homgcof & Hxmcof & Hnodecf & Ht2cof & Hdelmo & Hsinmao & Hd2 & Hd3 & Hd4 & Ht3cof & Ht4cof & Ht5cof).
  aconst @kXKE. aconst @kX2O3.
  match goal with |- ?G _ _ => set (PP := G) end.
  cbv beta delta [sgp4_secular]. rewrite I1, I2. change (negb (0 =? 1)%Z) with true; cbv iota. lets xmdf. lets argpdf. lets nodedf. astep. astep. lets t2. assert (0 <= t2') by (rewrite Et2; rops; apply Rle_0_sqr). acut Ht2 0%Q 914457601%Q. lets nodem. lets tempa0. lets tempe0. lets templ0.
  lets delomg. lets delmtemp. lets delm. lets temp. lets mm. lets argpm. lets t3. lets t4. assert (0 <= t4') by (rewrite Et4, Et3, Et2; rops; replace (sr_t s' * sr_t s' * sr_t s' * sr_t s') with ((sr_t s' * sr_t s') * (sr_t s' * sr_t s')) by ring; apply Rle_0_sqr). acut Ht4 0%Q 852957356241715200%Q. lets tempa. lets tempe. lets templ.
  unfold PP, sec_post. cbn [se_tempe]. intros em em' am am' nm nm' Eem Eem' Eam Eam' Enm Enm'. unfold sgp4_am in Eam, Eam'. cbn [se_tempa] in Eam, Eam'. cbv zeta in Eam, Eam'. unfold sgp4_nm in Enm, Enm'. cbv zeta in Enm, Enm'.
  eassert (Hem : apx em em' _) by (rewrite Eem, Eem'; arel). eassert (Ham : apx am am' _) by (rewrite Eam, Eam'; arel). eassert (Hnm : apx nm nm' _) by (rewrite Enm, Enm'; arel).
  unfold sec_ok. cbn [se_argpm se_mm se_nodem se_tempe se_templ]. asplit.
Qed.
Definition wb3 := NB (Eb (117079 # 10 ^ 8) (300574 # 10 ^ 6) (845 # 10 ^ 16) (505 # 10 ^ 61))
  (Eb (-536050 # 10 ^ 13) (536050 # 10 ^ 13) (128 # 10 ^ 14) (632 # 10 ^ 63))
  (Eb 0 (100002 # 10 ^ 5) (113 # 10 ^ 18) (427 # 10 ^ 17))
  (Eb (-176660 # 10 ^ 10) (743986 # 10 ^ 10) (396 # 10 ^ 15) (196 # 10 ^ 19))
  (Eb (467624 # 10 ^ 14) (139491 # 10 ^ 8) (649 # 10 ^ 15) (111 # 10 ^ 61))
  (Eb (277778 # 10 ^ 7) (732965 # 10 ^ 7) (122 # 10 ^ 17) 0)
  (Eb (-543290 # 10 ^ 10) (213770 # 10 ^ 9) (113 # 10 ^ 18) (262 # 10 ^ 20))
  (Eb (-105851 # 10 ^ 9) (104803 # 10 ^ 9) (113 # 10 ^ 18) (883 # 10 ^ 21))
  (Eb (-176863 # 10 ^ 11) (176863 # 10 ^ 11) (416 # 10 ^ 15) (116 # 10 ^ 22))
  (Eb (-861529 # 10 ^ 8) (861529 # 10 ^ 8) (417 # 10 ^ 15) (538 # 10 ^ 57))
  (Eb (-197233 # 10 ^ 16) (197233 # 10 ^ 16) (128 # 10 ^ 14) (409 # 10 ^ 28))
  (Eb (-804074 # 10 ^ 13) (804074 # 10 ^ 13) (128 # 10 ^ 14) (158 # 10 ^ 62))
  (Eb (-472508 # 10 ^ 6) (472508 # 10 ^ 6) (211 # 10 ^ 15) (163 # 10 ^ 17))
  (Eb (-116946 # 10 ^ 8) (116946 # 10 ^ 8) (561 # 10 ^ 18) (243 # 10 ^ 20))
  (Eb (342159 # 10 ^ 6) (219992 # 10 ^ 5) (116 # 10 ^ 15) 0)
  (Eb (-100001 # 10 ^ 5) (100001 # 10 ^ 5) 0 (447 # 10 ^ 17))
  (Eb (-100002 # 10 ^ 5) (600007 # 10 ^ 5) (113 # 10 ^ 18) (307 # 10 ^ 16))
  (Eb (110061 # 10 ^ 5) (194050 # 10 ^ 4) (822 # 10 ^ 16) 0)
  (Eb (101221 # 10 ^ 5) (101224 # 10 ^ 5) (337 # 10 ^ 18) 0).
Lemma week_acc3 (r : InitlReturn b64) (r' : InitlReturn R) (s : Satrec b64) (s' : Satrec R) :
  apx (ir_ao r) (ir_ao r') aoB -> apx (ir_cosio r) (ir_cosio r') cosB -> apx (ir_cosio2 r) (ir_cosio2 r') cos2B ->
  apx (ir_con42 r) (ir_con42 r') con42B -> apx (ir_rteosq r) (ir_rteosq r') rteB ->
  apx (ir_omeosq r) (ir_omeosq r') omeB -> apx (ir_sinio r) (ir_sinio r') sinB -> apx (ir_posq r) (ir_posq r') posqB -> apx (ir_rp r) (ir_rp r') rpB ->
  10627 / 10000 <= ir_rp r' -> ir_rp r' = ir_ao r' * (1 - sr_ecco s') -> ir_rp r' * ir_rp r' <= ir_posq r' ->
  @flt _ B (@L _ B 1 4) (sr_ecco s) = @flt _ ROps (@L _ ROps 1 4) (sr_ecco s') ->
  apx (sr_ecco s) (sr_ecco s') box3 -> apx (sr_no s) (sr_no s') noB -> apx (sr_con41 s) (sr_con41 s') con41B ->
  apx (sr_bstar s) (sr_bstar s') in_bst -> apx (sr_argpo s) (sr_argpo s') in_ang -> apx (sr_mo s) (sr_mo s') in_ang ->
  near_ok wb3 (@sgp4init_near _ B r s) (@sgp4init_near _ ROps r' s').
Proof.
  intros Hao Hcosio Hcosio2 Hcon42 Hrte Home Hsin Hposq Hrp RP RE RS BR He Hno Hcon41 Hbs Hargp Hmo.
  assert (PQ : 1129 / 1000 <= ir_posq r') by nra. acut Hposq (1129 # 1000)%Q 4%Q.
  destruct (atmo_acc lm _ _ Hrp ltac:(lra)) as (A1 & A2 & G1 & G2). set (P := near_ok wb3).
  assert (AL : 1063763 / 1000000 <= ir_ao r').
  { ivl Hao Ia. ivl He Ie. apply (Rmult_le_reg_r (1 - sr_ecco s')); [lra|]. rewrite <- RE. lra. }
  acut Hao (1063763 # 1000000)%Q 2%Q. ivl Hao Iao. ivl He Ie.
  aconst @kJ2. aconst @kJ4. aconst @kJ3OJ2. aconst @kX2O3. aconst @kEARTH_RADIUS.
  cbv beta delta [sgp4init_near]. do 15 astep. askip. askip. fold (@lim_v _ B). fold (@lim_v _ ROps). rewrite A1, A2, G1, G2. cbv beta iota delta [at_sfour at_qzms24].
  lets sfour. lets qzms24. lets pinvsq. lets tsi. lets eta. ivl Hsfour Isf. ivl Hqzms24 Iqz.
  destruct (near_facts (10627 / 10000) (101223 / 100000) (1063763 / 1000000) (19406 / 1000) (30057 / 100000) (19814 / 1000) (1 / 50) (ir_ao r') (sr_ecco s') (ir_rp r') sfour' tsi' eta' (Rabs (1 - eta' * eta'))) as (T0 & ET & (PS & P0) & TP & TA); try assumption; try lra; try reflexivity.
  acut Heta 0%Q (30057 # 100000)%Q. acut Htsi 1%Q (19406 # 1000)%Q. lets etasq. lets eeta. lets psisq.
  assert (PE : Rabs (1 - eta' * eta') = psisq') by (rewrite Epsisq, Eetasq; reflexivity). rewrite PE in PS, P0, TP, TA.
  acut Hpsisq (90965 # 100000)%Q 1%Q.
  lets coef. lets coef1.
  assert (C1 : 0 <= coef1' <= (28692 / 100000000)) by (rewrite Ecoef1, Ecoef; rops; rewrite Rpow_pos_base by lra; apply (coef1_R _ _ _ (19406 / 1000) (19814 / 1000) (19609 / 1000) _ (1881 / 1000000000000)); lra).
  acut Hcoef1 0%Q (28692 # 100000000)%Q.
  eassert (Hq1 : apx (@q1_v _ B tsi psisq) (@q1_v _ ROps tsi' psisq') _) by (unfold q1_v; arel).
  assert (Q1 : 0 <= @q1_v _ ROps tsi' psisq' <= 80443 / 10000000) by (rewrite q1_R by lra; lra).
  acut Hq1 0%Q (80443 # 10000000)%Q. unfold q1_v in Hq1.
  eassert (Hq2 : apx (@q2_v _ B tsi (ir_ao r) psisq) (@q2_v _ ROps tsi' (ir_ao r') psisq') _) by (unfold q2_v; arel).
  assert (Q2 : 0 <= @q2_v _ ROps tsi' (ir_ao r') psisq' <= 21452 / 1000000) by (rewrite q2_R by lra; lra).
  acut Hq2 0%Q (21452 # 1000000)%Q. unfold q2_v in Hq2.
  lets cc2. lets cc1. askip. lets cc3. lets x1mth2. lets cc4. lets cc5. lets cosio4. lets temp1. lets temp2. lets temp3.
  lets mdot. lets argpdot. lets xhdot1. lets nodedot. lets xpidot. lets omgcof. askip. lets xmcof.
  ivl Hbs Ibs. assert (XM : - (86152 / 10000000) <= xmcof' <= (86152 / 10000000)) by (rewrite Exmcof, Ecoef, Eeeta, Eeta; rops; rewrite Rlt_bool_true by lra; rewrite xo3_R; apply (xm_R _ _ _ _ _ (19406 / 1000) (1063763 / 1000000) (1 / 1000) _ (1881 / 1000000000000)); lra).
  acut Hxmcof (-86152 # 10000000)%Q (86152 # 10000000)%Q.
  lets nodecf. lets t2cof. lets xlcof. lets aycof. lets delmotemp. lets delmo. lets sinmao. lets x7thm1.
  do 18 askip. unfold P, near_ok. cbn [ne_s ne_tsi ne_sfour]. near_fields. asplit. split; reflexivity.
Qed.
Definition wd3 := DB (Eb (-428421 # 10 ^ 18) (428421 # 10 ^ 18) (268 # 10 ^ 14) (944 # 10 ^ 61))
  (Eb (-500102 # 10 ^ 23) (500102 # 10 ^ 23) (405 # 10 ^ 14) (289 # 10 ^ 61))
  (Eb (-676530 # 10 ^ 28) (676530 # 10 ^ 28) (543 # 10 ^ 14) (630 # 10 ^ 63))
  (Eb (-434169 # 10 ^ 18) (434169 # 10 ^ 18) (113 # 10 ^ 18) (116 # 10 ^ 26))
  (Eb (-382005 # 10 ^ 23) (382005 # 10 ^ 23) (225 # 10 ^ 18) (155 # 10 ^ 31))
  (Eb (-414628 # 10 ^ 28) (414628 # 10 ^ 28) (337 # 10 ^ 18) (225 # 10 ^ 36)).
Lemma drag_week3 ao ao' tsi tsi' sfour sfour' (s : Satrec b64) (s' : Satrec R) :
  sr_isimp s = 0%Z -> sr_isimp s' = 0%Z -> apx ao ao' aoB -> 1063763 / 1000000 <= ao' -> apx tsi tsi' (nb_tsi wb3) -> apx sfour sfour' (nb_sfour wb3) ->
  apx (sr_cc1 s) (sr_cc1 s') (nb_cc1 wb3) ->
  drag_ok wd3 (@sgp4init_drag _ B ao tsi sfour s) (@sgp4init_drag _ ROps ao' tsi' sfour' s').
Proof.
  intros I1 I2 Hao AL Htsi Hsf Hcc1. set (P := drag_ok wd3). acut Hao (1063763 # 1000000)%Q 2%Q.
  cbv beta delta [sgp4init_drag]. rewrite I1, I2. change (negb (0 =? 1)%Z) with true; cbv iota. astep. lets cc1sq. lets d2. lets temp. lets d3. lets d4. lets t3cof. lets t4cof. lets t5cof.
  do 5 askip. unfold P, drag_ok. drag_fields. asplit.
Qed.
Definition ws3 := SB (Eb (-135341 # 10 ^ 4) (135341 # 10 ^ 4) (113 # 10 ^ 18) (201 # 10 ^ 15))
  (Eb (-222358 # 10 ^ 2) (222358 # 10 ^ 2) (113 # 10 ^ 18) (335 # 10 ^ 14))
  (Eb (-102191 # 10 ^ 4) (102191 # 10 ^ 4) (113 # 10 ^ 18) (565 # 10 ^ 16))
  (Eb (-225263 # 10 ^ 8) (225263 # 10 ^ 8) (113 # 10 ^ 18) (151 # 10 ^ 17))
  (Eb (-897792 # 10 ^ 4) (897792 # 10 ^ 4) (113 # 10 ^ 18) (147 # 10 ^ 12))
  (Eb (-125262 # 10 ^ 8) (222529 # 10 ^ 7) (113 # 10 ^ 18) (151 # 10 ^ 17))
  (Eb (100718 # 10 ^ 5) (192929 # 10 ^ 5) (112 # 10 ^ 16) 0)
  (Eb (277515 # 10 ^ 7) (735720 # 10 ^ 7) (178 # 10 ^ 16) 0).
Lemma sec_week3 (s : Satrec b64) (s' : Satrec R) : sec_in tweeks box3 wb3 wd3 s s' ->
  (sec_post lm) ws3 s s' (@sgp4_secular _ B s) (@sgp4_secular _ ROps s').
Proof.
  intros ((I1 & I2) & Ht & Hbs & Hmo & Hargpo & Hnodeo & He & Hno & Heta & Hcc1 & Hcc4 & Hcc5 & Hmdot & Hargpdot & Hnodedot & Homgcof & Hxmcof & Hnodecf & Ht2cof & Hdelmo & Hsinmao & Hd2 & Hd3 & Hd4 & Ht3cof & Ht4cof & Ht5cof).
  aconst @kXKE. aconst @kX2O3.
  match goal with |- ?G _ _ => set (PP := G) end.
  cbv beta delta [sgp4_secular]. rewrite I1, I2. change (negb (0 =? 1)%Z) with true; cbv iota. lets xmdf. lets argpdf. lets nodedf. astep. astep. lets t2. assert (0 <= t2') by (rewrite Et2; rops; apply Rle_0_sqr). acut Ht2 0%Q 914457601%Q. lets nodem. lets tempa0. lets tempe0. lets templ0.
  lets delomg. lets delmtemp. lets delm. lets temp. lets mm. lets argpm. lets t3. lets t4. assert (0 <= t4') by (rewrite Et4, Et3, Et2; rops; replace (sr_t s' * sr_t s' * sr_t s' * sr_t s') with ((sr_t s' * sr_t s') * (sr_t s' * sr_t s')) by ring; apply Rle_0_sqr). acut Ht4 0%Q 852957356241715200%Q. lets tempa. lets tempe. lets templ.
  unfold PP, sec_post. cbn [se_tempe]. intros em em' am am' nm nm' Eem Eem' Eam Eam' Enm Enm'. unfold sgp4_am in Eam, Eam'. cbn [se_tempa] in Eam, Eam'. cbv zeta in Eam, Eam'. unfold sgp4_nm in Enm, Enm'. cbv zeta in Enm, Enm'.
  eassert (Hem : apx em em' _) by (rewrite Eem, Eem'; arel). eassert (Ham : apx am am' _) by (rewrite Eam, Eam'; arel). eassert (Hnm : apx nm nm' _) by (rewrite Enm, Enm'; arel).
  unfold sec_ok. cbn [se_argpm se_mm se_nodem se_tempe se_templ]. asplit.
Qed.
Definition wb4 := NB (Eb (238699 # 10 ^ 7) (700568 # 10 ^ 6) (611 # 10 ^ 16) 0)
  (Eb (-815030 # 10 ^ 13) (815030 # 10 ^ 13) (237 # 10 ^ 14) (635 # 10 ^ 63))
  (Eb 0 (100002 # 10 ^ 5) (113 # 10 ^ 18) (427 # 10 ^ 17))
  (Eb (-199489 # 10 ^ 10) (148669 # 10 ^ 9) (656 # 10 ^ 15) (314 # 10 ^ 19))
  (Eb (479012 # 10 ^ 14) (240035 # 10 ^ 8) (838 # 10 ^ 15) (793 # 10 ^ 61))
  (Eb (277778 # 10 ^ 7) (732965 # 10 ^ 7) (122 # 10 ^ 17) 0)
  (Eb (-543290 # 10 ^ 10) (213770 # 10 ^ 9) (113 # 10 ^ 18) (262 # 10 ^ 20))
  (Eb (-105851 # 10 ^ 9) (104803 # 10 ^ 9) (113 # 10 ^ 18) (883 # 10 ^ 21))
  (Eb (-164305 # 10 ^ 13) (164305 # 10 ^ 13) (299 # 10 ^ 15) (108 # 10 ^ 24))
  (Eb (-769588 # 10 ^ 11) (769588 # 10 ^ 11) (300 # 10 ^ 15) (132 # 10 ^ 59))
  (Eb (-299880 # 10 ^ 16) (299880 # 10 ^ 16) (238 # 10 ^ 14) (621 # 10 ^ 28))
  (Eb (-122255 # 10 ^ 12) (122255 # 10 ^ 12) (237 # 10 ^ 14) (159 # 10 ^ 62))
  (Eb (-472508 # 10 ^ 6) (472508 # 10 ^ 6) (211 # 10 ^ 15) (163 # 10 ^ 17))
  (Eb (-116946 # 10 ^ 8) (116946 # 10 ^ 8) (561 # 10 ^ 18) (243 # 10 ^ 20))
  (Eb (268488 # 10 ^ 7) (491791 # 10 ^ 5) (462 # 10 ^ 15) (170 # 10 ^ 62))
  (Eb (-100001 # 10 ^ 5) (100001 # 10 ^ 5) 0 (447 # 10 ^ 17))
  (Eb (-100002 # 10 ^ 5) (600007 # 10 ^ 5) (113 # 10 ^ 18) (307 # 10 ^ 16))
  (Eb (110061 # 10 ^ 5) (138587 # 10 ^ 4) (588 # 10 ^ 16) 0)
  (Eb (101221 # 10 ^ 5) (101224 # 10 ^ 5) (337 # 10 ^ 18) 0).
Lemma week_acc4 (r : InitlReturn b64) (r' : InitlReturn R) (s : Satrec b64) (s' : Satrec R) :
  apx (ir_ao r) (ir_ao r') aoB -> apx (ir_cosio r) (ir_cosio r') cosB -> apx (ir_cosio2 r) (ir_cosio2 r') cos2B ->
  apx (ir_con42 r) (ir_con42 r') con42B -> apx (ir_rteosq r) (ir_rteosq r') rteB ->
  apx (ir_omeosq r) (ir_omeosq r') omeB -> apx (ir_sinio r) (ir_sinio r') sinB -> apx (ir_posq r) (ir_posq r') posqB -> apx (ir_rp r) (ir_rp r') rpB ->
  10627 / 10000 <= ir_rp r' -> ir_rp r' = ir_ao r' * (1 - sr_ecco s') -> ir_rp r' * ir_rp r' <= ir_posq r' ->
  @flt _ B (@L _ B 1 4) (sr_ecco s) = @flt _ ROps (@L _ ROps 1 4) (sr_ecco s') ->
  apx (sr_ecco s) (sr_ecco s') box4 -> apx (sr_no s) (sr_no s') noB -> apx (sr_con41 s) (sr_con41 s') con41B ->
  apx (sr_bstar s) (sr_bstar s') in_bst -> apx (sr_argpo s) (sr_argpo s') in_ang -> apx (sr_mo s) (sr_mo s') in_ang ->
  near_ok wb4 (@sgp4init_near _ B r s) (@sgp4init_near _ ROps r' s').
Proof.
  intros Hao Hcosio Hcosio2 Hcon42 Hrte Home Hsin Hposq Hrp RP RE RS BR He Hno Hcon41 Hbs Hargp Hmo.
  assert (PQ : 1129 / 1000 <= ir_posq r') by nra. acut Hposq (1129 # 1000)%Q 4%Q.
  destruct (atmo_acc lm _ _ Hrp ltac:(lra)) as (A1 & A2 & G1 & G2). set (P := near_ok wb4).
  assert (AL : 1084387 / 1000000 <= ir_ao r').
  { ivl Hao Ia. ivl He Ie. apply (Rmult_le_reg_r (1 - sr_ecco s')); [lra|]. rewrite <- RE. lra. }
  acut Hao (1084387 # 1000000)%Q 2%Q. ivl Hao Iao. ivl He Ie.
  aconst @kJ2. aconst @kJ4. aconst @kJ3OJ2. aconst @kX2O3. aconst @kEARTH_RADIUS.
  cbv beta delta [sgp4init_near]. do 15 astep. askip. askip. fold (@lim_v _ B). fold (@lim_v _ ROps). rewrite A1, A2, G1, G2. cbv beta iota delta [at_sfour at_qzms24].
  lets sfour. lets qzms24. lets pinvsq. lets tsi. lets eta. ivl Hsfour Isf. ivl Hqzms24 Iqz.
  destruct (near_facts (10627 / 10000) (101223 / 100000) (1084387 / 1000000) (13859 / 1000) (70056 / 100000) (19814 / 1000) (1 / 10) (ir_ao r') (sr_ecco s') (ir_rp r') sfour' tsi' eta' (Rabs (1 - eta' * eta'))) as (T0 & ET & (PS & P0) & TP & TA); try assumption; try lra; try reflexivity.
  acut Heta 0%Q (70056 # 100000)%Q. acut Htsi 1%Q (13859 # 1000)%Q. lets etasq. lets eeta. lets psisq.
  assert (PE : Rabs (1 - eta' * eta') = psisq') by (rewrite Epsisq, Eetasq; reflexivity). rewrite PE in PS, P0, TP, TA.
  acut Hpsisq (50921 # 100000)%Q 1%Q.
  lets coef. lets coef1.
  assert (C1 : 0 <= coef1' <= (24249 / 100000000)) by (rewrite Ecoef1, Ecoef; rops; rewrite Rpow_pos_base by lra; apply (coef1_R _ _ _ (13859 / 1000) (19814 / 1000) (16572 / 1000) _ (1881 / 1000000000000)); lra).
  acut Hcoef1 0%Q (24249 # 100000000)%Q.
  eassert (Hq1 : apx (@q1_v _ B tsi psisq) (@q1_v _ ROps tsi' psisq') _) by (unfold q1_v; arel).
  assert (Q1 : 0 <= @q1_v _ ROps tsi' psisq' <= 80443 / 10000000) by (rewrite q1_R by lra; lra).
  acut Hq1 0%Q (80443 # 10000000)%Q. unfold q1_v in Hq1.
  eassert (Hq2 : apx (@q2_v _ B tsi (ir_ao r) psisq) (@q2_v _ ROps tsi' (ir_ao r') psisq') _) by (unfold q2_v; arel).
  assert (Q2 : 0 <= @q2_v _ ROps tsi' (ir_ao r') psisq' <= 21452 / 1000000) by (rewrite q2_R by lra; lra).
  acut Hq2 0%Q (21452 # 1000000)%Q. unfold q2_v in Hq2.
  lets cc2. lets cc1. askip. lets cc3. lets x1mth2. lets cc4. lets cc5. lets cosio4. lets temp1. lets temp2. lets temp3.
  lets mdot. lets argpdot. lets xhdot1. lets nodedot. lets xpidot. lets omgcof. askip. lets xmcof.
  ivl Hbs Ibs. assert (XM : - (76958 / 10000000000) <= xmcof' <= (76958 / 10000000000)) by (rewrite Exmcof, Ecoef, Eeeta, Eeta; rops; rewrite Rlt_bool_true by lra; rewrite xo3_R; apply (xm_R _ _ _ _ _ (13859 / 1000) (1084387 / 1000000) (1 / 50) _ (1881 / 1000000000000)); lra).
  acut Hxmcof (-76958 # 10000000000)%Q (76958 # 10000000000)%Q.
  lets nodecf. lets t2cof. lets xlcof. lets aycof. lets delmotemp. lets delmo. lets sinmao. lets x7thm1.
  do 18 askip. unfold P, near_ok. cbn [ne_s ne_tsi ne_sfour]. near_fields. asplit. split; reflexivity.
Qed.
Definition wd4 := DB (Eb (-707321 # 10 ^ 18) (707321 # 10 ^ 18) (485 # 10 ^ 14) (676 # 10 ^ 61))
  (Eb (-896563 # 10 ^ 23) (896563 # 10 ^ 23) (731 # 10 ^ 14) (289 # 10 ^ 61))
  (Eb (-131701 # 10 ^ 27) (131701 # 10 ^ 27) (977 # 10 ^ 14) (630 # 10 ^ 63))
  (Eb (-720606 # 10 ^ 18) (720606 # 10 ^ 18) (113 # 10 ^ 18) (350 # 10 ^ 26))
  (Eb (-689852 # 10 ^ 23) (689852 # 10 ^ 23) (225 # 10 ^ 18) (504 # 10 ^ 31))
  (Eb (-814025 # 10 ^ 28) (814025 # 10 ^ 28) (337 # 10 ^ 18) (795 # 10 ^ 36)).
Lemma drag_week4 ao ao' tsi tsi' sfour sfour' (s : Satrec b64) (s' : Satrec R) :
  sr_isimp s = 0%Z -> sr_isimp s' = 0%Z -> apx ao ao' aoB -> 1084387 / 1000000 <= ao' -> apx tsi tsi' (nb_tsi wb4) -> apx sfour sfour' (nb_sfour wb4) ->
  apx (sr_cc1 s) (sr_cc1 s') (nb_cc1 wb4) ->
  drag_ok wd4 (@sgp4init_drag _ B ao tsi sfour s) (@sgp4init_drag _ ROps ao' tsi' sfour' s').
Proof.
  intros I1 I2 Hao AL Htsi Hsf Hcc1. set (P := drag_ok wd4). acut Hao (1084387 # 1000000)%Q 2%Q.
  cbv beta delta [sgp4init_drag]. rewrite I1, I2. change (negb (0 =? 1)%Z) with true; cbv iota. astep. lets cc1sq. lets d2. lets temp. lets d3. lets d4. lets t3cof. lets t4cof. lets t5cof.
  do 5 askip. unfold P, drag_ok. drag_fields. asplit.
Qed.
Definition ws4 := SB (Eb (-134651 # 10 ^ 4) (134651 # 10 ^ 4) (113 # 10 ^ 18) (883 # 10 ^ 16))
  (Eb (-222351 # 10 ^ 2) (222351 # 10 ^ 2) (113 # 10 ^ 18) (324 # 10 ^ 14))
  (Eb (-102285 # 10 ^ 4) (102285 # 10 ^ 4) (113 # 10 ^ 18) (991 # 10 ^ 16))
  (Eb (-450060 # 10 ^ 8) (450060 # 10 ^ 8) (113 # 10 ^ 18) (396 # 10 ^ 17))
  (Eb (-139553 # 10 ^ 3) (139553 # 10 ^ 3) (113 # 10 ^ 18) (429 # 10 ^ 12))
  (Eb (154992 # 10 ^ 7) (104502 # 10 ^ 6) (256 # 10 ^ 15) 0)
  (Eb (100464 # 10 ^ 5) (193415 # 10 ^ 5) (271 # 10 ^ 16) 0)
  (Eb (276469 # 10 ^ 7) (738518 # 10 ^ 7) (418 # 10 ^ 16) 0).
Lemma sec_week4 (s : Satrec b64) (s' : Satrec R) : sec_in tweeks box4 wb4 wd4 s s' ->
  (sec_post lm) ws4 s s' (@sgp4_secular _ B s) (@sgp4_secular _ ROps s').
Proof.
  intros ((I1 & I2) & Ht & Hbs & Hmo & Hargpo & Hnodeo & He & Hno & Heta & Hcc1 & Hcc4 & Hcc5 & Hmdot & Hargpdot & Hnodedot & Homgcof & Hxmcof & Hnodecf & Ht2cof & Hdelmo & Hsinmao & Hd2 & Hd3 & Hd4 & Ht3cof & Ht4cof & Ht5cof).
  aconst @kXKE. aconst @kX2O3.
  match goal with |- ?G _ _ => set (PP := G) end.
  cbv beta delta [sgp4_secular]. rewrite I1, I2. change (negb (0 =? 1)%Z) with true; cbv iota. lets xmdf. lets argpdf. lets nodedf. astep. astep. lets t2. assert (0 <= t2') by (rewrite Et2; rops; apply Rle_0_sqr). acut Ht2 0%Q 914457601%Q. lets nodem. lets tempa0. lets tempe0. lets templ0.
  lets delomg. lets delmtemp. lets delm. lets temp. lets mm. lets argpm. lets t3. lets t4. assert (0 <= t4') by (rewrite Et4, Et3, Et2; rops; replace (sr_t s' * sr_t s' * sr_t s' * sr_t s') with ((sr_t s' * sr_t s') * (sr_t s' * sr_t s')) by ring; apply Rle_0_sqr). acut Ht4 0%Q 852957356241715200%Q. lets tempa. lets tempe. lets templ.
  unfold PP, sec_post. cbn [se_tempe]. intros em em' am am' nm nm' Eem Eem' Eam Eam' Enm Enm'. unfold sgp4_am in Eam, Eam'. cbn [se_tempa] in Eam, Eam'. cbv zeta in Eam, Eam'. unfold sgp4_nm in Enm, Enm'. cbv zeta in Enm, Enm'.
  eassert (Hem : apx em em' _) by (rewrite Eem, Eem'; arel). eassert (Ham : apx am am' _) by (rewrite Eam, Eam'; arel). eassert (Hnm : apx nm nm' _) by (rewrite Enm, Enm'; arel).
  unfold sec_ok. cbn [se_argpm se_mm se_nodem se_tempe se_templ]. asplit.
Qed.
Definition wb5 := NB (Eb (129958 # 10 ^ 6) (875309 # 10 ^ 6) (277 # 10 ^ 16) 0)
  (Eb (-816028 # 10 ^ 13) (816028 # 10 ^ 13) (213 # 10 ^ 14) (687 # 10 ^ 63))
  (Eb 0 (100002 # 10 ^ 5) (113 # 10 ^ 18) (427 # 10 ^ 17))
  (Eb (-530160 # 10 ^ 11) (140932 # 10 ^ 9) (744 # 10 ^ 15) (167 # 10 ^ 19))
  (Eb (596343 # 10 ^ 14) (236269 # 10 ^ 8) (827 # 10 ^ 15) (154 # 10 ^ 59))
  (Eb (277778 # 10 ^ 7) (732965 # 10 ^ 7) (122 # 10 ^ 17) 0)
  (Eb (-543290 # 10 ^ 10) (213770 # 10 ^ 9) (113 # 10 ^ 18) (262 # 10 ^ 20))
  (Eb (-105851 # 10 ^ 9) (104803 # 10 ^ 9) (113 # 10 ^ 18) (883 # 10 ^ 21))
  (Eb (-472585 # 10 ^ 16) (472585 # 10 ^ 16) (132 # 10 ^ 15) (309 # 10 ^ 27))
  (Eb (-221813 # 10 ^ 13) (221813 # 10 ^ 13) (133 # 10 ^ 15) (491 # 10 ^ 61))
  (Eb (-300248 # 10 ^ 16) (300248 # 10 ^ 16) (214 # 10 ^ 14) (622 # 10 ^ 28))
  (Eb (-122405 # 10 ^ 12) (122405 # 10 ^ 12) (213 # 10 ^ 14) (166 # 10 ^ 62))
  (Eb (-472508 # 10 ^ 6) (472508 # 10 ^ 6) (211 # 10 ^ 15) (163 # 10 ^ 17))
  (Eb (-116946 # 10 ^ 8) (116946 # 10 ^ 8) (561 # 10 ^ 18) (243 # 10 ^ 20))
  (Eb (193907 # 10 ^ 8) (659503 # 10 ^ 5) (679 # 10 ^ 15) (181 # 10 ^ 62))
  (Eb (-100001 # 10 ^ 5) (100001 # 10 ^ 5) 0 (447 # 10 ^ 17))
  (Eb (-100002 # 10 ^ 5) (600007 # 10 ^ 5) (113 # 10 ^ 18) (307 # 10 ^ 16))
  (Eb (110061 # 10 ^ 5) (593310 # 10 ^ 5) (253 # 10 ^ 16) 0)
  (Eb (101221 # 10 ^ 5) (101224 # 10 ^ 5) (337 # 10 ^ 18) 0).
Lemma week_acc5 (r : InitlReturn b64) (r' : InitlReturn R) (s : Satrec b64) (s' : Satrec R) :
  apx (ir_ao r) (ir_ao r') aoB -> apx (ir_cosio r) (ir_cosio r') cosB -> apx (ir_cosio2 r) (ir_cosio2 r') cos2B ->
  apx (ir_con42 r) (ir_con42 r') con42B -> apx (ir_rteosq r) (ir_rteosq r') rteB ->
  apx (ir_omeosq r) (ir_omeosq r') omeB -> apx (ir_sinio r) (ir_sinio r') sinB -> apx (ir_posq r) (ir_posq r') posqB -> apx (ir_rp r) (ir_rp r') rpB ->
  10627 / 10000 <= ir_rp r' -> ir_rp r' = ir_ao r' * (1 - sr_ecco s') -> ir_rp r' * ir_rp r' <= ir_posq r' ->
  @flt _ B (@L _ B 1 4) (sr_ecco s) = @flt _ ROps (@L _ ROps 1 4) (sr_ecco s') ->
  apx (sr_ecco s) (sr_ecco s') box5 -> apx (sr_no s) (sr_no s') noB -> apx (sr_con41 s) (sr_con41 s') con41B ->
  apx (sr_bstar s) (sr_bstar s') in_bst -> apx (sr_argpo s) (sr_argpo s') in_ang -> apx (sr_mo s) (sr_mo s') in_ang ->
  near_ok wb5 (@sgp4init_near _ B r s) (@sgp4init_near _ ROps r' s').
Proof.
  intros Hao Hcosio Hcosio2 Hcon42 Hrte Home Hsin Hposq Hrp RP RE RS BR He Hno Hcon41 Hbs Hargp Hmo.
  assert (PQ : 1129 / 1000 <= ir_posq r') by nra. acut Hposq (1129 # 1000)%Q 4%Q.
  destruct (atmo_acc lm _ _ Hrp ltac:(lra)) as (A1 & A2 & G1 & G2). set (P := near_ok wb5).
  assert (AL : 1180777 / 1000000 <= ir_ao r').
  { ivl Hao Ia. ivl He Ie. apply (Rmult_le_reg_r (1 - sr_ecco s')); [lra|]. rewrite <- RE. lra. }
  acut Hao (1180777 # 1000000)%Q 2%Q. ivl Hao Iao. ivl He Ie.
  aconst @kJ2. aconst @kJ4. aconst @kJ3OJ2. aconst @kX2O3. aconst @kEARTH_RADIUS.
  cbv beta delta [sgp4init_near]. do 15 astep. askip. askip. fold (@lim_v _ B). fold (@lim_v _ ROps). rewrite A1, A2, G1, G2. cbv beta iota delta [at_sfour at_qzms24].
  lets sfour. lets qzms24. lets pinvsq. lets tsi. lets eta. ivl Hsfour Isf. ivl Hqzms24 Iqz.
  destruct (near_facts (10627 / 10000) (101223 / 100000) (1180777 / 1000000) (59331 / 10000) (87530 / 100000) (19814 / 1000) (1 / 4) (ir_ao r') (sr_ecco s') (ir_rp r') sfour' tsi' eta' (Rabs (1 - eta' * eta'))) as (T0 & ET & (PS & P0) & TP & TA); try assumption; try lra; try reflexivity.
  acut Heta 0%Q (87530 # 100000)%Q. acut Htsi 1%Q (59331 # 10000)%Q. lets etasq. lets eeta. lets psisq.
  assert (PE : Rabs (1 - eta' * eta') = psisq') by (rewrite Epsisq, Eetasq; reflexivity). rewrite PE in PS, P0, TP, TA.
  acut Hpsisq (23384 # 100000)%Q 1%Q.
  lets coef. lets coef1.
  assert (C1 : 0 <= coef1' <= (15866 / 100000000)) by (rewrite Ecoef1, Ecoef; rops; rewrite Rpow_pos_base by lra; apply (coef1_R _ _ _ (59331 / 10000) (19814 / 1000) (10843 / 1000) _ (1881 / 1000000000000)); lra).
  acut Hcoef1 0%Q (15866 # 100000000)%Q.
  eassert (Hq1 : apx (@q1_v _ B tsi psisq) (@q1_v _ ROps tsi' psisq') _) by (unfold q1_v; arel).
  assert (Q1 : 0 <= @q1_v _ ROps tsi' psisq' <= 80443 / 10000000) by (rewrite q1_R by lra; lra).
  acut Hq1 0%Q (80443 # 10000000)%Q. unfold q1_v in Hq1.
  eassert (Hq2 : apx (@q2_v _ B tsi (ir_ao r) psisq) (@q2_v _ ROps tsi' (ir_ao r') psisq') _) by (unfold q2_v; arel).
  assert (Q2 : 0 <= @q2_v _ ROps tsi' (ir_ao r') psisq' <= 21452 / 1000000) by (rewrite q2_R by lra; lra).
  acut Hq2 0%Q (21452 # 1000000)%Q. unfold q2_v in Hq2.
  lets cc2. lets cc1. askip. lets cc3. lets x1mth2. lets cc4. lets cc5. lets cosio4. lets temp1. lets temp2. lets temp3.
  lets mdot. lets argpdot. lets xhdot1. lets nodedot. lets xpidot. lets omgcof. askip. lets xmcof.
  ivl Hbs Ibs. assert (XM : - (22181 / 1000000000000) <= xmcof' <= (22181 / 1000000000000)) by (rewrite Exmcof, Ecoef, Eeeta, Eeta; rops; rewrite Rlt_bool_true by lra; rewrite xo3_R; apply (xm_R _ _ _ _ _ (59331 / 10000) (1180777 / 1000000) (1 / 10) _ (1881 / 1000000000000)); lra).
  acut Hxmcof (-22181 # 1000000000000)%Q (22181 # 1000000000000)%Q.
  lets nodecf. lets t2cof. lets xlcof. lets aycof. lets delmotemp. lets delmo. lets sinmao. lets x7thm1.
  do 18 askip. unfold P, near_ok. cbn [ne_s ne_tsi ne_sfour]. near_fields. asplit. split; reflexivity.
Qed.
Definition wd5 := DB (Eb (-303556 # 10 ^ 18) (303556 # 10 ^ 18) (434 # 10 ^ 14) (293 # 10 ^ 61))
  (Eb (-164928 # 10 ^ 23) (164928 # 10 ^ 23) (652 # 10 ^ 14) (289 # 10 ^ 61))
  (Eb (-103846 # 10 ^ 28) (103846 # 10 ^ 28) (869 # 10 ^ 14) (630 # 10 ^ 63))
  (Eb (-316874 # 10 ^ 18) (316874 # 10 ^ 18) (113 # 10 ^ 18) (138 # 10 ^ 26))
  (Eb (-131263 # 10 ^ 23) (131263 # 10 ^ 23) (225 # 10 ^ 18) (855 # 10 ^ 32))
  (Eb (-667660 # 10 ^ 29) (667660 # 10 ^ 29) (337 # 10 ^ 18) (581 # 10 ^ 37)).
Lemma drag_week5 ao ao' tsi tsi' sfour sfour' (s : Satrec b64) (s' : Satrec R) :
  sr_isimp s = 0%Z -> sr_isimp s' = 0%Z -> apx ao ao' aoB -> 1180777 / 1000000 <= ao' -> apx tsi tsi' (nb_tsi wb5) -> apx sfour sfour' (nb_sfour wb5) ->
  apx (sr_cc1 s) (sr_cc1 s') (nb_cc1 wb5) ->
  drag_ok wd5 (@sgp4init_drag _ B ao tsi sfour s) (@sgp4init_drag _ ROps ao' tsi' sfour' s').
Proof.
  intros I1 I2 Hao AL Htsi Hsf Hcc1. set (P := drag_ok wd5). acut Hao (1180777 # 1000000)%Q 2%Q.
  cbv beta delta [sgp4init_drag]. rewrite I1, I2. change (negb (0 =? 1)%Z) with true; cbv iota. astep. lets cc1sq. lets d2. lets temp. lets d3. lets d4. lets t3cof. lets t4cof. lets t5cof.
  do 5 askip. unfold P, drag_ok. drag_fields. asplit.
Qed.
Definition ws5 := SB (Eb (-134646 # 10 ^ 4) (134646 # 10 ^ 4) (113 # 10 ^ 18) (873 # 10 ^ 16))
  (Eb (-222351 # 10 ^ 2) (222351 # 10 ^ 2) (113 # 10 ^ 18) (324 # 10 ^ 14))
  (Eb (-102285 # 10 ^ 4) (102285 # 10 ^ 4) (113 # 10 ^ 18) (925 # 10 ^ 16))
  (Eb (-426656 # 10 ^ 8) (426656 # 10 ^ 8) (113 # 10 ^ 18) (373 # 10 ^ 17))
  (Eb (-121965 # 10 ^ 3) (121965 # 10 ^ 3) (113 # 10 ^ 18) (289 # 10 ^ 12))
  (Eb (957325 # 10 ^ 7) (254270 # 10 ^ 6) (392 # 10 ^ 16) 0)
  (Eb (100599 # 10 ^ 5) (193157 # 10 ^ 5) (169 # 10 ^ 16) 0)
  (Eb (277024 # 10 ^ 7) (737031 # 10 ^ 7) (265 # 10 ^ 16) 0).
Lemma sec_week5 (s : Satrec b64) (s' : Satrec R) : sec_in tweeks box5 wb5 wd5 s s' ->
  (sec_post lm) ws5 s s' (@sgp4_secular _ B s) (@sgp4_secular _ ROps s').
Proof.
  intros ((I1 & I2) & Ht & Hbs & Hmo & Hargpo & Hnodeo & He & Hno & Heta & Hcc1 & Hcc4 & Hcc5 & Hmdot & Hargpdot & Hnodedot & Homgcof & Hxmcof & Hnodecf & Ht2cof & Hdelmo & Hsinmao & Hd2 & Hd3 & Hd4 & Ht3cof & Ht4cof & Ht5cof).
  aconst @kXKE. aconst @kX2O3.
  match goal with |- ?G _ _ => set (PP := G) end.
  cbv beta delta [sgp4_secular]. rewrite I1, I2. change (negb (0 =? 1)%Z) with true; cbv iota. lets xmdf. lets argpdf. lets nodedf. astep. astep. lets t2. assert (0 <= t2') by (rewrite Et2; rops; apply Rle_0_sqr). acut Ht2 0%Q 914457601%Q. lets nodem. lets tempa0. lets tempe0. lets templ0.
  lets delomg. lets delmtemp. lets delm. lets temp. lets mm. lets argpm. lets t3. lets t4. assert (0 <= t4') by (rewrite Et4, Et3, Et2; rops; replace (sr_t s' * sr_t s' * sr_t s' * sr_t s') with ((sr_t s' * sr_t s') * (sr_t s' * sr_t s')) by ring; apply Rle_0_sqr). acut Ht4 0%Q 852957356241715200%Q. lets tempa. lets tempe. lets templ.
  unfold PP, sec_post. cbn [se_tempe]. intros em em' am am' nm nm' Eem Eem' Eam Eam' Enm Enm'. unfold sgp4_am in Eam, Eam'. cbn [se_tempa] in Eam, Eam'. cbv zeta in Eam, Eam'. unfold sgp4_nm in Enm, Enm'. cbv zeta in Enm, Enm'.
  eassert (Hem : apx em em' _) by (rewrite Eem, Eem'; arel). eassert (Ham : apx am am' _) by (rewrite Eam, Eam'; arel). eassert (Hnm : apx nm nm' _) by (rewrite Enm, Enm'; arel).
  unfold sec_ok. cbn [se_argpm se_mm se_nodem se_tempe se_templ]. asplit.
Qed.
Definition wb6 := NB (Eb (389875 # 10 ^ 6) (945360 # 10 ^ 6) (131 # 10 ^ 16) 0)
  (Eb (-713003 # 10 ^ 13) (713003 # 10 ^ 13) (125 # 10 ^ 14) (636 # 10 ^ 63))
  (Eb 0 (100002 # 10 ^ 5) (113 # 10 ^ 18) (427 # 10 ^ 17))
  (Eb (202076 # 10 ^ 15) (109672 # 10 ^ 9) (126 # 10 ^ 14) (108 # 10 ^ 61))
  (Eb (188666 # 10 ^ 13) (197111 # 10 ^ 8) (859 # 10 ^ 15) (251 # 10 ^ 61))
  (Eb (277778 # 10 ^ 7) (732965 # 10 ^ 7) (122 # 10 ^ 17) 0)
  (Eb (-543290 # 10 ^ 10) (213770 # 10 ^ 9) (113 # 10 ^ 18) (262 # 10 ^ 20))
  (Eb (-105851 # 10 ^ 9) (104803 # 10 ^ 9) (113 # 10 ^ 18) (883 # 10 ^ 21))
  (Eb (-236848 # 10 ^ 18) (236848 # 10 ^ 18) (584 # 10 ^ 16) (155 # 10 ^ 29))
  (Eb (-213653 # 10 ^ 15) (213653 # 10 ^ 15) (592 # 10 ^ 16) (708 # 10 ^ 62))
  (Eb (-262341 # 10 ^ 16) (262341 # 10 ^ 16) (125 # 10 ^ 14) (544 # 10 ^ 28))
  (Eb (-106951 # 10 ^ 12) (106951 # 10 ^ 12) (125 # 10 ^ 14) (159 # 10 ^ 62))
  (Eb (-472508 # 10 ^ 6) (472508 # 10 ^ 6) (211 # 10 ^ 15) (163 # 10 ^ 17))
  (Eb (-116946 # 10 ^ 8) (116946 # 10 ^ 8) (561 # 10 ^ 18) (243 # 10 ^ 20))
  (Eb (163217 # 10 ^ 9) (736204 # 10 ^ 5) (561 # 10 ^ 18) (189 # 10 ^ 15))
  (Eb (-100001 # 10 ^ 5) (100001 # 10 ^ 5) 0 (447 # 10 ^ 17))
  (Eb (-100002 # 10 ^ 5) (600007 # 10 ^ 5) (113 # 10 ^ 18) (307 # 10 ^ 16))
  (Eb (110061 # 10 ^ 5) (247097 # 10 ^ 5) (107 # 10 ^ 16) 0)
  (Eb (101221 # 10 ^ 5) (101224 # 10 ^ 5) (337 # 10 ^ 18) 0).
Lemma week_acc6 (r : InitlReturn b64) (r' : InitlReturn R) (s : Satrec b64) (s' : Satrec R) :
  apx (ir_ao r) (ir_ao r') aoB -> apx (ir_cosio r) (ir_cosio r') cosB -> apx (ir_cosio2 r) (ir_cosio2 r') cos2B ->
  apx (ir_con42 r) (ir_con42 r') con42B -> apx (ir_rteosq r) (ir_rteosq r') rteB ->
  apx (ir_omeosq r) (ir_omeosq r') omeB -> apx (ir_sinio r) (ir_sinio r') sinB -> apx (ir_posq r) (ir_posq r') posqB -> apx (ir_rp r) (ir_rp r') rpB ->
  10627 / 10000 <= ir_rp r' -> ir_rp r' = ir_ao r' * (1 - sr_ecco s') -> ir_rp r' * ir_rp r' <= ir_posq r' ->
  @flt _ B (@L _ B 1 4) (sr_ecco s) = @flt _ ROps (@L _ ROps 1 4) (sr_ecco s') ->
  apx (sr_ecco s) (sr_ecco s') box6 -> apx (sr_no s) (sr_no s') noB -> apx (sr_con41 s) (sr_con41 s') con41B ->
  apx (sr_bstar s) (sr_bstar s') in_bst -> apx (sr_argpo s) (sr_argpo s') in_ang -> apx (sr_mo s) (sr_mo s') in_ang ->
  near_ok wb6 (@sgp4init_near _ B r s) (@sgp4init_near _ ROps r' s').
Proof.
  intros Hao Hcosio Hcosio2 Hcon42 Hrte Home Hsin Hposq Hrp RP RE RS BR He Hno Hcon41 Hbs Hargp Hmo.
  assert (PQ : 1129 / 1000 <= ir_posq r') by nra. acut Hposq (1129 # 1000)%Q 4%Q.
  destruct (atmo_acc lm _ _ Hrp ltac:(lra)) as (A1 & A2 & G1 & G2). set (P := near_ok wb6).
  assert (AL : 1416933 / 1000000 <= ir_ao r').
  { ivl Hao Ia. ivl He Ie. apply (Rmult_le_reg_r (1 - sr_ecco s')); [lra|]. rewrite <- RE. lra. }
  acut Hao (1416933 # 1000000)%Q 2%Q. ivl Hao Iao. ivl He Ie.
  aconst @kJ2. aconst @kJ4. aconst @kJ3OJ2. aconst @kX2O3. aconst @kEARTH_RADIUS.
  cbv beta delta [sgp4init_near]. do 15 astep. askip. askip. fold (@lim_v _ B). fold (@lim_v _ ROps). rewrite A1, A2, G1, G2. cbv beta iota delta [at_sfour at_qzms24].
  lets sfour. lets qzms24. lets pinvsq. lets tsi. lets eta. ivl Hsfour Isf. ivl Hqzms24 Iqz.
  destruct (near_facts (10627 / 10000) (101223 / 100000) (1416933 / 1000000) (24710 / 10000) (94535 / 100000) (19814 / 1000) (451 / 1000) (ir_ao r') (sr_ecco s') (ir_rp r') sfour' tsi' eta' (Rabs (1 - eta' * eta'))) as (T0 & ET & (PS & P0) & TP & TA); try assumption; try lra; try reflexivity.
  acut Heta 0%Q (94535 # 100000)%Q. acut Htsi 1%Q (24710 # 10000)%Q. lets etasq. lets eeta. lets psisq.
  assert (PE : Rabs (1 - eta' * eta') = psisq') by (rewrite Epsisq, Eetasq; reflexivity). rewrite PE in PS, P0, TP, TA.
  acut Hpsisq (10631 # 100000)%Q 1%Q.
  lets coef. lets coef1.
  assert (C1 : 0 <= coef1' <= (10239 / 100000000)) by (rewrite Ecoef1, Ecoef; rops; rewrite Rpow_pos_base by lra; apply (coef1_R _ _ _ (24710 / 10000) (19814 / 1000) (69972 / 10000) _ (1881 / 1000000000000)); lra).
  acut Hcoef1 0%Q (10239 # 100000000)%Q.
  eassert (Hq1 : apx (@q1_v _ B tsi psisq) (@q1_v _ ROps tsi' psisq') _) by (unfold q1_v; arel).
  assert (Q1 : 0 <= @q1_v _ ROps tsi' psisq' <= 80443 / 10000000) by (rewrite q1_R by lra; lra).
  acut Hq1 0%Q (80443 # 10000000)%Q. unfold q1_v in Hq1.
  eassert (Hq2 : apx (@q2_v _ B tsi (ir_ao r) psisq) (@q2_v _ ROps tsi' (ir_ao r') psisq') _) by (unfold q2_v; arel).
  assert (Q2 : 0 <= @q2_v _ ROps tsi' (ir_ao r') psisq' <= 21452 / 1000000) by (rewrite q2_R by lra; lra).
  acut Hq2 0%Q (21452 # 1000000)%Q. unfold q2_v in Hq2.
  lets cc2. lets cc1. askip. lets cc3. lets x1mth2. lets cc4. lets cc5. lets cosio4. lets temp1. lets temp2. lets temp3.
  lets mdot. lets argpdot. lets xhdot1. lets nodedot. lets xpidot. lets omgcof. askip. lets xmcof.
  ivl Hbs Ibs. assert (XM : - (21365 / 100000000000000) <= xmcof' <= (21365 / 100000000000000)) by (rewrite Exmcof, Ecoef, Eeeta, Eeta; rops; rewrite Rlt_bool_true by lra; rewrite xo3_R; apply (xm_R _ _ _ _ _ (24710 / 10000) (1416933 / 1000000) (1 / 4) _ (1881 / 1000000000000)); lra).
  acut Hxmcof (-21365 # 100000000000000)%Q (21365 # 100000000000000)%Q.
  lets nodecf. lets t2cof. lets xlcof. lets aycof. lets delmotemp. lets delmo. lets sinmao. lets x7thm1.
  do 18 askip. unfold P, near_ok. cbn [ne_s ne_tsi ne_sfour]. near_fields. asplit. split; reflexivity.
Qed.
Definition wd6 := DB (Eb (-965155 # 10 ^ 19) (965155 # 10 ^ 19) (254 # 10 ^ 14) (126 # 10 ^ 61))
  (Eb (-190820 # 10 ^ 24) (190820 # 10 ^ 24) (382 # 10 ^ 14) (289 # 10 ^ 61))
  (Eb (-437213 # 10 ^ 30) (437213 # 10 ^ 30) (510 # 10 ^ 14) (629 # 10 ^ 63))
  (Eb (-106683 # 10 ^ 18) (106683 # 10 ^ 18) (113 # 10 ^ 18) (271 # 10 ^ 27))
  (Eb (-164666 # 10 ^ 24) (164666 # 10 ^ 24) (225 # 10 ^ 18) (628 # 10 ^ 33))
  (Eb (-309181 # 10 ^ 30) (309181 # 10 ^ 30) (337 # 10 ^ 18) (158 # 10 ^ 38)).
Lemma drag_week6 ao ao' tsi tsi' sfour sfour' (s : Satrec b64) (s' : Satrec R) :
  sr_isimp s = 0%Z -> sr_isimp s' = 0%Z -> apx ao ao' aoB -> 1416933 / 1000000 <= ao' -> apx tsi tsi' (nb_tsi wb6) -> apx sfour sfour' (nb_sfour wb6) ->
  apx (sr_cc1 s) (sr_cc1 s') (nb_cc1 wb6) ->
  drag_ok wd6 (@sgp4init_drag _ B ao tsi sfour s) (@sgp4init_drag _ ROps ao' tsi' sfour' s').
Proof.
  intros I1 I2 Hao AL Htsi Hsf Hcc1. set (P := drag_ok wd6). acut Hao (1416933 # 1000000)%Q 2%Q.
  cbv beta delta [sgp4init_drag]. rewrite I1, I2. change (negb (0 =? 1)%Z) with true; cbv iota. astep. lets cc1sq. lets d2. lets temp. lets d3. lets d4. lets t3cof. lets t4cof. lets t5cof.
  do 5 askip. unfold P, drag_ok. drag_fields. asplit.
Qed.
Definition ws6 := SB (Eb (-134646 # 10 ^ 4) (134646 # 10 ^ 4) (113 # 10 ^ 18) (873 # 10 ^ 16))
  (Eb (-222351 # 10 ^ 2) (222351 # 10 ^ 2) (113 # 10 ^ 18) (324 # 10 ^ 14))
  (Eb (-102251 # 10 ^ 4) (102251 # 10 ^ 4) (113 # 10 ^ 18) (635 # 10 ^ 16))
  (Eb (-332046 # 10 ^ 8) (332046 # 10 ^ 8) (113 # 10 ^ 18) (424 # 10 ^ 17))
  (Eb (-100899 # 10 ^ 3) (100899 # 10 ^ 3) (113 # 10 ^ 18) (132 # 10 ^ 12))
  (Eb (246677 # 10 ^ 6) (454325 # 10 ^ 6) (174 # 10 ^ 16) 0)
  (Eb (100710 # 10 ^ 5) (192945 # 10 ^ 5) (898 # 10 ^ 17) 0)
  (Eb (277479 # 10 ^ 7) (735813 # 10 ^ 7) (146 # 10 ^ 16) 0).
Lemma sec_week6 (s : Satrec b64) (s' : Satrec R) : sec_in tweeks box6 wb6 wd6 s s' ->
  (sec_post lm) ws6 s s' (@sgp4_secular _ B s) (@sgp4_secular _ ROps s').
Proof.
  intros ((I1 & I2) & Ht & Hbs & Hmo & Hargpo & Hnodeo & He & Hno & Heta & Hcc1 & Hcc4 & Hcc5 & Hmdot & Hargpdot & Hnodedot & Homgcof & Hxmcof & Hnodecf & Ht2cof & Hdelmo & Hsinmao & Hd2 & Hd3 & Hd4 & Ht3cof & Ht4cof & Ht5cof).
  aconst @kXKE. aconst @kX2O3.
  match goal with |- ?G _ _ => set (PP := G) end.
  cbv beta delta [sgp4_secular]. rewrite I1, I2. change (negb (0 =? 1)%Z) with true; cbv iota. lets xmdf. lets argpdf. lets nodedf. astep. astep. lets t2. assert (0 <= t2') by (rewrite Et2; rops; apply Rle_0_sqr). acut Ht2 0%Q 914457601%Q. lets nodem. lets tempa0. lets tempe0. lets templ0.
  lets delomg. lets delmtemp. lets delm. lets temp. lets mm. lets argpm. lets t3. lets t4. assert (0 <= t4') by (rewrite Et4, Et3, Et2; rops; replace (sr_t s' * sr_t s' * sr_t s' * sr_t s') with ((sr_t s' * sr_t s') * (sr_t s' * sr_t s')) by ring; apply Rle_0_sqr). acut Ht4 0%Q 852957356241715200%Q. lets tempa. lets tempe. lets templ.
  unfold PP, sec_post. cbn [se_tempe]. intros em em' am am' nm nm' Eem Eem' Eam Eam' Enm Enm'. unfold sgp4_am in Eam, Eam'. cbn [se_tempa] in Eam, Eam'. cbv zeta in Eam, Eam'. unfold sgp4_nm in Enm, Enm'. cbv zeta in Enm, Enm'.
  eassert (Hem : apx em em' _) by (rewrite Eem, Eem'; arel). eassert (Ham : apx am am' _) by (rewrite Eam, Eam'; arel). eassert (Hnm : apx nm nm' _) by (rewrite Enm, Enm'; arel).
  unfold sec_ok. cbn [se_argpm se_mm se_nodem se_tempe se_templ]. asplit.
Qed.
End S.
