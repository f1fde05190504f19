(** * Binary64 accuracy of the initialisation of deep-space orbits: secular rates and drag coefficients *)
From Coq Require Import ZArith QArith Reals Qreals Bool Lra Lia Psatz.
From Flocq Require Import Core IEEE754.BinarySingleNaN.
From Verif.Model Require Import Float Str Satrec Constants Initl Sgp4init.
From Verif.Spec Require Import LibmAccuracy.
From Verif.Inst Require Import RInst RTac B64 B64Facts B64Calc ApxCalc.
From Verif.Proofs Require Import CalcFun CalcPow ApxFun AccInit AccNear DeepKozai.
Local Open Scope R_scope.

Definition dcc1B := Eb (-496 # 10 ^ 12) (496 # 10 ^ 12) (24 # 10 ^ 13) (78 # 10 ^ 62).
Definition dcc4B := Eb (-152 # 10 ^ 10) (762 # 10 ^ 9) (87 # 10 ^ 14) (72 # 10 ^ 21).
Definition dmdotB := Eb (397 # 100000) (2795 # 100000) (13 # 10 ^ 16) 0.
Definition dargpdotB := Eb (-921 # 10 ^ 8) (366 # 10 ^ 7) (12 # 10 ^ 17) (55 # 10 ^ 20).
Definition dnodedotB := Eb (-182 # 10 ^ 7) (172 # 10 ^ 7) (12 # 10 ^ 17) (20 # 10 ^ 20).
Definition dnodecfB := Eb (-315 # 10 ^ 16) (315 # 10 ^ 16) (24 # 10 ^ 13) (65 # 10 ^ 30).
Definition dt2cofB := Eb (-743 # 10 ^ 12) (743 # 10 ^ 12) (24 # 10 ^ 13) (19 # 10 ^ 61).
Definition dnear_ok (n : @NearOut b64) (n' : @NearOut R) : Prop :=
  apx (sr_cc1 (ne_s n)) (sr_cc1 (ne_s n')) dcc1B /\ apx (sr_cc4 (ne_s n)) (sr_cc4 (ne_s n')) dcc4B /\
  apx (sr_mdot (ne_s n)) (sr_mdot (ne_s n')) dmdotB /\ apx (sr_argpdot (ne_s n)) (sr_argpdot (ne_s n')) dargpdotB /\
  apx (sr_nodedot (ne_s n)) (sr_nodedot (ne_s n')) dnodedotB /\ apx (sr_nodecf (ne_s n)) (sr_nodecf (ne_s n')) dnodecfB /\
  apx (sr_t2cof (ne_s n)) (sr_t2cof (ne_s n')) dt2cofB.

Section S.
Context (lm : libm) (ACC : accurate lm).
Notation B := (B64Ops lm).
Lemma datmo_acc rp rp' : apx rp rp' drpB ->
  (@sgp4init_atmo _ B rp = MkAtmo (@ss_v _ B) (@qz_v _ B)) /\ (@sgp4init_atmo _ ROps rp' = MkAtmo (@ss_v _ ROps) (@qz_v _ ROps)).
Proof.
  intros H. unfold sgp4init_atmo. cbv zeta.
  assert (F : @flt _ B (@per_v _ B rp) (@L _ B 156 0) = false /\ @flt _ ROps (@per_v _ ROps rp') (@L _ ROps 156 0) = false).
  { eapply apx_lt_false; [arel|arel|vm_compute; reflexivity]. }
  unfold per_v in F. destruct F as [F1 F2]. rewrite F1, F2. split; reflexivity.
Qed.
Lemma near_deep (r : InitlReturn b64) (r' : InitlReturn R) (s : Satrec b64) (s' : Satrec R) :
  apx (ir_ao r) (ir_ao r') daoB -> apx (ir_cosio r) (ir_cosio r') dcosB -> apx (ir_cosio2 r) (ir_cosio2 r') cos2B ->
  apx (ir_con42 r) (ir_con42 r') con42B -> apx (ir_rteosq r) (ir_rteosq r') drteB ->
  apx (ir_omeosq r) (ir_omeosq r') domeB -> apx (ir_posq r) (ir_posq r') dposqB -> apx (ir_rp r) (ir_rp r') drpB ->
  apx (sr_ecco s) (sr_ecco s') din_ecc -> apx (sr_no s) (sr_no s') dnoB -> apx (sr_con41 s) (sr_con41 s') con41B ->
  apx (sr_bstar s) (sr_bstar s') in_bst -> apx (sr_argpo s) (sr_argpo s') in_ang ->
  dnear_ok (@sgp4init_near _ B r s) (@sgp4init_near _ ROps r' s').
Proof.
  intros Hao Hcosio Hcosio2 Hcon42 Hrte Home Hposq Hrp He Hno Hcon41 Hbs Hargp.
  destruct (datmo_acc _ _ Hrp) as (A1 & A2). set (P := dnear_ok). ivl Hao Iao. ivl He Ie.
  aconst @kJ2. aconst @kJ4. aconst @kJ3OJ2. aconst @kX2O3. aconst @kEARTH_RADIUS.
  cbv beta delta [sgp4init_near]. do 8 askip. askip. do 3 askip. do 5 askip. rewrite A1, A2. cbv beta iota delta [at_sfour at_qzms24].
  lets sfour. lets qzms24. lets pinvsq. lets tsi. lets eta. ivl Hsfour Isf.
  assert (ET : 0 <= eta' <= 888 / 1000).
  { rewrite Eeta, Etsi. rops. set (a := ir_ao r') in *. set (e := sr_ecco s') in *. clearbody a e. assert (0 < / (a - sfour')) by (apply Rinv_0_lt_compat; lra). replace (a * e * (1 / (a - sfour'))) with (a * e / (a - sfour')) by (field; lra).
    split; [apply Rle_mult_inv_pos; [apply Rmult_le_pos; lra|lra]|]. apply (Rmult_le_reg_r (a - sfour')); [lra|]. unfold Rdiv. rewrite Rmult_assoc, Rinv_l by lra. nra. }
  acut Heta 0%Q (888 # 1000)%Q. lets etasq. lets eeta. lets psisq.
  assert (PS : 211 / 1000 <= psisq' <= 1) by (rewrite Epsisq, Eetasq; rops; rewrite Rabs_pos_eq; nra).
  acut Hpsisq (211 # 1000)%Q 1%Q.
  lets coef. lets coef1. lets cc2. lets cc1. do 2 askip. lets x1mth2. lets cc4. askip. lets cosio4. lets temp1. lets temp2. lets temp3.
  lets mdot. lets argpdot. lets xhdot1. lets nodedot. askip. do 3 askip. lets nodecf. lets t2cof. do 6 askip.
  do 18 askip. unfold P, dnear_ok. cbn [ne_s ne_tsi ne_sfour]. near_fields.
  asplit.
Qed.
End S.
