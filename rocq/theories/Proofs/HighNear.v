(** * Binary64 accuracy of the initialisation of highly eccentric deep-space orbits: secular rates and drag coefficients *)
From Coq Require Import ZArith QArith Reals Qreals Bool Lra Lia Psatz.
From Flocq Require Import Core IEEE754.BinarySingleNaN.
From Verif.Model Require Import Float Str Satrec Constants Initl Sgp4init.
From Verif.Spec Require Import LibmAccuracy.
From Verif.Inst Require Import RInst RTac B64 B64Facts B64Calc ApxCalc.
From Verif.Proofs Require Import CalcFun CalcPow ApxFun AccInit AccNear DeepKozai HighKozai.
Local Open Scope R_scope.

Definition hcc1B := Eb (-231203 # 10 ^ 12) (231203 # 10 ^ 12) (185 # 10 ^ 13) (352 # 10 ^ 59).
Definition hcc4B := Eb (177800 # 10 ^ 19) (222003 # 10 ^ 9) (209 # 10 ^ 13) (432 # 10 ^ 56).
Definition hmdotB := Eb (398374 # 10 ^ 8) (279420 # 10 ^ 7) (123 # 10 ^ 17) 0.
Definition hargpdotB := Eb (-110987 # 10 ^ 10) (439956 # 10 ^ 10) (113 # 10 ^ 18) (671 # 10 ^ 21).
Definition hnodedotB := Eb (-218814 # 10 ^ 10) (206188 # 10 ^ 10) (113 # 10 ^ 18) (248 # 10 ^ 21).
Definition hnodecfB := Eb (-148182 # 10 ^ 16) (148182 # 10 ^ 16) (185 # 10 ^ 13) (300 # 10 ^ 28).
Definition ht2cofB := Eb (-346804 # 10 ^ 12) (346804 # 10 ^ 12) (185 # 10 ^ 13) (528 # 10 ^ 59).
Definition hnear_ok (n : @NearOut b64) (n' : @NearOut R) : Prop :=
  apx (sr_cc1 (ne_s n)) (sr_cc1 (ne_s n')) hcc1B /\ apx (sr_cc4 (ne_s n)) (sr_cc4 (ne_s n')) hcc4B /\
  apx (sr_mdot (ne_s n)) (sr_mdot (ne_s n')) hmdotB /\ apx (sr_argpdot (ne_s n)) (sr_argpdot (ne_s n')) hargpdotB /\
  apx (sr_nodedot (ne_s n)) (sr_nodedot (ne_s n')) hnodedotB /\ apx (sr_nodecf (ne_s n)) (sr_nodecf (ne_s n')) hnodecfB /\
  apx (sr_t2cof (ne_s n)) (sr_t2cof (ne_s n')) ht2cofB.

(** what holds of an orbit of perigee radius at least [P] and eccentricity between 0.4 and [h] *)
Lemma high_facts P S A T H W h ao e rp s tsi eta psisq : P <= rp -> rp = ao * (1 - e) -> 4 / 10 <= e <= h -> h < 1 -> 1 <= A <= ao -> 1 <= s <= S -> S < P ->
  1 <= T * (A - S) -> h * P <= H * (P - S * (1 - h)) -> 0 <= H <= 1 -> 1 <= W * ((P - S) * (14 / 10)) -> P <= A ->
  tsi = 1 / (ao - s) -> eta = ao * e * tsi -> psisq = Rabs (1 - eta * eta) ->
  0 < tsi <= T /\ 4 / 10 <= eta <= H /\ (1 - H * H <= psisq <= 1 /\ 0 < psisq) /\ 0 <= tsi / psisq <= W.
Proof.
  intros RP RE Ie Ih IA Is SP HT HH IH HW PA Etsi Eeta Epsisq.
  assert (D0 : 0 < ao - s) by lra.
  assert (T1 : tsi * (ao - s) = 1) by (rewrite Etsi; field; lra).
  assert (T0 : 0 < tsi) by (rewrite Etsi; apply Rdiv_lt_0_compat; lra).
  assert (T0P : 0 < T) by (apply (Rmult_lt_reg_r (A - S)); lra).
  assert (T2 : tsi <= T).
  { apply (Rmult_le_reg_r (ao - s)); [lra|]. rewrite T1. eapply Rle_trans; [exact HT|]. apply Rmult_le_compat_l; lra. }
  assert (EE : 1 - eta = (rp - s) * tsi) by (rewrite Eeta, RE; lra).
  assert (KT : (P - S) * tsi <= 1 - eta) by (rewrite EE; apply Rmult_le_compat_r; lra).
  assert (ET0 : e <= eta).
  { rewrite Eeta. replace (ao * e * tsi) with (e * (ao * tsi)) by ring. assert (1 <= ao * tsi) by (assert (0 <= s * tsi) by (apply Rmult_le_pos; lra); lra). rewrite <- (Rmult_1_r e) at 1. apply Rmult_le_compat_l; lra. }
  assert (ET1 : eta <= H).
  { assert (X : ao * e <= H * (ao - s)).
    { assert (Y : e * P <= H * (P - S * (1 - e))).
      { destruct (Rle_lt_dec (P - H * S) 0) as [Z|Z]; [assert (0 <= H * (P - S)) by (apply Rmult_le_pos; lra); nra|].
        assert (e * (P - H * S) <= h * (P - H * S)) by (apply Rmult_le_compat_r; lra). nra. }
      assert (HE : e <= H).
      { apply (Rmult_le_reg_r P); [lra|]. eapply Rle_trans; [exact Y|]. apply Rmult_le_compat_l; [lra|]. assert (0 <= S * (1 - e)) by (apply Rmult_le_pos; lra). lra. }
      assert (E1 : 0 < 1 - e) by lra. apply (Rmult_le_reg_r (1 - e)); [exact E1|].
      assert (Q1 : (H - e) * P <= (H - e) * rp) by (apply Rmult_le_compat_l; lra).
      assert (Q2 : H * s * (1 - e) <= H * S * (1 - e)) by (apply Rmult_le_compat_r; [lra|]; apply Rmult_le_compat_l; lra).
      replace (ao * e * (1 - e)) with (rp * e) by (rewrite RE; ring). replace (H * (ao - s) * (1 - e)) with (H * rp - H * s * (1 - e)) by (rewrite RE; ring). nra. }
    rewrite Eeta. apply (Rmult_le_reg_r (ao - s)); [lra|]. rewrite Rmult_assoc, T1. lra. }
  assert (TP : 0 < (P - S) * tsi) by (apply Rmult_lt_0_compat; lra).
  assert (PE : psisq = (1 - eta) * (1 + eta)) by (rewrite Epsisq, Rabs_pos_eq; [ring|]; replace (1 - eta * eta) with ((1 - eta) * (1 + eta)) by ring; apply Rmult_le_pos; lra).
  assert (P1 : psisq <= 1) by (rewrite PE; nra).
  assert (P2 : 1 - H * H <= psisq) by (rewrite PE; assert (eta * eta <= H * H) by (apply Rmult_le_compat; lra); lra).
  assert (P3 : (P - S) * (14 / 10) * tsi <= psisq) by (rewrite PE; apply Rle_trans with ((P - S) * tsi * (14 / 10)); [right; ring|apply Rmult_le_compat; lra]).
  assert (P4 : 0 < psisq) by (eapply Rlt_le_trans; [|exact P3]; lra).
  assert (TW : tsi / psisq <= W).
  { apply (Rmult_le_reg_r psisq); [lra|]. unfold Rdiv at 1. rewrite Rmult_assoc, Rinv_l by lra. rewrite Rmult_1_r.
    assert (W0 : 0 < W) by (apply (Rmult_lt_reg_r ((P - S) * (14 / 10))); lra). apply Rle_trans with (W * ((P - S) * (14 / 10) * tsi)); [|apply Rmult_le_compat_l; lra].
    rewrite <- Rmult_assoc. rewrite <- (Rmult_1_l tsi) at 1. apply Rmult_le_compat_r; lra. }
  assert (TP0 : 0 <= tsi / psisq) by (apply Rle_mult_inv_pos; lra).
  repeat split; lra.
Qed.

Lemma mul_between c C z Z : 0 <= c <= C -> - Z <= z <= Z -> - (C * Z) <= c * z <= C * Z.
Proof. intros Hc Hz. assert (c * z <= c * Z) by (apply Rmult_le_compat_l; lra). assert (c * - Z <= c * z) by (apply Rmult_le_compat_l; lra). assert (c * Z <= C * Z) by (apply Rmult_le_compat_r; lra). lra. Qed.
(** the drag coefficients without rounding *)
Lemma cc2_R c n a e h q k : 0 <= c <= 6289 / 10000000 -> 0 < n <= 28 / 1000 -> 0 < a -> n * a <= 54 / 1000 -> 0 <= e <= 75 / 100 -> 0 <= h <= 1 -> 0 <= q <= 1517 / 100000 -> -1 <= k <= 2 ->
  - (2312 / 10000000) <= c * n * (a * (1 + 15 / 10 * (h * h) + e * h * (4 + h * h)) + q * k * (8 + 3 * (h * h) * (8 + h * h))) <= 2312 / 10000000.
Proof.
  intros Hc Hn Ha Hna He Hh Hq Hk. set (x := h * h). assert (X : 0 <= x <= 1) by (unfold x; nra). assert (EH : 0 <= e * h <= 75 / 100) by nra. set (y := e * h) in *. clearbody x y.
  assert (U : 0 <= 1 + 15 / 10 * x + y * (4 + x) <= 625 / 100) by nra. set (u := 1 + 15 / 10 * x + y * (4 + x)) in *.
  assert (V : 0 <= 8 + 3 * x * (8 + x) <= 35) by nra. set (v := 8 + 3 * x * (8 + x)) in *. clearbody u v.
  assert (NA : 0 <= n * a <= 54 / 1000) by (split; [apply Rmult_le_pos; lra|lra]).
  assert (M1 : 0 <= n * a * u <= 54 / 1000 * (625 / 100)) by (split; [apply Rmult_le_pos; lra|apply Rmult_le_compat; lra]).
  assert (M2 : 0 <= q * v <= 1517 / 100000 * 35) by (split; [apply Rmult_le_pos; lra|apply Rmult_le_compat; lra]).
  assert (M3 : 0 <= n * (q * v) <= 28 / 1000 * (1517 / 100000 * 35)) by (split; [apply Rmult_le_pos; lra|apply Rmult_le_compat; lra]).
  replace (c * n * (a * u + q * k * v)) with (c * (n * a * u + n * (q * v) * k)) by ring.
  set (m1 := n * a * u) in *. set (m3 := n * (q * v)) in *. clearbody m1 m3.
  assert (Hk2 : - (2) <= k <= 2) by lra. assert (MK := mul_between _ _ _ _ M3 Hk2). assert (Z : - (3673 / 10000) <= m1 + m3 * k <= 3673 / 10000) by (split; lra). assert (ZP := mul_between _ _ _ _ Hc Z). lra.
Qed.
Lemma cc4_R c n a o e h q k g w : 0 <= c <= 6289 / 10000000 -> 0 < n <= 28 / 1000 -> 0 < a -> n * a <= 54 / 1000 -> 4 / 10 <= e <= 75 / 100 -> o = 1 - e * e -> 0 <= h <= 1 -> 0 <= q <= 2107 / 100000 -> -1 <= k <= 2 -> 0 <= g <= 1 -> -1 <= w <= 1 ->
  - (222 / 1000000) <= 2 * n * c * a * o * (h * (2 + 5 / 10 * (h * h)) + e * (5 / 10 + 2 * (h * h)) - q * (- (3) * k * (1 - 2 * (e * h) + h * h * (15 / 10 - 5 / 10 * (e * h))) + 75 / 100 * g * (2 * (h * h) - e * h * (1 + h * h)) * w)) <= 222 / 1000000.
Proof.
  intros Hc Hn Ha Hna He Ho Hh Hq Hk Hg Hw. set (x := h * h). assert (X : 0 <= x <= 1) by (unfold x; nra). assert (EH : 0 <= e * h <= 75 / 100) by nra. set (y := e * h) in *.
  assert (HX : 0 <= h * (2 + 5 / 10 * x) <= 25 / 10) by nra. assert (EX : 0 <= e * (5 / 10 + 2 * x) <= 25 / 10 * e) by nra.
  set (b1 := h * (2 + 5 / 10 * x)) in *. set (b2 := e * (5 / 10 + 2 * x)) in *. clearbody x y b1 b2.
  assert (R1 : - (5 / 10) <= 1 - 2 * y + x * (15 / 10 - 5 / 10 * y) <= 25 / 10) by nra. set (r1 := 1 - 2 * y + x * (15 / 10 - 5 / 10 * y)) in *.
  assert (R2 : -2 <= 2 * x - y * (1 + x) <= 2) by nra. set (r2 := 2 * x - y * (1 + x)) in *. clearbody r1 r2.
  assert (GR : -2 <= g * r2 <= 2) by (split; nra). assert (GW : -2 <= g * r2 * w <= 2) by (split; nra). assert (KR : -5 <= k * r1 <= 5) by (split; nra).
  assert (O1 : 0 <= o <= 84 / 100) by (rewrite Ho; split; nra).
  assert (OB : o * (25 / 10 + 25 / 10 * e) <= 2965 / 1000).
  { rewrite Ho. assert (0 <= (e - 1 / 3) * (e - 1 / 3) * (e + 5 / 3)) by (apply Rmult_le_pos; [apply Rle_0_sqr|lra]). nra. }
  set (in1 := - (3) * k * r1 + 75 / 100 * g * r2 * w). assert (I1 : - (165 / 10) <= in1 <= 165 / 10).
  { unfold in1. replace (- (3) * k * r1 + 75 / 100 * g * r2 * w) with (- (3) * (k * r1) + 75 / 100 * (g * r2 * w)) by ring. lra. }
  clearbody in1. assert (QI := mul_between _ _ _ _ Hq I1). set (qi := q * in1) in *. clearbody qi.
  assert (NA : 0 <= n * a <= 54 / 1000) by (split; [apply Rmult_le_pos; lra|lra]).
  replace (2 * n * c * a * o * (b1 + b2 - qi)) with (2 * (c * (n * a)) * (o * (b1 + b2 - qi))) by ring.
  assert (CN : 0 <= c * (n * a) <= 6289 / 10000000 * (54 / 1000)) by (split; [apply Rmult_le_pos; lra|apply Rmult_le_compat; lra]). set (cn := c * (n * a)) in *. clearbody cn.
  assert (OQ := mul_between _ _ _ _ O1 QI). assert (O2 : 0 <= o * (b1 + b2)) by (apply Rmult_le_pos; lra). assert (O3 : o * (b1 + b2) <= o * (25 / 10 + 25 / 10 * e)) by (apply Rmult_le_compat_l; lra).
  assert (Z : - (3258 / 1000) <= o * (b1 + b2 - qi) <= 3258 / 1000) by (split; lra). set (z := o * (b1 + b2 - qi)) in *. clearbody z.
  assert (ZP := mul_between _ _ _ _ CN Z). lra.
Qed.

Section S.
Context (lm : libm) (ACC : accurate lm).
Notation B := (B64Ops lm).
Lemma hatmo_acc rp rp' : apx rp rp' hrpB -> 103135 / 100000 <= rp' ->
  (@sgp4init_atmo _ B rp = MkAtmo (@ss_v _ B) (@qz_v _ B)) /\ (@sgp4init_atmo _ ROps rp' = MkAtmo (@ss_v _ ROps) (@qz_v _ ROps)).
Proof.
  intros H0 RP. assert (H := H0). ivl H0 I0. acut H (103135 # 100000)%Q 5%Q. unfold sgp4init_atmo. cbv zeta.
  assert (F : @flt _ B (@per_v _ B rp) (@L _ B 156 0) = false /\ @flt _ ROps (@per_v _ ROps rp') (@L _ ROps 156 0) = false).
  { eapply apx_lt_false; [arel|arel|vm_compute; reflexivity]. }
  unfold per_v in F. destruct F as [F1 F2]. rewrite F1, F2. split; reflexivity.
Qed.
Lemma near_high (r : InitlReturn b64) (r' : InitlReturn R) (s : Satrec b64) (s' : Satrec R) :
  apx (ir_ao r) (ir_ao r') haoB -> apx (ir_cosio r) (ir_cosio r') dcosB -> apx (ir_cosio2 r) (ir_cosio2 r') cos2B ->
  apx (ir_con42 r) (ir_con42 r') con42B -> apx (ir_rteosq r) (ir_rteosq r') hrteB ->
  apx (ir_omeosq r) (ir_omeosq r') homeB -> apx (ir_posq r) (ir_posq r') hposqB -> apx (ir_rp r) (ir_rp r') hrpB ->
  103135 / 100000 <= ir_rp r' -> ir_rp r' = ir_ao r' * (1 - sr_ecco s') -> ir_omeosq r' = 1 - sr_ecco s' * sr_ecco s' -> sr_no s' * ir_ao r' <= 54 / 1000 ->
  ir_posq r' = ir_rp r' * (1 + sr_ecco s') * (ir_rp r' * (1 + sr_ecco s')) -> -1 <= sr_con41 s' <= 2 -> 0 <= ir_cosio2 r' <= 1 ->
  apx (sr_ecco s) (sr_ecco s') hin_ecc -> apx (sr_no s) (sr_no s') hnoB -> apx (sr_con41 s) (sr_con41 s') con41B ->
  apx (sr_bstar s) (sr_bstar s') in_bst -> apx (sr_argpo s) (sr_argpo s') in_ang ->
  hnear_ok (@sgp4init_near _ B r s) (@sgp4init_near _ ROps r' s').
Proof.
  intros Hao Hcosio Hcosio2 Hcon42 Hrte Home Hposq Hrp RP RE OE NA PQ K41 C2 He Hno Hcon41 Hbs Hargp.
  destruct (hatmo_acc _ _ Hrp RP) as (A1 & A2). set (P := hnear_ok). ivl Hao Iao. ivl He Ie. ivl Hno Ino.
  assert (PQ1 : 208 / 100 <= ir_posq r') by (rewrite PQ; assert (1443 / 1000 <= ir_rp r' * (1 + sr_ecco s')) by nra; nra). acut Hposq (208 # 100)%Q 35%Q. acut Hcon41 (-1)%Q 2%Q. acut Hcosio2 0%Q 1%Q.
  aconst @kJ2. aconst @kJ4. aconst @kJ3OJ2. aconst @kX2O3. aconst @kEARTH_RADIUS.
  cbv beta delta [sgp4init_near]. do 17 askip. rewrite A1, A2. cbv beta iota delta [at_sfour at_qzms24].
  lets sfour. lets qzms24. lets pinvsq. lets tsi. lets eta. ivl Hsfour Isf. ivl Hqzms24 Iqz.
  destruct (high_facts (103135 / 100000) (101223 / 100000) (19214 / 10000) (11 / 10) (9937 / 10000) (3736 / 100) (745 / 1000) (ir_ao r') (sr_ecco s') (ir_rp r') sfour' tsi' eta' (Rabs (1 - eta' * eta'))) as (T0 & ET & (PS & P0) & TP); try assumption; try lra; try reflexivity.
  acut Heta (4 # 10)%Q (9937 # 10000)%Q. acut Htsi 0%Q (11 # 10)%Q. lets etasq. lets eeta. lets psisq.
  assert (PE : Rabs (1 - eta' * eta') = psisq') by (rewrite Epsisq, Eetasq; reflexivity). rewrite PE in PS, P0, TP.
  acut Hpsisq (1256 # 100000)%Q 1%Q.
  lets coef. lets coef1.
  assert (C1 : 0 <= coef1' <= 6289 / 10000000) by (rewrite Ecoef1, Ecoef; rops; rewrite Rpow_pos_base by lra; apply (coef1_R _ _ _ (11 / 10) (3736 / 100) (6411 / 1000) _ (1881 / 1000000000000)); lra).
  acut Hcoef1 0%Q (6289 # 10000000)%Q.
  eassert (Hq1 : apx (@q1_v _ B tsi psisq) (@q1_v _ ROps tsi' psisq') _) by (unfold q1_v; arel).
  assert (Q1 : 0 <= @q1_v _ ROps tsi' psisq' <= 1517 / 100000) by (rewrite q1_R by lra; lra).
  acut Hq1 0%Q (1517 # 100000)%Q. assert (Q1' := Q1). unfold q1_v in Hq1, Q1'.
  assert (TA : 0 <= tsi' / (ir_ao r' * psisq') <= 1946 / 100).
  { replace (tsi' / (ir_ao r' * psisq')) with (tsi' / psisq' * / ir_ao r') by (field; lra). assert (0 < / ir_ao r' <= 10000 / 19214) by (split; [apply Rinv_0_lt_compat; lra|replace (10000 / 19214) with (/ (19214 / 10000)) by field; apply Rinv_le_contravar; lra]). split; [apply Rmult_le_pos; lra|]. apply Rle_trans with (3736 / 100 * (10000 / 19214)); [apply Rmult_le_compat; lra|lra]. }
  eassert (Hq2 : apx (@q2_v _ B tsi (ir_ao r) psisq) (@q2_v _ ROps tsi' (ir_ao r') psisq') _) by (unfold q2_v; arel).
  assert (Q2 : 0 <= @q2_v _ ROps tsi' (ir_ao r') psisq' <= 2107 / 100000) by (rewrite q2_R by lra; lra).
  acut Hq2 0%Q (2107 # 100000)%Q. assert (Q2' := Q2). unfold q2_v in Hq2, Q2'.
  lets cc2.
  assert (Z2 : - (2312 / 10000000) <= cc2' <= 2312 / 10000000).
  { pose proof (cc2_R coef1' (sr_no s') (ir_ao r') (sr_ecco s') eta' _ (sr_con41 s') C1 ltac:(lra) ltac:(lra) NA ltac:(lra) ltac:(lra) Q1 K41) as Z. rewrite q1_R in Z by lra. match type of Z with _ <= ?X <= _ => replace cc2' with X; [exact Z|] end.
    rewrite Ecc2, Eeeta, Eetasq. unfold kJ2. rops. field. lra. }
  acut Hcc2 (-2312 # 10000000)%Q (2312 # 10000000)%Q.
  lets cc1. do 2 askip. lets x1mth2. lets cc4.
  assert (Z4 : - (222 / 1000000) <= cc4' <= 222 / 1000000).
  { pose proof (cc4_R coef1' (sr_no s') (ir_ao r') (ir_omeosq r') (sr_ecco s') eta' _ (sr_con41 s') x1mth2' (cos (2 * sr_argpo s')) C1 ltac:(lra) ltac:(lra) NA ltac:(lra) OE ltac:(lra) Q2 K41 ltac:(rewrite Ex1mth2; rops; lra) ltac:(pose proof (COS_bound (2 * sr_argpo s')); lra)) as Z.
    rewrite q2_R in Z by lra. match type of Z with _ <= ?X <= _ => replace cc4' with X; [exact Z|] end.
    rewrite Ecc4, Eeeta, Eetasq. unfold kJ2. rops. field. split; lra. }
  acut Hcc4 (-222 # 1000000)%Q (222 # 1000000)%Q.
  askip. lets cosio4. lets temp1. lets temp2. lets temp3.
  lets mdot. lets argpdot. lets xhdot1. lets nodedot. askip. do 3 askip. lets nodecf. lets t2cof. do 6 askip.
  do 18 askip. unfold P, hnear_ok. cbn [ne_s ne_tsi ne_sfour]. near_fields.
  asplit.
Qed.
End S.
