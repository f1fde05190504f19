(** * Binary64 accuracy of the initialisation: secular rates, drag and periodic coefficients *)
From Coq Require Import ZArith QArith Reals Qreals Bool Lra Lia Psatz.
From Flocq Require Import Core IEEE754.BinarySingleNaN.
From Verif.Model Require Import Float Str Satrec Constants Initl Sgp4init.
From Verif.Spec Require Import LibmAccuracy.
From Verif.Inst Require Import RInst RTac B64 B64Facts B64Calc ApxCalc.
From Verif.Proofs Require Import CalcFun CalcPow ApxFun AccInit.
Local Open Scope R_scope.

Ltac ivl H I :=
  lazymatch type of H with
  | apx _ _ ?A => pose proof H as (_ & I & _); let l := eval vm_compute in (el A) in let h := eval vm_compute in (eh A) in change (el A) with l in I; change (eh A) with h in I; unfold Q2R in I; cbn [Qnum Qden] in I
  end.

(** the near-earth part of the record, the exact one and the computed one, field by field *)
Record nbounds := NB { nb_eta : eb; nb_cc1 : eb; nb_x1mth2 : eb; nb_cc4 : eb; nb_cc5 : eb; nb_mdot : eb; nb_argpdot : eb; nb_nodedot : eb; nb_omgcof : eb; nb_xmcof : eb; nb_nodecf : eb; nb_t2cof : eb; nb_xlcof : eb; nb_aycof : eb; nb_delmo : eb; nb_sinmao : eb; nb_x7thm1 : eb; nb_tsi : eb; nb_sfour : eb }.
Definition near_ok (b : nbounds) (n : @NearOut b64) (n' : @NearOut R) : Prop :=
  apx (sr_eta (ne_s n)) (sr_eta (ne_s n')) (nb_eta b) /\
  apx (sr_cc1 (ne_s n)) (sr_cc1 (ne_s n')) (nb_cc1 b) /\
  apx (sr_x1mth2 (ne_s n)) (sr_x1mth2 (ne_s n')) (nb_x1mth2 b) /\
  apx (sr_cc4 (ne_s n)) (sr_cc4 (ne_s n')) (nb_cc4 b) /\
  apx (sr_cc5 (ne_s n)) (sr_cc5 (ne_s n')) (nb_cc5 b) /\
  apx (sr_mdot (ne_s n)) (sr_mdot (ne_s n')) (nb_mdot b) /\
  apx (sr_argpdot (ne_s n)) (sr_argpdot (ne_s n')) (nb_argpdot b) /\
  apx (sr_nodedot (ne_s n)) (sr_nodedot (ne_s n')) (nb_nodedot b) /\
  apx (sr_omgcof (ne_s n)) (sr_omgcof (ne_s n')) (nb_omgcof b) /\
  apx (sr_xmcof (ne_s n)) (sr_xmcof (ne_s n')) (nb_xmcof b) /\
  apx (sr_nodecf (ne_s n)) (sr_nodecf (ne_s n')) (nb_nodecf b) /\
  apx (sr_t2cof (ne_s n)) (sr_t2cof (ne_s n')) (nb_t2cof b) /\
  apx (sr_xlcof (ne_s n)) (sr_xlcof (ne_s n')) (nb_xlcof b) /\
  apx (sr_aycof (ne_s n)) (sr_aycof (ne_s n')) (nb_aycof b) /\
  apx (sr_delmo (ne_s n)) (sr_delmo (ne_s n')) (nb_delmo b) /\
  apx (sr_sinmao (ne_s n)) (sr_sinmao (ne_s n')) (nb_sinmao b) /\
  apx (sr_x7thm1 (ne_s n)) (sr_x7thm1 (ne_s n')) (nb_x7thm1 b) /\
  apx (ne_tsi n) (ne_tsi n') (nb_tsi b) /\
  apx (ne_sfour n) (ne_sfour n') (nb_sfour b) /\
  sr_isimp (ne_s n) = 0%Z /\ sr_isimp (ne_s n') = 0%Z.

(** the density parameters of orbits with perigee above 156 km *)
Definition ss_v {F} {FO : FloatOps F} : F := (L 78 0 / kEARTH_RADIUS + L 1 0)%f.
Definition qz_v {F} {FO : FloatOps F} : F :=
  (((L 120 0 - L 78 0) / kEARTH_RADIUS) * ((L 120 0 - L 78 0) / kEARTH_RADIUS) * ((L 120 0 - L 78 0) / kEARTH_RADIUS) * ((L 120 0 - L 78 0) / kEARTH_RADIUS))%f.
Definition lim_v {F} {FO : FloatOps F} : F := (L 220 0 / kEARTH_RADIUS + L 1 0)%f.
Definition per_v {F} {FO : FloatOps F} (rp : F) : F := ((rp - L 1 0) * kEARTH_RADIUS)%f.

Lemma exp_mono x y : x <= y -> exp x <= exp y.
Proof. intros [H| ->]; [left; now apply exp_increasing|lra]. Qed.
Lemma Rpow_pos_base x y : 0 < x -> Rpow x y = Rpower x y.
Proof. intros H. unfold Rpow. now rewrite Rlt_bool_true. Qed.
Lemma coef1_R q t p T W G C Q : 0 <= q <= Q -> 0 <= t <= T -> 0 < p <= 1 -> t / p <= W -> 0 <= W -> W * T <= G * G -> 0 <= G -> Q * (W * W * W) * G <= C ->
  0 <= q * powerRZ t 4 / Rpower p (35 / 10) <= C.
Proof.
  intros Hq Ht Hp HW W0 HG G0 HC. assert (P0 : 0 < p) by lra. replace (powerRZ t 4) with (t ^ 4) by (apply (pow_powerRZ t 4)).
  assert (SP : 0 < sqrt p) by (apply sqrt_lt_R0; lra).
  assert (E : Rpower p (35 / 10) = p ^ 3 * sqrt p).
  { replace (35 / 10) with (INR 3 + / 2) by (cbn; lra). rewrite Rpower_plus, Rpower_pow, Rpower_sqrt by lra. reflexivity. }
  rewrite E. set (w := t / p) in *. assert (WP : 0 <= w) by (apply Rle_mult_inv_pos; lra).
  assert (TW : t = w * p) by (unfold w; field; lra).
  assert (D : t ^ 4 / (p ^ 3 * sqrt p) = w * w * w * sqrt (w * t)).
  { replace (w * t) with ((t * t) / p) by (unfold w; field; lra). rewrite sqrt_div_alt by lra. rewrite sqrt_square by lra. unfold w. field. split; lra. }
  replace (q * t ^ 4 / (p ^ 3 * sqrt p)) with (q * (t ^ 4 / (p ^ 3 * sqrt p))) by (field; split; lra). rewrite D.
  assert (SG : sqrt (w * t) <= G).
  { rewrite <- (sqrt_square G) by lra. apply sqrt_le_1_alt. eapply Rle_trans; [|exact HG]. apply Rmult_le_compat; lra. }
  pose proof (sqrt_pos (w * t)) as S0. set (g := sqrt (w * t)) in *. clearbody g w. clear E D TW.
  assert (W2 : 0 <= w * w <= W * W) by (split; [apply Rmult_le_pos; lra|apply Rmult_le_compat; lra]).
  assert (W3 : 0 <= w * w * w <= W * W * W) by (split; [apply Rmult_le_pos; lra|apply Rmult_le_compat; lra]).
  assert (W4 : 0 <= w * w * w * g <= W * W * W * G) by (split; [apply Rmult_le_pos; lra|apply Rmult_le_compat; lra]).
  split; [apply Rmult_le_pos; lra|]. eapply Rle_trans; [|exact HC]. replace (Q * (W * W * W) * G) with (Q * (W * W * W * G)) by ring. apply Rmult_le_compat; lra.
Qed.
(** the same, keeping what was known *)
Ltac acut H l h :=
  let I := fresh "I" in ivl H I;
  lazymatch type of H with
  | apx _ _ ?A => let l' := eval vm_compute in (qmax (el A) l) in let h' := eval vm_compute in (qmin (eh A) h) in ashrink H l' h'
  end.

(** what holds of an orbit of perigee radius at least [P], eccentricity up to [h] and semi-major axis at least [A] *)
Lemma near_facts P S A T H W h ao e rp s tsi eta psisq : P <= rp -> rp = ao * (1 - e) -> 0 <= e <= h -> h <= 46 / 100 -> 1 <= A <= ao -> ao <= 19209 / 10000 -> 1 <= s <= S -> S < P ->
  1 <= T * (A - S) -> h * P <= H * (P - S * (1 - h)) -> 0 <= H <= 1 -> 1 <= W * (P - S) -> P <= A ->
  tsi = 1 / (ao - s) -> eta = ao * e * tsi -> psisq = Rabs (1 - eta * eta) ->
  1 <= tsi <= T /\ 0 <= eta <= H /\ (1 - H * H <= psisq <= 1 /\ 0 < psisq) /\ 0 <= tsi / psisq <= W /\ 0 <= tsi / (ao * psisq) <= W.
Proof.
  intros RP RE Ie Ih IA Ia Is SP HT HH IH HW PA Etsi Eeta Epsisq.
  assert (D0 : 0 < ao - s) by lra.
  assert (T1 : tsi * (ao - s) = 1) by (rewrite Etsi; field; lra).
  assert (T0 : 1 <= tsi).
  { rewrite Etsi. apply (Rmult_le_reg_r (ao - s)); [lra|]. unfold Rdiv. rewrite Rmult_assoc, Rinv_l by lra. lra. }
  assert (T0P : 0 < T) by (apply (Rmult_lt_reg_r (A - S)); lra).
  assert (T2 : tsi <= T).
  { apply (Rmult_le_reg_r (ao - s)); [lra|]. rewrite T1. eapply Rle_trans; [exact HT|]. apply Rmult_le_compat_l; lra. }
  assert (EE : 1 - eta = (rp - s) * tsi) by (rewrite Eeta, RE; lra).
  assert (KT : (P - S) * tsi <= 1 - eta) by (rewrite EE; apply Rmult_le_compat_r; lra).
  assert (ET0 : 0 <= eta) by (rewrite Eeta; apply Rmult_le_pos; [apply Rmult_le_pos|]; lra).
  assert (ET1 : eta <= H).
  { assert (X : ao * e <= H * (ao - s)).
    { assert (Y : e * P <= H * (P - S * (1 - e))).
      { destruct (Rle_lt_dec (P - H * S) 0) as [Z|Z]; [assert (0 <= H * (P - S)) by (apply Rmult_le_pos; lra); nra|].
        assert (e * (P - H * S) <= h * (P - H * S)) by (apply Rmult_le_compat_r; lra). nra. }
      assert (HE : e <= H).
      { apply (Rmult_le_reg_r P); [lra|]. eapply Rle_trans; [exact Y|]. apply Rmult_le_compat_l; [lra|]. assert (0 <= S * (1 - e)) by (apply Rmult_le_pos; lra). lra. }
      assert (E1 : 0 < 1 - e) by lra. apply (Rmult_le_reg_r (1 - e)); [exact E1|].
      assert (Q1 : (H - e) * P <= (H - e) * rp) by (apply Rmult_le_compat_l; lra).
      assert (Q2 : H * s * (1 - e) <= H * S * (1 - e)) by (apply Rmult_le_compat_r; [lra|]; apply Rmult_le_compat_l; lra).
      replace (ao * e * (1 - e)) with (rp * e) by (rewrite RE; ring). replace (H * (ao - s) * (1 - e)) with (H * rp - H * s * (1 - e)) by (rewrite RE; ring). nra. }
    rewrite Eeta. apply (Rmult_le_reg_r (ao - s)); [lra|]. rewrite Rmult_assoc, T1. lra. }
  assert (TP : 0 < (P - S) * tsi) by (apply Rmult_lt_0_compat; lra).
  assert (ES : 0 <= eta * eta <= eta) by (split; [apply Rmult_le_pos; lra|]; rewrite <- (Rmult_1_r eta) at 3; apply Rmult_le_compat_l; lra).
  assert (PE : psisq = 1 - eta * eta) by (rewrite Epsisq; apply Rabs_pos_eq; lra).
  assert (P1 : psisq <= 1) by lra.
  assert (P2 : 1 - H * H <= psisq) by (rewrite PE; assert (eta * eta <= H * H) by (apply Rmult_le_compat; lra); lra).
  assert (P3 : (P - S) * tsi <= psisq) by lra.
  assert (TW : tsi / psisq <= W).
  { apply (Rmult_le_reg_r psisq); [lra|]. unfold Rdiv at 1. rewrite Rmult_assoc, Rinv_l by lra. rewrite Rmult_1_r.
    assert (W0 : 0 < W) by (apply (Rmult_lt_reg_r (P - S)); lra). apply Rle_trans with (W * ((P - S) * tsi)); [|apply Rmult_le_compat_l; lra].
    rewrite <- Rmult_assoc. rewrite <- (Rmult_1_l tsi) at 1. apply Rmult_le_compat_r; lra. }
  assert (TP0 : 0 <= tsi / psisq) by (apply Rle_mult_inv_pos; lra).
  repeat split; try lra; [apply Rle_mult_inv_pos; [lra|]; apply Rmult_lt_0_compat; lra|].
  apply Rle_trans with (tsi / psisq); [|lra]. unfold Rdiv. apply Rmult_le_compat_l; [lra|]. apply Rinv_le_contravar; [lra|]. nra.
Qed.
Lemma xm_R q t a e b T A l X Q : 0 <= q <= Q -> 0 < t <= T -> 0 < A <= a -> 0 < l <= e -> - (1 / 1000) <= b <= 1 / 1000 -> 2 / 3 * Q * (T * T * T) / 1000 <= X * (A * (l * l)) -> 0 <= X ->
  - X <= - (2 / 3) * (q * powerRZ t 4) * b / (e * (a * e * t)) <= X.
Proof.
  intros Hq Ht Ha He Hb HX X0. replace (powerRZ t 4) with (t ^ 4) by (apply (pow_powerRZ t 4)).
  replace (- (2 / 3) * (q * t ^ 4) * b / (e * (a * e * t))) with (- (2 / 3) * q * (t * t * t) * b / (a * (e * e))) by (field; repeat split; lra).
  assert (E2 : 0 < l * l <= e * e) by (split; [apply Rmult_lt_0_compat; lra|apply Rmult_le_compat; lra]).
  assert (AE : 0 < A * (l * l) <= a * (e * e)) by (split; [apply Rmult_lt_0_compat; lra|apply Rmult_le_compat; lra]).
  assert (T2 : 0 <= t * t <= T * T) by (split; [apply Rmult_le_pos; lra|apply Rmult_le_compat; lra]).
  assert (T3 : 0 <= t * t * t <= T * T * T) by (split; [apply Rmult_le_pos; lra|apply Rmult_le_compat; lra]).
  assert (QT : 0 <= q * (t * t * t) <= Q * (T * T * T)) by (split; [apply Rmult_le_pos; lra|apply Rmult_le_compat; lra]).
  apply Rabs_le_inv. set (N := - (2 / 3) * q * (t * t * t) * b). unfold Rdiv. rewrite Rabs_mult, (Rabs_pos_eq (/ (a * (e * e)))) by (left; apply Rinv_0_lt_compat; lra).
  apply (Rmult_le_reg_r (a * (e * e))); [lra|]. rewrite Rmult_assoc, Rinv_l, Rmult_1_r by lra.
  assert (XA : X * (A * (l * l)) <= X * (a * (e * e))) by (apply Rmult_le_compat_l; lra). eapply Rle_trans; [|exact XA]. eapply Rle_trans; [|exact HX].
  unfold N. replace (- (2 / 3) * q * (t * t * t) * b) with (- (2 / 3) * ((q * (t * t * t)) * b)) by ring. rewrite Rabs_mult, Rabs_Ropp, (Rabs_pos_eq (2 / 3)) by lra.
  rewrite Rabs_mult, (Rabs_pos_eq (q * (t * t * t))) by lra. assert (Rabs b <= 1 / 1000) by (apply Rabs_le; lra). pose proof (Rabs_pos b).
  assert (q * (t * t * t) * Rabs b <= Q * (T * T * T) * (1 / 1000)) by (apply Rmult_le_compat; lra). lra.
Qed.
Lemma xo3_R : @kX2O3 _ ROps = 2 / 3.
Proof. unfold kX2O3. rops. reflexivity. Qed.
Definition q1_v {F} {FO : FloatOps F} (t p : F) : F := (L 375 3 * kJ2 * t / p)%f.
Definition q2_v {F} {FO : FloatOps F} (t a p : F) : F := (kJ2 * t / (a * p))%f.

Lemma q1_R t p : 0 < p -> @q1_v _ ROps t p = 375 / 1000 * (108262998905 / 100000000000000) * (t / p).
Proof. intros H. unfold q1_v, kJ2. rops. field. lra. Qed.
Lemma q2_R t a p : 0 < p -> 0 < a -> @q2_v _ ROps t a p = 108262998905 / 100000000000000 * (t / (a * p)).
Proof. intros H1 H2. unfold q2_v, kJ2. rops. field. lra. Qed.
Ltac near_fields := cbn [sr_isimp set_isimp sr_eta set_eta sr_cc1 set_cc1 sr_x1mth2 set_x1mth2 sr_cc4 set_cc4 sr_cc5 set_cc5 sr_mdot set_mdot sr_argpdot set_argpdot sr_nodedot set_nodedot sr_omgcof set_omgcof sr_xmcof set_xmcof sr_nodecf set_nodecf sr_t2cof set_t2cof sr_xlcof set_xlcof sr_aycof set_aycof sr_delmo set_delmo sr_sinmao set_sinmao sr_x7thm1 set_x7thm1].

Section S.
Context (lm : libm) (ACC : accurate lm).
Notation B := (B64Ops lm).
Lemma atmo_acc rp rp' : apx rp rp' rpB -> 10346 / 10000 <= rp' ->
  (@sgp4init_atmo _ B rp = MkAtmo (@ss_v _ B) (@qz_v _ B)) /\ (@sgp4init_atmo _ ROps rp' = MkAtmo (@ss_v _ ROps) (@qz_v _ ROps)) /\
  @flt _ B rp (@lim_v _ B) = false /\ @flt _ ROps rp' (@lim_v _ ROps) = false.
Proof.
  intros H LO. acut H (10346 # 10000)%Q 2%Q. unfold sgp4init_atmo. cbv zeta.
  assert (F : @flt _ B (@per_v _ B rp) (@L _ B 156 0) = false /\ @flt _ ROps (@per_v _ ROps rp') (@L _ ROps 156 0) = false).
  { eapply apx_lt_false; [arel|arel|vm_compute; reflexivity]. }
  assert (G : @flt _ B rp (@lim_v _ B) = false /\ @flt _ ROps rp' (@lim_v _ ROps) = false).
  { eapply apx_lt_false; [arel|arel|vm_compute; reflexivity]. }
  unfold per_v in F. destruct F as [F1 F2]. rewrite F1, F2. destruct G as [G1 G2]. repeat split; assumption.
Qed.
Definition box1 := Eb 0 (1 # 10000) (12 # 10 ^ 17) (1 # 10 ^ 60).
Definition nb1 := NB (Eb 0 (460425 # 10 ^ 8) (192 # 10 ^ 15) (116 # 10 ^ 60))
  (Eb (-137276 # 10 ^ 11) (137276 # 10 ^ 11) (355 # 10 ^ 14) (633 # 10 ^ 63))
  (Eb 0 (100002 # 10 ^ 5) (113 # 10 ^ 18) (427 # 10 ^ 17))
  (Eb (-887512 # 10 ^ 9) (120287 # 10 ^ 8) (764 # 10 ^ 15) (701 # 10 ^ 18))
  (Eb (454799 # 10 ^ 14) (288455 # 10 ^ 7) (134 # 10 ^ 14) (793 # 10 ^ 62))
  (Eb (277691 # 10 ^ 7) (733082 # 10 ^ 7) (122 # 10 ^ 17) 0)
  (Eb (-574275 # 10 ^ 10) (225762 # 10 ^ 9) (113 # 10 ^ 18) (277 # 10 ^ 20))
  (Eb (-111730 # 10 ^ 9) (110624 # 10 ^ 9) (113 # 10 ^ 18) (933 # 10 ^ 21))
  (Eb 0 0 (346 # 10 ^ 18) (126 # 10 ^ 62))
  (Eb 0 0 0 0)
  (Eb (-532940 # 10 ^ 15) (532940 # 10 ^ 15) (356 # 10 ^ 14) (111 # 10 ^ 26))
  (Eb (-205914 # 10 ^ 11) (205914 # 10 ^ 11) (355 # 10 ^ 14) (158 # 10 ^ 62))
  (Eb (-472508 # 10 ^ 6) (472508 # 10 ^ 6) (211 # 10 ^ 15) (163 # 10 ^ 17))
  (Eb (-116946 # 10 ^ 8) (116946 # 10 ^ 8) (561 # 10 ^ 18) (243 # 10 ^ 20))
  (Eb (986241 # 10 ^ 6) (101389 # 10 ^ 5) (328 # 10 ^ 17) 0)
  (Eb (-100001 # 10 ^ 5) (100001 # 10 ^ 5) 0 (447 # 10 ^ 17))
  (Eb (-100002 # 10 ^ 5) (600007 # 10 ^ 5) (113 # 10 ^ 18) (307 # 10 ^ 16))
  (Eb (110061 # 10 ^ 5) (447018 # 10 ^ 4) (189 # 10 ^ 15) (629 # 10 ^ 63))
  (Eb (101221 # 10 ^ 5) (101224 # 10 ^ 5) (337 # 10 ^ 18) 0).
Lemma near_acc1 (r : InitlReturn b64) (r' : InitlReturn R) (s : Satrec b64) (s' : Satrec R) :
  apx (ir_ao r) (ir_ao r') aoB -> apx (ir_cosio r) (ir_cosio r') cosB -> apx (ir_cosio2 r) (ir_cosio2 r') cos2B ->
  apx (ir_con42 r) (ir_con42 r') con42B -> apx (ir_rteosq r) (ir_rteosq r') rteB ->
  apx (ir_omeosq r) (ir_omeosq r') omeB -> apx (ir_sinio r) (ir_sinio r') sinB -> apx (ir_posq r) (ir_posq r') posqB -> apx (ir_rp r) (ir_rp r') rpB ->
  10346 / 10000 <= ir_rp r' -> ir_rp r' = ir_ao r' * (1 - sr_ecco s') -> ir_rp r' * ir_rp r' <= ir_posq r' ->
  @flt _ B (@L _ B 1 4) (sr_ecco s) = @flt _ ROps (@L _ ROps 1 4) (sr_ecco s') ->
  apx (sr_ecco s) (sr_ecco s') box1 -> apx (sr_no s) (sr_no s') noB -> apx (sr_con41 s) (sr_con41 s') con41B ->
  apx (sr_bstar s) (sr_bstar s') in_bst -> apx (sr_argpo s) (sr_argpo s') in_ang -> apx (sr_mo s) (sr_mo s') in_ang ->
  near_ok nb1 (@sgp4init_near _ B r s) (@sgp4init_near _ ROps r' s').
Proof.
  intros Hao Hcosio Hcosio2 Hcon42 Hrte Home Hsin Hposq Hrp RP RE RS BR He Hno Hcon41 Hbs Hargp Hmo.
  assert (PQ : 107 / 100 <= ir_posq r') by nra. acut Hposq (107 # 100)%Q 4%Q.
  destruct (atmo_acc _ _ Hrp RP) as (A1 & A2 & G1 & G2). set (P := near_ok nb1).
  assert (AL : 1034600 / 1000000 <= ir_ao r').
  { ivl Hao Ia. ivl He Ie. apply (Rmult_le_reg_r (1 - sr_ecco s')); [lra|]. rewrite <- RE. lra. }
  acut Hao (1034600 # 1000000)%Q 2%Q. ivl Hao Iao. ivl He Ie.
  aconst @kJ2. aconst @kJ4. aconst @kJ3OJ2. aconst @kX2O3. aconst @kEARTH_RADIUS.
  cbv beta delta [sgp4init_near]. do 15 astep. askip. askip. fold (@lim_v _ B). fold (@lim_v _ ROps). rewrite A1, A2, G1, G2. cbv beta iota delta [at_sfour at_qzms24].
  lets sfour. lets qzms24. lets pinvsq. lets tsi. lets eta. ivl Hsfour Isf. ivl Hqzms24 Iqz.
  destruct (near_facts (10346 / 10000) (101223 / 100000) (1034600 / 1000000) (44703 / 1000) (46042 / 10000000) (44703 / 1000) (1 / 10000) (ir_ao r') (sr_ecco s') (ir_rp r') sfour' tsi' eta' (Rabs (1 - eta' * eta'))) as (T0 & ET & (PS & P0) & TP & TA); try assumption; try lra; try reflexivity.
  acut Heta 0%Q (46042 # 10000000)%Q. acut Htsi 1%Q (44703 # 1000)%Q. lets etasq. lets eeta. lets psisq.
  assert (PE : Rabs (1 - eta' * eta') = psisq') by (rewrite Epsisq, Eetasq; reflexivity). rewrite PE in PS, P0, TP, TA.
  acut Hpsisq (99997 # 100000)%Q 1%Q.
  lets coef. lets coef1.
  assert (C1 : 0 <= coef1' <= (75119 / 10000000)) by (rewrite Ecoef1, Ecoef; rops; rewrite Rpow_pos_base by lra; apply (coef1_R _ _ _ (44703 / 1000) (44703 / 1000) (44704 / 1000) _ (1881 / 1000000000000)); lra).
  acut Hcoef1 0%Q (75119 # 10000000)%Q.
  eassert (Hq1 : apx (@q1_v _ B tsi psisq) (@q1_v _ ROps tsi' psisq') _) by (unfold q1_v; arel).
  assert (Q1 : 0 <= @q1_v _ ROps tsi' psisq' <= 18149 / 1000000) by (rewrite q1_R by lra; lra).
  acut Hq1 0%Q (18149 # 1000000)%Q. unfold q1_v in Hq1.
  eassert (Hq2 : apx (@q2_v _ B tsi (ir_ao r) psisq) (@q2_v _ ROps tsi' (ir_ao r') psisq') _) by (unfold q2_v; arel).
  assert (Q2 : 0 <= @q2_v _ ROps tsi' (ir_ao r') psisq' <= 48397 / 1000000) by (rewrite q2_R by lra; lra).
  acut Hq2 0%Q (48397 # 1000000)%Q. unfold q2_v in Hq2.
  assert (BR2 : @flt _ ROps (@L _ ROps 1 4) (sr_ecco s') = false) by (rops; apply Rlt_bool_false; lra). rewrite BR2 in BR. rewrite BR, BR2. cbv iota.
  lets cc2. lets cc1. askip. lets cc3. lets x1mth2. lets cc4. lets cc5. lets cosio4. lets temp1. lets temp2. lets temp3.
  lets mdot. lets argpdot. lets xhdot1. lets nodedot. lets xpidot. lets omgcof. askip. lets xmcof. lets nodecf. lets t2cof. lets xlcof. lets aycof. lets delmotemp. lets delmo. lets sinmao. lets x7thm1.
  do 18 askip. unfold P, near_ok. cbn [ne_s ne_tsi ne_sfour]. near_fields. asplit. split; reflexivity.
Qed.
Definition box2 := Eb (1 # 10000) (1 # 1000) (12 # 10 ^ 17) (1 # 10 ^ 60).
Definition nb2 := NB (Eb (113881 # 10 ^ 9) (442485 # 10 ^ 7) (191 # 10 ^ 15) (630 # 10 ^ 63))
  (Eb (-136114 # 10 ^ 11) (136114 # 10 ^ 11) (355 # 10 ^ 14) (633 # 10 ^ 63))
  (Eb 0 (100002 # 10 ^ 5) (113 # 10 ^ 18) (427 # 10 ^ 17))
  (Eb (-877117 # 10 ^ 9) (135571 # 10 ^ 8) (763 # 10 ^ 15) (786 # 10 ^ 18))
  (Eb (454844 # 10 ^ 14) (286684 # 10 ^ 7) (134 # 10 ^ 14) (798 # 10 ^ 62))
  (Eb (277691 # 10 ^ 7) (733082 # 10 ^ 7) (122 # 10 ^ 17) 0)
  (Eb (-574275 # 10 ^ 10) (225762 # 10 ^ 9) (113 # 10 ^ 18) (277 # 10 ^ 20))
  (Eb (-111730 # 10 ^ 9) (110624 # 10 ^ 9) (113 # 10 ^ 18) (933 # 10 ^ 21))
  (Eb (-112130 # 10 ^ 8) (112130 # 10 ^ 8) (946 # 10 ^ 15) (733 # 10 ^ 20))
  (Eb (-106792 # 10 ^ 4) (106792 # 10 ^ 4) (946 # 10 ^ 15) (558 # 10 ^ 55))
  (Eb (-528430 # 10 ^ 15) (528430 # 10 ^ 15) (356 # 10 ^ 14) (110 # 10 ^ 26))
  (Eb (-204171 # 10 ^ 11) (204171 # 10 ^ 11) (355 # 10 ^ 14) (158 # 10 ^ 62))
  (Eb (-472508 # 10 ^ 6) (472508 # 10 ^ 6) (211 # 10 ^ 15) (163 # 10 ^ 17))
  (Eb (-116946 # 10 ^ 8) (116946 # 10 ^ 8) (561 # 10 ^ 18) (243 # 10 ^ 20))
  (Eb (873034 # 10 ^ 6) (113872 # 10 ^ 5) (277 # 10 ^ 16) 0)
  (Eb (-100001 # 10 ^ 5) (100001 # 10 ^ 5) 0 (447 # 10 ^ 17))
  (Eb (-100002 # 10 ^ 5) (600007 # 10 ^ 5) (113 # 10 ^ 18) (307 # 10 ^ 16))
  (Eb (110061 # 10 ^ 5) (444969 # 10 ^ 4) (189 # 10 ^ 15) (629 # 10 ^ 63))
  (Eb (101221 # 10 ^ 5) (101224 # 10 ^ 5) (337 # 10 ^ 18) 0).
Lemma near_acc2 (r : InitlReturn b64) (r' : InitlReturn R) (s : Satrec b64) (s' : Satrec R) :
  apx (ir_ao r) (ir_ao r') aoB -> apx (ir_cosio r) (ir_cosio r') cosB -> apx (ir_cosio2 r) (ir_cosio2 r') cos2B ->
  apx (ir_con42 r) (ir_con42 r') con42B -> apx (ir_rteosq r) (ir_rteosq r') rteB ->
  apx (ir_omeosq r) (ir_omeosq r') omeB -> apx (ir_sinio r) (ir_sinio r') sinB -> apx (ir_posq r) (ir_posq r') posqB -> apx (ir_rp r) (ir_rp r') rpB ->
  10346 / 10000 <= ir_rp r' -> ir_rp r' = ir_ao r' * (1 - sr_ecco s') -> ir_rp r' * ir_rp r' <= ir_posq r' ->
  @flt _ B (@L _ B 1 4) (sr_ecco s) = true -> @flt _ ROps (@L _ ROps 1 4) (sr_ecco s') = true ->
  apx (sr_ecco s) (sr_ecco s') box2 -> apx (sr_no s) (sr_no s') noB -> apx (sr_con41 s) (sr_con41 s') con41B ->
  apx (sr_bstar s) (sr_bstar s') in_bst -> apx (sr_argpo s) (sr_argpo s') in_ang -> apx (sr_mo s) (sr_mo s') in_ang ->
  near_ok nb2 (@sgp4init_near _ B r s) (@sgp4init_near _ ROps r' s').
Proof.
  intros Hao Hcosio Hcosio2 Hcon42 Hrte Home Hsin Hposq Hrp RP RE RS BR BR2 He Hno Hcon41 Hbs Hargp Hmo.
  assert (PQ : 107 / 100 <= ir_posq r') by nra. acut Hposq (107 # 100)%Q 4%Q.
  destruct (atmo_acc _ _ Hrp RP) as (A1 & A2 & G1 & G2). set (P := near_ok nb2).
  assert (AL : 1034703 / 1000000 <= ir_ao r').
  { ivl Hao Ia. ivl He Ie. apply (Rmult_le_reg_r (1 - sr_ecco s')); [lra|]. rewrite <- RE. lra. }
  acut Hao (1034703 # 1000000)%Q 2%Q. ivl Hao Iao. ivl He Ie.
  aconst @kJ2. aconst @kJ4. aconst @kJ3OJ2. aconst @kX2O3. aconst @kEARTH_RADIUS.
  cbv beta delta [sgp4init_near]. do 15 astep. askip. askip. fold (@lim_v _ B). fold (@lim_v _ ROps). rewrite A1, A2, G1, G2. cbv beta iota delta [at_sfour at_qzms24].
  lets sfour. lets qzms24. lets pinvsq. lets tsi. lets eta. ivl Hsfour Isf. ivl Hqzms24 Iqz.
  destruct (near_facts (10346 / 10000) (101223 / 100000) (1034703 / 1000000) (44498 / 1000) (44248 / 1000000) (44703 / 1000) (1 / 1000) (ir_ao r') (sr_ecco s') (ir_rp r') sfour' tsi' eta' (Rabs (1 - eta' * eta'))) as (T0 & ET & (PS & P0) & TP & TA); try assumption; try lra; try reflexivity.
  acut Heta 0%Q (44248 # 1000000)%Q. acut Htsi 1%Q (44498 # 1000)%Q. lets etasq. lets eeta. lets psisq.
  assert (PE : Rabs (1 - eta' * eta') = psisq') by (rewrite Epsisq, Eetasq; reflexivity). rewrite PE in PS, P0, TP, TA.
  acut Hpsisq (99804 # 100000)%Q 1%Q.
  lets coef. lets coef1.
  assert (C1 : 0 <= coef1' <= (74946 / 10000000)) by (rewrite Ecoef1, Ecoef; rops; rewrite Rpow_pos_base by lra; apply (coef1_R _ _ _ (44498 / 1000) (44703 / 1000) (44601 / 1000) _ (1881 / 1000000000000)); lra).
  acut Hcoef1 0%Q (74946 # 10000000)%Q.
  eassert (Hq1 : apx (@q1_v _ B tsi psisq) (@q1_v _ ROps tsi' psisq') _) by (unfold q1_v; arel).
  assert (Q1 : 0 <= @q1_v _ ROps tsi' psisq' <= 18149 / 1000000) by (rewrite q1_R by lra; lra).
  acut Hq1 0%Q (18149 # 1000000)%Q. unfold q1_v in Hq1.
  eassert (Hq2 : apx (@q2_v _ B tsi (ir_ao r) psisq) (@q2_v _ ROps tsi' (ir_ao r') psisq') _) by (unfold q2_v; arel).
  assert (Q2 : 0 <= @q2_v _ ROps tsi' (ir_ao r') psisq' <= 48397 / 1000000) by (rewrite q2_R by lra; lra).
  acut Hq2 0%Q (48397 # 1000000)%Q. unfold q2_v in Hq2.
  rewrite BR, BR2. cbv iota.
  lets cc2. lets cc1. askip. lets cc3. lets x1mth2. lets cc4. lets cc5. lets cosio4. lets temp1. lets temp2. lets temp3.
  lets mdot. lets argpdot. lets xhdot1. lets nodedot. lets xpidot. lets omgcof. askip. lets xmcof.
  ivl Hbs Ibs. assert (XM : - (10679 / 1000) <= xmcof' <= (10679 / 1000)) by (rewrite Exmcof, Ecoef, Eeeta, Eeta; rops; rewrite xo3_R; apply (xm_R _ _ _ _ _ (44498 / 1000) (1034703 / 1000000) (1 / 10000) _ (1881 / 1000000000000)); lra).
  acut Hxmcof (-10679 # 1000)%Q (10679 # 1000)%Q.
  lets nodecf. lets t2cof. lets xlcof. lets aycof. lets delmotemp. lets delmo. lets sinmao. lets x7thm1.
  do 18 askip. unfold P, near_ok. cbn [ne_s ne_tsi ne_sfour]. near_fields. asplit. split; reflexivity.
Qed.
Definition box3 := Eb (1 # 1000) (2 # 100) (12 # 10 ^ 17) (1 # 10 ^ 60).
Definition nb3 := NB (Eb (113983 # 10 ^ 8) (485575 # 10 ^ 6) (183 # 10 ^ 15) (111 # 10 ^ 60))
  (Eb (-197667 # 10 ^ 11) (197667 # 10 ^ 11) (101 # 10 ^ 13) (635 # 10 ^ 63))
  (Eb 0 (100002 # 10 ^ 5) (113 # 10 ^ 18) (427 # 10 ^ 17))
  (Eb (-124530 # 10 ^ 8) (381676 # 10 ^ 8) (113 # 10 ^ 14) (230 # 10 ^ 17))
  (Eb (455259 # 10 ^ 14) (473229 # 10 ^ 7) (168 # 10 ^ 14) (192 # 10 ^ 61))
  (Eb (277691 # 10 ^ 7) (733082 # 10 ^ 7) (122 # 10 ^ 17) 0)
  (Eb (-574275 # 10 ^ 10) (225762 # 10 ^ 9) (113 # 10 ^ 18) (277 # 10 ^ 20))
  (Eb (-111730 # 10 ^ 9) (110624 # 10 ^ 9) (113 # 10 ^ 18) (933 # 10 ^ 21))
  (Eb (-915133 # 10 ^ 10) (915133 # 10 ^ 10) (908 # 10 ^ 15) (599 # 10 ^ 21))
  (Eb (-944440 # 10 ^ 7) (944440 # 10 ^ 7) (909 # 10 ^ 15) (557 # 10 ^ 57))
  (Eb (-767392 # 10 ^ 15) (767392 # 10 ^ 15) (101 # 10 ^ 13) (159 # 10 ^ 26))
  (Eb (-296500 # 10 ^ 11) (296500 # 10 ^ 11) (101 # 10 ^ 13) (158 # 10 ^ 62))
  (Eb (-472508 # 10 ^ 6) (472508 # 10 ^ 6) (211 # 10 ^ 15) (163 # 10 ^ 17))
  (Eb (-116946 # 10 ^ 8) (116946 # 10 ^ 8) (561 # 10 ^ 18) (243 # 10 ^ 20))
  (Eb (136136 # 10 ^ 6) (327857 # 10 ^ 5) (532 # 10 ^ 15) 0)
  (Eb (-100001 # 10 ^ 5) (100001 # 10 ^ 5) 0 (447 # 10 ^ 17))
  (Eb (-100002 # 10 ^ 5) (600007 # 10 ^ 5) (113 # 10 ^ 18) (307 # 10 ^ 16))
  (Eb (110061 # 10 ^ 5) (427251 # 10 ^ 4) (181 # 10 ^ 15) (629 # 10 ^ 63))
  (Eb (101221 # 10 ^ 5) (101224 # 10 ^ 5) (337 # 10 ^ 18) 0).
Lemma near_acc3 (r : InitlReturn b64) (r' : InitlReturn R) (s : Satrec b64) (s' : Satrec R) :
  apx (ir_ao r) (ir_ao r') aoB -> apx (ir_cosio r) (ir_cosio r') cosB -> apx (ir_cosio2 r) (ir_cosio2 r') cos2B ->
  apx (ir_con42 r) (ir_con42 r') con42B -> apx (ir_rteosq r) (ir_rteosq r') rteB ->
  apx (ir_omeosq r) (ir_omeosq r') omeB -> apx (ir_sinio r) (ir_sinio r') sinB -> apx (ir_posq r) (ir_posq r') posqB -> apx (ir_rp r) (ir_rp r') rpB ->
  10346 / 10000 <= ir_rp r' -> ir_rp r' = ir_ao r' * (1 - sr_ecco s') -> ir_rp r' * ir_rp r' <= ir_posq r' ->
  @flt _ B (@L _ B 1 4) (sr_ecco s) = @flt _ ROps (@L _ ROps 1 4) (sr_ecco s') ->
  apx (sr_ecco s) (sr_ecco s') box3 -> apx (sr_no s) (sr_no s') noB -> apx (sr_con41 s) (sr_con41 s') con41B ->
  apx (sr_bstar s) (sr_bstar s') in_bst -> apx (sr_argpo s) (sr_argpo s') in_ang -> apx (sr_mo s) (sr_mo s') in_ang ->
  near_ok nb3 (@sgp4init_near _ B r s) (@sgp4init_near _ ROps r' s').
Proof.
  intros Hao Hcosio Hcosio2 Hcon42 Hrte Home Hsin Hposq Hrp RP RE RS BR He Hno Hcon41 Hbs Hargp Hmo.
  assert (PQ : 107 / 100 <= ir_posq r') by nra. acut Hposq (107 # 100)%Q 4%Q.
  destruct (atmo_acc _ _ Hrp RP) as (A1 & A2 & G1 & G2). set (P := near_ok nb3).
  assert (AL : 1035635 / 1000000 <= ir_ao r').
  { ivl Hao Ia. ivl He Ie. apply (Rmult_le_reg_r (1 - sr_ecco s')); [lra|]. rewrite <- RE. lra. }
  acut Hao (1035635 # 1000000)%Q 2%Q. ivl Hao Iao. ivl He Ie.
  aconst @kJ2. aconst @kJ4. aconst @kJ3OJ2. aconst @kX2O3. aconst @kEARTH_RADIUS.
  cbv beta delta [sgp4init_near]. do 15 astep. askip. askip. fold (@lim_v _ B). fold (@lim_v _ ROps). rewrite A1, A2, G1, G2. cbv beta iota delta [at_sfour at_qzms24].
  lets sfour. lets qzms24. lets pinvsq. lets tsi. lets eta. ivl Hsfour Isf. ivl Hqzms24 Iqz.
  destruct (near_facts (10346 / 10000) (101223 / 100000) (1035635 / 1000000) (42726 / 1000) (48557 / 100000) (44703 / 1000) (1 / 50) (ir_ao r') (sr_ecco s') (ir_rp r') sfour' tsi' eta' (Rabs (1 - eta' * eta'))) as (T0 & ET & (PS & P0) & TP & TA); try assumption; try lra; try reflexivity.
  acut Heta 0%Q (48557 # 100000)%Q. acut Htsi 1%Q (42726 # 1000)%Q. lets etasq. lets eeta. lets psisq.
  assert (PE : Rabs (1 - eta' * eta') = psisq') by (rewrite Epsisq, Eetasq; reflexivity). rewrite PE in PS, P0, TP, TA.
  acut Hpsisq (76422 # 100000)%Q 1%Q.
  lets coef. lets coef1.
  assert (C1 : 0 <= coef1' <= (73438 / 10000000)) by (rewrite Ecoef1, Ecoef; rops; rewrite Rpow_pos_base by lra; apply (coef1_R _ _ _ (42726 / 1000) (44703 / 1000) (43704 / 1000) _ (1881 / 1000000000000)); lra).
  acut Hcoef1 0%Q (73438 # 10000000)%Q.
  eassert (Hq1 : apx (@q1_v _ B tsi psisq) (@q1_v _ ROps tsi' psisq') _) by (unfold q1_v; arel).
  assert (Q1 : 0 <= @q1_v _ ROps tsi' psisq' <= 18149 / 1000000) by (rewrite q1_R by lra; lra).
  acut Hq1 0%Q (18149 # 1000000)%Q. unfold q1_v in Hq1.
  eassert (Hq2 : apx (@q2_v _ B tsi (ir_ao r) psisq) (@q2_v _ ROps tsi' (ir_ao r') psisq') _) by (unfold q2_v; arel).
  assert (Q2 : 0 <= @q2_v _ ROps tsi' (ir_ao r') psisq' <= 48397 / 1000000) by (rewrite q2_R by lra; lra).
  acut Hq2 0%Q (48397 # 1000000)%Q. unfold q2_v in Hq2.
  lets cc2. lets cc1. askip. lets cc3. lets x1mth2. lets cc4. lets cc5. lets cosio4. lets temp1. lets temp2. lets temp3.
  lets mdot. lets argpdot. lets xhdot1. lets nodedot. lets xpidot. lets omgcof. askip. lets xmcof.
  ivl Hbs Ibs. assert (XM : - (94443 / 1000000) <= xmcof' <= (94443 / 1000000)) by (rewrite Exmcof, Ecoef, Eeeta, Eeta; rops; rewrite Rlt_bool_true by lra; rewrite xo3_R; apply (xm_R _ _ _ _ _ (42726 / 1000) (1035635 / 1000000) (1 / 1000) _ (1881 / 1000000000000)); lra).
  acut Hxmcof (-94443 # 1000000)%Q (94443 # 1000000)%Q.
  lets nodecf. lets t2cof. lets xlcof. lets aycof. lets delmotemp. lets delmo. lets sinmao. lets x7thm1.
  do 18 askip. unfold P, near_ok. cbn [ne_s ne_tsi ne_sfour]. near_fields. asplit. split; reflexivity.
Qed.
Definition box4 := Eb (2 # 100) (1 # 10) (12 # 10 ^ 17) (1 # 10 ^ 60).
Definition nb4 := NB (Eb (232387 # 10 ^ 7) (837119 # 10 ^ 6) (997 # 10 ^ 16) (629 # 10 ^ 63))
  (Eb (-260054 # 10 ^ 11) (260054 # 10 ^ 11) (203 # 10 ^ 14) (129 # 10 ^ 20))
  (Eb 0 (100002 # 10 ^ 5) (113 # 10 ^ 18) (427 # 10 ^ 17))
  (Eb (-134220 # 10 ^ 8) (514180 # 10 ^ 8) (204 # 10 ^ 14) (245 # 10 ^ 17))
  (Eb (466244 # 10 ^ 14) (665623 # 10 ^ 7) (233 # 10 ^ 14) (547 # 10 ^ 60))
  (Eb (277691 # 10 ^ 7) (733082 # 10 ^ 7) (122 # 10 ^ 17) 0)
  (Eb (-574275 # 10 ^ 10) (225762 # 10 ^ 9) (113 # 10 ^ 18) (277 # 10 ^ 20))
  (Eb (-111730 # 10 ^ 9) (110624 # 10 ^ 9) (113 # 10 ^ 18) (933 # 10 ^ 21))
  (Eb (-206720 # 10 ^ 12) (206720 # 10 ^ 12) (492 # 10 ^ 15) (136 # 10 ^ 23))
  (Eb (-361174 # 10 ^ 10) (361174 # 10 ^ 10) (493 # 10 ^ 15) (136 # 10 ^ 59))
  (Eb (-100960 # 10 ^ 14) (100960 # 10 ^ 14) (204 # 10 ^ 14) (503 # 10 ^ 24))
  (Eb (-390080 # 10 ^ 11) (390080 # 10 ^ 11) (203 # 10 ^ 14) (194 # 10 ^ 20))
  (Eb (-472508 # 10 ^ 6) (472508 # 10 ^ 6) (211 # 10 ^ 15) (163 # 10 ^ 17))
  (Eb (-116946 # 10 ^ 8) (116946 # 10 ^ 8) (561 # 10 ^ 18) (243 # 10 ^ 20))
  (Eb (432194 # 10 ^ 8) (620026 # 10 ^ 5) (161 # 10 ^ 14) (179 # 10 ^ 62))
  (Eb (-100001 # 10 ^ 5) (100001 # 10 ^ 5) 0 (447 # 10 ^ 17))
  (Eb (-100002 # 10 ^ 5) (600007 # 10 ^ 5) (113 # 10 ^ 18) (307 # 10 ^ 16))
  (Eb (110061 # 10 ^ 5) (229969 # 10 ^ 4) (973 # 10 ^ 16) 0)
  (Eb (101221 # 10 ^ 5) (101224 # 10 ^ 5) (337 # 10 ^ 18) 0).
Lemma near_acc4 (r : InitlReturn b64) (r' : InitlReturn R) (s : Satrec b64) (s' : Satrec R) :
  apx (ir_ao r) (ir_ao r') aoB -> apx (ir_cosio r) (ir_cosio r') cosB -> apx (ir_cosio2 r) (ir_cosio2 r') cos2B ->
  apx (ir_con42 r) (ir_con42 r') con42B -> apx (ir_rteosq r) (ir_rteosq r') rteB ->
  apx (ir_omeosq r) (ir_omeosq r') omeB -> apx (ir_sinio r) (ir_sinio r') sinB -> apx (ir_posq r) (ir_posq r') posqB -> apx (ir_rp r) (ir_rp r') rpB ->
  10346 / 10000 <= ir_rp r' -> ir_rp r' = ir_ao r' * (1 - sr_ecco s') -> ir_rp r' * ir_rp r' <= ir_posq r' ->
  @flt _ B (@L _ B 1 4) (sr_ecco s) = @flt _ ROps (@L _ ROps 1 4) (sr_ecco s') ->
  apx (sr_ecco s) (sr_ecco s') box4 -> apx (sr_no s) (sr_no s') noB -> apx (sr_con41 s) (sr_con41 s') con41B ->
  apx (sr_bstar s) (sr_bstar s') in_bst -> apx (sr_argpo s) (sr_argpo s') in_ang -> apx (sr_mo s) (sr_mo s') in_ang ->
  near_ok nb4 (@sgp4init_near _ B r s) (@sgp4init_near _ ROps r' s').
Proof.
  intros Hao Hcosio Hcosio2 Hcon42 Hrte Home Hsin Hposq Hrp RP RE RS BR He Hno Hcon41 Hbs Hargp Hmo.
  assert (PQ : 107 / 100 <= ir_posq r') by nra. acut Hposq (107 # 100)%Q 4%Q.
  destruct (atmo_acc _ _ Hrp RP) as (A1 & A2 & G1 & G2). set (P := near_ok nb4).
  assert (AL : 1055714 / 1000000 <= ir_ao r').
  { ivl Hao Ia. ivl He Ie. apply (Rmult_le_reg_r (1 - sr_ecco s')); [lra|]. rewrite <- RE. lra. }
  acut Hao (1055714 # 1000000)%Q 2%Q. ivl Hao Iao. ivl He Ie.
  aconst @kJ2. aconst @kJ4. aconst @kJ3OJ2. aconst @kX2O3. aconst @kEARTH_RADIUS.
  cbv beta delta [sgp4init_near]. do 15 astep. askip. askip. fold (@lim_v _ B). fold (@lim_v _ ROps). rewrite A1, A2, G1, G2. cbv beta iota delta [at_sfour at_qzms24].
  lets sfour. lets qzms24. lets pinvsq. lets tsi. lets eta. ivl Hsfour Isf. ivl Hqzms24 Iqz.
  destruct (near_facts (10346 / 10000) (101223 / 100000) (1055714 / 1000000) (22997 / 1000) (83711 / 100000) (44703 / 1000) (1 / 10) (ir_ao r') (sr_ecco s') (ir_rp r') sfour' tsi' eta' (Rabs (1 - eta' * eta'))) as (T0 & ET & (PS & P0) & TP & TA); try assumption; try lra; try reflexivity.
  acut Heta 0%Q (83711 # 100000)%Q. acut Htsi 1%Q (22997 # 1000)%Q. lets etasq. lets eeta. lets psisq.
  assert (PE : Rabs (1 - eta' * eta') = psisq') by (rewrite Epsisq, Eetasq; reflexivity). rewrite PE in PS, P0, TP, TA.
  acut Hpsisq (29924 # 100000)%Q 1%Q.
  lets coef. lets coef1.
  assert (C1 : 0 <= coef1' <= (53877 / 10000000)) by (rewrite Ecoef1, Ecoef; rops; rewrite Rpow_pos_base by lra; apply (coef1_R _ _ _ (22997 / 1000) (44703 / 1000) (32063 / 1000) _ (1881 / 1000000000000)); lra).
  acut Hcoef1 0%Q (53877 # 10000000)%Q.
  eassert (Hq1 : apx (@q1_v _ B tsi psisq) (@q1_v _ ROps tsi' psisq') _) by (unfold q1_v; arel).
  assert (Q1 : 0 <= @q1_v _ ROps tsi' psisq' <= 18149 / 1000000) by (rewrite q1_R by lra; lra).
  acut Hq1 0%Q (18149 # 1000000)%Q. unfold q1_v in Hq1.
  eassert (Hq2 : apx (@q2_v _ B tsi (ir_ao r) psisq) (@q2_v _ ROps tsi' (ir_ao r') psisq') _) by (unfold q2_v; arel).
  assert (Q2 : 0 <= @q2_v _ ROps tsi' (ir_ao r') psisq' <= 48397 / 1000000) by (rewrite q2_R by lra; lra).
  acut Hq2 0%Q (48397 # 1000000)%Q. unfold q2_v in Hq2.
  lets cc2. lets cc1. askip. lets cc3. lets x1mth2. lets cc4. lets cc5. lets cosio4. lets temp1. lets temp2. lets temp3.
  lets mdot. lets argpdot. lets xhdot1. lets nodedot. lets xpidot. lets omgcof. askip. lets xmcof.
  ivl Hbs Ibs. assert (XM : - (36117 / 1000000000) <= xmcof' <= (36117 / 1000000000)) by (rewrite Exmcof, Ecoef, Eeeta, Eeta; rops; rewrite Rlt_bool_true by lra; rewrite xo3_R; apply (xm_R _ _ _ _ _ (22997 / 1000) (1055714 / 1000000) (1 / 50) _ (1881 / 1000000000000)); lra).
  acut Hxmcof (-36117 # 1000000000)%Q (36117 # 1000000000)%Q.
  lets nodecf. lets t2cof. lets xlcof. lets aycof. lets delmotemp. lets delmo. lets sinmao. lets x7thm1.
  do 18 askip. unfold P, near_ok. cbn [ne_s ne_tsi ne_sfour]. near_fields. asplit. split; reflexivity.
Qed.
Definition box5 := Eb (1 # 10) (25 # 100) (12 # 10 ^ 17) (1 # 10 ^ 60).
Definition nb5 := NB (Eb (126522 # 10 ^ 6) (939100 # 10 ^ 6) (334 # 10 ^ 16) 0)
  (Eb (-198319 # 10 ^ 11) (198319 # 10 ^ 11) (188 # 10 ^ 14) (493 # 10 ^ 21))
  (Eb 0 (100002 # 10 ^ 5) (113 # 10 ^ 18) (427 # 10 ^ 17))
  (Eb (-642363 # 10 ^ 9) (362027 # 10 ^ 8) (188 # 10 ^ 14) (971 # 10 ^ 18))
  (Eb (576947 # 10 ^ 14) (498264 # 10 ^ 7) (198 # 10 ^ 14) (183 # 10 ^ 58))
  (Eb (277691 # 10 ^ 7) (733082 # 10 ^ 7) (122 # 10 ^ 17) 0)
  (Eb (-574275 # 10 ^ 10) (225762 # 10 ^ 9) (113 # 10 ^ 18) (277 # 10 ^ 20))
  (Eb (-111730 # 10 ^ 9) (110624 # 10 ^ 9) (113 # 10 ^ 18) (933 # 10 ^ 21))
  (Eb (-131624 # 10 ^ 15) (131624 # 10 ^ 15) (160 # 10 ^ 15) (861 # 10 ^ 27))
  (Eb (-421245 # 10 ^ 13) (421245 # 10 ^ 13) (161 # 10 ^ 15) (504 # 10 ^ 61))
  (Eb (-769925 # 10 ^ 15) (769925 # 10 ^ 15) (189 # 10 ^ 14) (193 # 10 ^ 24))
  (Eb (-297479 # 10 ^ 11) (297479 # 10 ^ 11) (188 # 10 ^ 14) (739 # 10 ^ 21))
  (Eb (-472508 # 10 ^ 6) (472508 # 10 ^ 6) (211 # 10 ^ 15) (163 # 10 ^ 17))
  (Eb (-116946 # 10 ^ 8) (116946 # 10 ^ 8) (561 # 10 ^ 18) (243 # 10 ^ 20))
  (Eb (225975 # 10 ^ 9) (729119 # 10 ^ 5) (176 # 10 ^ 14) (185 # 10 ^ 62))
  (Eb (-100001 # 10 ^ 5) (100001 # 10 ^ 5) 0 (447 # 10 ^ 17))
  (Eb (-100002 # 10 ^ 5) (600007 # 10 ^ 5) (113 # 10 ^ 18) (307 # 10 ^ 16))
  (Eb (110061 # 10 ^ 5) (728203 # 10 ^ 5) (310 # 10 ^ 16) 0)
  (Eb (101221 # 10 ^ 5) (101224 # 10 ^ 5) (337 # 10 ^ 18) 0).
Lemma near_acc5 (r : InitlReturn b64) (r' : InitlReturn R) (s : Satrec b64) (s' : Satrec R) :
  apx (ir_ao r) (ir_ao r') aoB -> apx (ir_cosio r) (ir_cosio r') cosB -> apx (ir_cosio2 r) (ir_cosio2 r') cos2B ->
  apx (ir_con42 r) (ir_con42 r') con42B -> apx (ir_rteosq r) (ir_rteosq r') rteB ->
  apx (ir_omeosq r) (ir_omeosq r') omeB -> apx (ir_sinio r) (ir_sinio r') sinB -> apx (ir_posq r) (ir_posq r') posqB -> apx (ir_rp r) (ir_rp r') rpB ->
  10346 / 10000 <= ir_rp r' -> ir_rp r' = ir_ao r' * (1 - sr_ecco s') -> ir_rp r' * ir_rp r' <= ir_posq r' ->
  @flt _ B (@L _ B 1 4) (sr_ecco s) = @flt _ ROps (@L _ ROps 1 4) (sr_ecco s') ->
  apx (sr_ecco s) (sr_ecco s') box5 -> apx (sr_no s) (sr_no s') noB -> apx (sr_con41 s) (sr_con41 s') con41B ->
  apx (sr_bstar s) (sr_bstar s') in_bst -> apx (sr_argpo s) (sr_argpo s') in_ang -> apx (sr_mo s) (sr_mo s') in_ang ->
  near_ok nb5 (@sgp4init_near _ B r s) (@sgp4init_near _ ROps r' s').
Proof.
  intros Hao Hcosio Hcosio2 Hcon42 Hrte Home Hsin Hposq Hrp RP RE RS BR He Hno Hcon41 Hbs Hargp Hmo.
  assert (PQ : 107 / 100 <= ir_posq r') by nra. acut Hposq (107 # 100)%Q 4%Q.
  destruct (atmo_acc _ _ Hrp RP) as (A1 & A2 & G1 & G2). set (P := near_ok nb5).
  assert (AL : 1149555 / 1000000 <= ir_ao r').
  { ivl Hao Ia. ivl He Ie. apply (Rmult_le_reg_r (1 - sr_ecco s')); [lra|]. rewrite <- RE. lra. }
  acut Hao (1149555 # 1000000)%Q 2%Q. ivl Hao Iao. ivl He Ie.
  aconst @kJ2. aconst @kJ4. aconst @kJ3OJ2. aconst @kX2O3. aconst @kEARTH_RADIUS.
  cbv beta delta [sgp4init_near]. do 15 astep. askip. askip. fold (@lim_v _ B). fold (@lim_v _ ROps). rewrite A1, A2, G1, G2. cbv beta iota delta [at_sfour at_qzms24].
  lets sfour. lets qzms24. lets pinvsq. lets tsi. lets eta. ivl Hsfour Isf. ivl Hqzms24 Iqz.
  destruct (near_facts (10346 / 10000) (101223 / 100000) (1149555 / 1000000) (72820 / 10000) (93909 / 100000) (44703 / 1000) (1 / 4) (ir_ao r') (sr_ecco s') (ir_rp r') sfour' tsi' eta' (Rabs (1 - eta' * eta'))) as (T0 & ET & (PS & P0) & TP & TA); try assumption; try lra; try reflexivity.
  acut Heta 0%Q (93909 # 100000)%Q. acut Htsi 1%Q (72820 # 10000)%Q. lets etasq. lets eeta. lets psisq.
  assert (PE : Rabs (1 - eta' * eta') = psisq') by (rewrite Epsisq, Eetasq; reflexivity). rewrite PE in PS, P0, TP, TA.
  acut Hpsisq (11810 # 100000)%Q 1%Q.
  lets coef. lets coef1.
  assert (C1 : 0 <= coef1' <= (30319 / 10000000)) by (rewrite Ecoef1, Ecoef; rops; rewrite Rpow_pos_base by lra; apply (coef1_R _ _ _ (72820 / 10000) (44703 / 1000) (18043 / 1000) _ (1881 / 1000000000000)); lra).
  acut Hcoef1 0%Q (30319 # 10000000)%Q.
  eassert (Hq1 : apx (@q1_v _ B tsi psisq) (@q1_v _ ROps tsi' psisq') _) by (unfold q1_v; arel).
  assert (Q1 : 0 <= @q1_v _ ROps tsi' psisq' <= 18149 / 1000000) by (rewrite q1_R by lra; lra).
  acut Hq1 0%Q (18149 # 1000000)%Q. unfold q1_v in Hq1.
  eassert (Hq2 : apx (@q2_v _ B tsi (ir_ao r) psisq) (@q2_v _ ROps tsi' (ir_ao r') psisq') _) by (unfold q2_v; arel).
  assert (Q2 : 0 <= @q2_v _ ROps tsi' (ir_ao r') psisq' <= 48397 / 1000000) by (rewrite q2_R by lra; lra).
  acut Hq2 0%Q (48397 # 1000000)%Q. unfold q2_v in Hq2.
  lets cc2. lets cc1. askip. lets cc3. lets x1mth2. lets cc4. lets cc5. lets cosio4. lets temp1. lets temp2. lets temp3.
  lets mdot. lets argpdot. lets xhdot1. lets nodedot. lets xpidot. lets omgcof. askip. lets xmcof.
  ivl Hbs Ibs. assert (XM : - (42124 / 1000000000000) <= xmcof' <= (42124 / 1000000000000)) by (rewrite Exmcof, Ecoef, Eeeta, Eeta; rops; rewrite Rlt_bool_true by lra; rewrite xo3_R; apply (xm_R _ _ _ _ _ (72820 / 10000) (1149555 / 1000000) (1 / 10) _ (1881 / 1000000000000)); lra).
  acut Hxmcof (-42124 # 1000000000000)%Q (42124 # 1000000000000)%Q.
  lets nodecf. lets t2cof. lets xlcof. lets aycof. lets delmotemp. lets delmo. lets sinmao. lets x7thm1.
  do 18 askip. unfold P, near_ok. cbn [ne_s ne_tsi ne_sfour]. near_fields. asplit. split; reflexivity.
Qed.
Definition box6 := Eb (25 # 100) (451 # 1000) (12 # 10 ^ 17) (1 # 10 ^ 60).
Definition nb6 := NB (Eb (379566 # 10 ^ 6) (974370 # 10 ^ 6) (141 # 10 ^ 16) 0)
  (Eb (-152650 # 10 ^ 11) (152650 # 10 ^ 11) (664 # 10 ^ 14) (184 # 10 ^ 61))
  (Eb 0 (100002 # 10 ^ 5) (113 # 10 ^ 18) (427 # 10 ^ 17))
  (Eb (277550 # 10 ^ 16) (242524 # 10 ^ 8) (192 # 10 ^ 14) (476 # 10 ^ 18))
  (Eb (174647 # 10 ^ 13) (372980 # 10 ^ 7) (196 # 10 ^ 14) (434 # 10 ^ 57))
  (Eb (277691 # 10 ^ 7) (733082 # 10 ^ 7) (122 # 10 ^ 17) 0)
  (Eb (-574275 # 10 ^ 10) (225762 # 10 ^ 9) (113 # 10 ^ 18) (277 # 10 ^ 20))
  (Eb (-111730 # 10 ^ 9) (110624 # 10 ^ 9) (113 # 10 ^ 18) (933 # 10 ^ 21))
  (Eb (-384968 # 10 ^ 18) (384968 # 10 ^ 18) (637 # 10 ^ 16) (252 # 10 ^ 29))
  (Eb (-293703 # 10 ^ 15) (293703 # 10 ^ 15) (645 # 10 ^ 16) (727 # 10 ^ 62))
  (Eb (-592624 # 10 ^ 15) (592624 # 10 ^ 15) (665 # 10 ^ 14) (123 # 10 ^ 26))
  (Eb (-228974 # 10 ^ 11) (228974 # 10 ^ 11) (664 # 10 ^ 14) (282 # 10 ^ 61))
  (Eb (-472508 # 10 ^ 6) (472508 # 10 ^ 6) (211 # 10 ^ 15) (163 # 10 ^ 17))
  (Eb (-116946 # 10 ^ 8) (116946 # 10 ^ 8) (561 # 10 ^ 18) (243 # 10 ^ 20))
  (Eb (168558 # 10 ^ 10) (769633 # 10 ^ 5) (561 # 10 ^ 18) (213 # 10 ^ 15))
  (Eb (-100001 # 10 ^ 5) (100001 # 10 ^ 5) 0 (447 # 10 ^ 17))
  (Eb (-100002 # 10 ^ 5) (600007 # 10 ^ 5) (113 # 10 ^ 18) (307 # 10 ^ 16))
  (Eb (110061 # 10 ^ 5) (272307 # 10 ^ 5) (118 # 10 ^ 16) 0)
  (Eb (101221 # 10 ^ 5) (101224 # 10 ^ 5) (337 # 10 ^ 18) 0).
Lemma near_acc6 (r : InitlReturn b64) (r' : InitlReturn R) (s : Satrec b64) (s' : Satrec R) :
  apx (ir_ao r) (ir_ao r') aoB -> apx (ir_cosio r) (ir_cosio r') cosB -> apx (ir_cosio2 r) (ir_cosio2 r') cos2B ->
  apx (ir_con42 r) (ir_con42 r') con42B -> apx (ir_rteosq r) (ir_rteosq r') rteB ->
  apx (ir_omeosq r) (ir_omeosq r') omeB -> apx (ir_sinio r) (ir_sinio r') sinB -> apx (ir_posq r) (ir_posq r') posqB -> apx (ir_rp r) (ir_rp r') rpB ->
  10346 / 10000 <= ir_rp r' -> ir_rp r' = ir_ao r' * (1 - sr_ecco s') -> ir_rp r' * ir_rp r' <= ir_posq r' ->
  @flt _ B (@L _ B 1 4) (sr_ecco s) = @flt _ ROps (@L _ ROps 1 4) (sr_ecco s') ->
  apx (sr_ecco s) (sr_ecco s') box6 -> apx (sr_no s) (sr_no s') noB -> apx (sr_con41 s) (sr_con41 s') con41B ->
  apx (sr_bstar s) (sr_bstar s') in_bst -> apx (sr_argpo s) (sr_argpo s') in_ang -> apx (sr_mo s) (sr_mo s') in_ang ->
  near_ok nb6 (@sgp4init_near _ B r s) (@sgp4init_near _ ROps r' s').
Proof.
  intros Hao Hcosio Hcosio2 Hcon42 Hrte Home Hsin Hposq Hrp RP RE RS BR He Hno Hcon41 Hbs Hargp Hmo.
  assert (PQ : 107 / 100 <= ir_posq r') by nra. acut Hposq (107 # 100)%Q 4%Q.
  destruct (atmo_acc _ _ Hrp RP) as (A1 & A2 & G1 & G2). set (P := near_ok nb6).
  assert (AL : 1379466 / 1000000 <= ir_ao r').
  { ivl Hao Ia. ivl He Ie. apply (Rmult_le_reg_r (1 - sr_ecco s')); [lra|]. rewrite <- RE. lra. }
  acut Hao (1379466 # 1000000)%Q 2%Q. ivl Hao Iao. ivl He Ie.
  aconst @kJ2. aconst @kJ4. aconst @kJ3OJ2. aconst @kX2O3. aconst @kEARTH_RADIUS.
  cbv beta delta [sgp4init_near]. do 15 astep. askip. askip. fold (@lim_v _ B). fold (@lim_v _ ROps). rewrite A1, A2, G1, G2. cbv beta iota delta [at_sfour at_qzms24].
  lets sfour. lets qzms24. lets pinvsq. lets tsi. lets eta. ivl Hsfour Isf. ivl Hqzms24 Iqz.
  destruct (near_facts (10346 / 10000) (101223 / 100000) (1379466 / 1000000) (27231 / 10000) (97436 / 100000) (44703 / 1000) (451 / 1000) (ir_ao r') (sr_ecco s') (ir_rp r') sfour' tsi' eta' (Rabs (1 - eta' * eta'))) as (T0 & ET & (PS & P0) & TP & TA); try assumption; try lra; try reflexivity.
  acut Heta 0%Q (97436 # 100000)%Q. acut Htsi 1%Q (27231 # 10000)%Q. lets etasq. lets eeta. lets psisq.
  assert (PE : Rabs (1 - eta' * eta') = psisq') by (rewrite Epsisq, Eetasq; reflexivity). rewrite PE in PS, P0, TP, TA.
  acut Hpsisq (50622 # 1000000)%Q 1%Q.
  lets coef. lets coef1.
  assert (C1 : 0 <= coef1' <= (18541 / 10000000)) by (rewrite Ecoef1, Ecoef; rops; rewrite Rpow_pos_base by lra; apply (coef1_R _ _ _ (27231 / 10000) (44703 / 1000) (11034 / 1000) _ (1881 / 1000000000000)); lra).
  acut Hcoef1 0%Q (18541 # 10000000)%Q.
  eassert (Hq1 : apx (@q1_v _ B tsi psisq) (@q1_v _ ROps tsi' psisq') _) by (unfold q1_v; arel).
  assert (Q1 : 0 <= @q1_v _ ROps tsi' psisq' <= 18149 / 1000000) by (rewrite q1_R by lra; lra).
  acut Hq1 0%Q (18149 # 1000000)%Q. unfold q1_v in Hq1.
  eassert (Hq2 : apx (@q2_v _ B tsi (ir_ao r) psisq) (@q2_v _ ROps tsi' (ir_ao r') psisq') _) by (unfold q2_v; arel).
  assert (Q2 : 0 <= @q2_v _ ROps tsi' (ir_ao r') psisq' <= 48397 / 1000000) by (rewrite q2_R by lra; lra).
  acut Hq2 0%Q (48397 # 1000000)%Q. unfold q2_v in Hq2.
  lets cc2. lets cc1. askip. lets cc3. lets x1mth2. lets cc4. lets cc5. lets cosio4. lets temp1. lets temp2. lets temp3.
  lets mdot. lets argpdot. lets xhdot1. lets nodedot. lets xpidot. lets omgcof. askip. lets xmcof.
  ivl Hbs Ibs. assert (XM : - (29370 / 100000000000000) <= xmcof' <= (29370 / 100000000000000)) by (rewrite Exmcof, Ecoef, Eeeta, Eeta; rops; rewrite Rlt_bool_true by lra; rewrite xo3_R; apply (xm_R _ _ _ _ _ (27231 / 10000) (1379466 / 1000000) (1 / 4) _ (1881 / 1000000000000)); lra).
  acut Hxmcof (-29370 # 100000000000000)%Q (29370 # 100000000000000)%Q.
  lets nodecf. lets t2cof. lets xlcof. lets aycof. lets delmotemp. lets delmo. lets sinmao. lets x7thm1.
  do 18 askip. unfold P, near_ok. cbn [ne_s ne_tsi ne_sfour]. near_fields. asplit. split; reflexivity.
Qed.
End S.
