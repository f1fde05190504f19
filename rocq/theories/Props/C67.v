(** * C67: binary64 states of highly eccentric orbits are close to the published theory's exact ones *)
From Coq Require Import ZArith QArith List Bool String Reals Qreals Lra Lia Psatz.
From Flocq Require Import Core IEEE754.BinarySingleNaN.
From Verif.Model Require Import Float Str Satrec Constants Ext Vec3 Initl Dpper Sgp4 Sgp4init Propagate Io.
From Verif.Inst Require Import RInst RTac B64 B64Facts B64Approx B64Calc ApxCalc.
From Verif.Spec Require Import Calendar TextSpec NumText TleSpec Sgp4Spec StateSpec PeriodicSpec Str3Api LibmAccuracy NearAccuracy DeepAccuracy.
From Verif.Spec Require Str3.
From Verif.Proofs Require Import StrFacts NumFacts TextFacts IoFacts DecodeFacts Sgp4Frame InitFrame InitElems ParseFacts CalcFun ApxFun AccInit AccTail AccSgp4 AccBoot AccEnd LibmExists Str3Init Str3State HighKozai HighBoot HighTail HighRun.
From Verif.Props Require Import C07 C08 C24 C28 C58 C63.
From Verif.Props Require C54 C62.
From Verif.Proofs Require CalendarFacts InitTotal.
Import ListNotations.
Local Open Scope R_scope.

(** ** The recovered mean motion is positive *)
Lemma kozai_wide el x : 0 <= Str3.e0 el <= 745 / 1000 -> 9 / 10 <= x -> Rabs (Str3.kozai el x) <= 8 / 1000.
Proof.
  intros He Hx. unfold Str3.kozai. set (c := Str3.theta el). assert (C : -1 <= c <= 1) by apply COS_bound. clearbody c.
  assert (B : 66 / 100 <= Str3.beta0 el). { unfold Str3.beta0. apply Rle_trans with (sqrt (66 / 100 * (66 / 100))); [rewrite sqrt_square; lra|]. apply sqrt_le_1_alt. nra. }
  set (b := Str3.beta0 el) in *. clearbody b.
  assert (B3 : 28 / 100 <= b ^ 3) by (assert (0 < b * b) by nra; assert (4356 / 10000 <= b * b) by nra; replace (b ^ 3) with (b * (b * b)) by ring; nra).
  assert (X2 : 81 / 100 <= x ^ 2) by nra.
  assert (I : 0 < / x ^ 2 <= 100 / 81) by (split; [apply Rinv_0_lt_compat; lra|replace (100 / 81) with (/ (81 / 100)) by field; apply Rinv_le_contravar; lra]).
  assert (J : 0 < / b ^ 3 <= 100 / 28) by (split; [apply Rinv_0_lt_compat; lra|replace (100 / 28) with (/ (28 / 100)) by field; apply Rinv_le_contravar; lra]).
  unfold Rdiv. rewrite !Rabs_mult. rewrite (Rabs_pos_eq (/ x ^ 2)), (Rabs_pos_eq (/ b ^ 3)) by lra.
  assert (T : Rabs (3 * c ^ 2 - 1) <= 2) by (apply Rabs_le; nra).
  assert (K : Rabs 3 * Rabs (/ 2) * Rabs Str3.k2 <= 82 / 100000) by (unfold Str3.k2, Str3.J2; rewrite !Rabs_pos_eq by lra; lra).
  assert (K0 : 0 <= Rabs 3 * Rabs (/ 2) * Rabs Str3.k2) by (repeat apply Rmult_le_pos; apply Rabs_pos).
  set (k := Rabs 3 * Rabs (/ 2) * Rabs Str3.k2) in *. clearbody k. pose proof (Rabs_pos (3 * c ^ 2 - 1)) as T0. set (T1 := Rabs (3 * c ^ 2 - 1)) in *. clearbody T1.
  set (ix := / x ^ 2) in *. set (ib := / b ^ 3) in *. clearbody ix ib.
  assert (k * ix <= 82 / 100000 * (100 / 81)) by (apply Rmult_le_compat; lra).
  assert (0 <= k * ix) by (apply Rmult_le_pos; lra).
  assert (k * ix * T1 <= 82 / 100000 * (100 / 81) * 2) by (apply Rmult_le_compat; lra).
  assert (0 <= k * ix * T1) by (apply Rmult_le_pos; lra).
  assert (k * ix * T1 * ib <= 82 / 100000 * (100 / 81) * 2 * (100 / 28)) by (apply Rmult_le_compat; lra). lra.
Qed.
Lemma d0_wide el : 0 < Str3.n0 el <= 73 / 1000 -> 0 <= Str3.e0 el <= 745 / 1000 -> Rabs (Str3.d0 el) <= 8 / 1000.
Proof.
  intros Hn He. apply kozai_wide; [exact He|].
  assert (A1 : 1 <= Str3.a1 el).
  { unfold Str3.a1, Str3.two_thirds. rewrite <- (Rpower_1 1) at 1 by lra. replace (Rpower 1 1) with (Rpower 1 (2 / 3)) by (unfold Rpower; rewrite ln_1; f_equal; ring).
    apply Rle_Rpower_l; [lra|]. split; [lra|]. apply Rmult_le_reg_r with (Str3.n0 el); [lra|]. unfold Rdiv. rewrite Rmult_assoc, Rinv_l by lra. unfold Str3.ke. lra. }
  pose proof (kozai_wide el (Str3.a1 el) He ltac:(lra)) as D. unfold Str3.a0, Str3.d1. set (d := Str3.kozai el (Str3.a1 el)) in *. clearbody d.
  apply Rabs_le_inv in D. assert (0 <= d ^ 2 <= 64 / 1000000) by nra. assert (- (1 / 10000) <= d ^ 3 <= 1 / 10000) by (replace (d ^ 3) with (d * d ^ 2) by ring; nra).
  set (q := d ^ 2) in *. set (c := d ^ 3) in *. clearbody q c. nra.
Qed.
Lemma class_eccentric_orbital oR : eccentric_class oR -> orbital (elements oR).
Proof.
  intros (Hn & _ & He & _).
  assert (N : 0 < Str3.n0 (elements oR) <= 73 / 1000) by (cbn [elements Str3.n0]; lra).
  assert (E' : 0 <= Str3.e0 (elements oR) <= 745 / 1000) by (cbn [elements Str3.e0]; lra).
  pose proof (d0_wide _ N E') as D. apply Rabs_le_inv in D. split; [lra|]. split; [lra|]. unfold Str3.n. apply Rdiv_lt_0_compat; lra.
Qed.
Lemma class_eccentric_rp oR : eccentric_class oR -> 103135 / 100000 <= ir_rp (@il _ ROps oR).
Proof.
  intros O. pose proof (class_eccentric_orbital oR O) as HO. destruct O as (_ & _ & _ & _ & _ & _ & _ & _ & P).
  pose proof (initl_rest_T oR HO) as (_ & _ & _ & _ & _ & _ & _ & _ & R).
  rewrite (il_def (FO := ROps)). rewrite R. unfold Str3.perigee_height, Str3.aE in P. nra.
Qed.
Lemma eccentric_self o : eccentric_ordinary o -> eccentric_class (exact o) /\ deep_rounded o (exact o).
Proof.
  intros ((Fn & Hn) & (Fi & Hi) & (Fe & He) & (Fp & Hp) & (Fb & Hb) & (Fw & Hw) & (Fm & Hm) & (Fd & Hd) & P).
  assert (T : 0 <= / 10 ^ 60) by (left; apply Rinv_0_lt_compat, pow_lt; lra).
  split; [repeat (split; [assumption|]); assumption|]. split; [reflexivity|]. split.
  - unfold rounded, elements, exact. cbn [in_xno in_xecco in_xinclo in_xmo in_xargpo in_xnodeo in_xbstar Str3.n0 Str3.e0 Str3.i0 Str3.M0 Str3.w0 Str3.node0 Str3.Bstar].
    cbv zeta. repeat split; try (apply agree_self; try assumption; lra); try assumption; apply agree_self; try assumption; lra.
  - split; [exact Fp|]. cbn [exact in_epoch]. rewrite Rminus_eq_0, Rabs_R0. lra.
Qed.
Lemma hlatus_apx x (a : R) : apx x a hplB -> 0 < a.
Proof. intros (_ & I & _). cbn [el eh hplB] in I. destruct I as (I & _). eapply Rlt_le_trans; [|exact I]. unfold Q2R. cbn [Qnum Qden]. change (10 ^ 6)%positive with 1000000%positive. lra. Qed.

Section S.
Context (lm : libm) (ACC : accurate lm).
Notation B := (B64Ops lm).
Lemma eccentric_start o oR s0 s0' : eccentric_class oR -> deep_rounded o oR -> high_rec lm (@sgp4init_elements _ B o s0) (@sgp4init_elements _ ROps oR s0').
Proof.
  intros CL. pose proof (class_eccentric_rp oR CL) as RP. revert CL.
  intros (Hn & Hi & He & Hp & Hb & Hw & Hm & Hd & _) (OM & (Rn & Re & Ri & Rm & Rw & Rd & Rb) & Fp & Rp).
  unfold elements in *. cbn [Str3.n0 Str3.e0 Str3.i0 Str3.M0 Str3.w0 Str3.node0 Str3.Bstar] in *.
  assert (T0 : 0 <= / 10 ^ 60) by (left; apply Rinv_0_lt_compat, pow_lt; lra).
  pose proof u6_Q as U6. pose proof u1_Q as U1.
  refine (high_boot lm ACC o oR s0 s0' OM _ _ _ _ _ _ _ _ RP _ _ eq_refl eq_refl).
  - apply (agree_apx _ _ _ _ _ _ _ _ Rn U6 (eq_sym RMicromega.Q2R_0)); [lra|lra|]; unfold Q2R; cbn [Qnum Qden inject_Z]; lra.
  - apply (agree_apx _ _ _ _ _ _ _ _ Ri U6 tiny_Q); [lra|lra|]; unfold Q2R; cbn [Qnum Qden inject_Z]; lra.
  - apply (agree_apx _ _ _ _ _ _ _ _ Re U1 tiny_Q); [lra|lra|]; unfold Q2R; cbn [Qnum Qden inject_Z]; lra.
  - split; [exact Fp|]. cbn [el eh rr ab DeepMoon.epochB]. rewrite <- C62.epoch_Q. unfold Q2R. cbn [Qnum Qden inject_Z]. split; [lra|]. split; [lra|]. lra.
  - apply (agree_apx _ _ _ _ _ _ _ _ Rb U1 tiny_Q); [lra|lra|]; unfold Q2R; cbn [Qnum Qden inject_Z]; lra.
  - apply (agree_apx _ _ _ _ _ _ _ _ Rw U6 tiny_Q); [lra|lra|]; unfold Q2R; cbn [Qnum Qden inject_Z]; lra.
  - apply (agree_apx _ _ _ _ _ _ _ _ Rm U6 tiny_Q); [lra|lra|]; unfold Q2R; cbn [Qnum Qden inject_Z]; lra.
  - apply (agree_apx _ _ _ _ _ _ _ _ Rd U6 tiny_Q); [lra|lra|]; unfold Q2R; cbn [Qnum Qden inject_Z]; lra.
Qed.
Lemma eccentric_accuracy fuel (s0 s : Satrec b64) (o : SGP4InitOptions b64) r calls s1 fuel' (t : b64) s' res oR fuelR s0R sR rR :
  @sgp4init _ B fuel s0 o = Done (s, r) -> @after_calls _ B s calls = Done s1 -> @sgp4 _ B fuel' s1 t = Done (s', res) ->
  @sgp4init _ ROps fuelR s0R oR = Done (sR, rR) ->
  eccentric_class oR -> deep_rounded o oR -> inside t (-43200) 43200 -> eccentric_outcome64 (elements oR) sR (B2R t) res.
Proof.
  intros H A G HR CL RD Ht. destruct (fresh _ _ _ _ _ _ _ _ _ _ _ H A G) as (s2 & K). clear H A G.
  destruct (C62.same_third _ _ _ _ _ HR) as (X1 & X2 & X3). clear HR.
  pose proof (eccentric_start o oR s0 s0R CL RD) as NR. pose proof (C62.time_apx t Ht) as JT.
  remember (@sgp4init_elements _ B o s0) as a eqn:EA. remember (@sgp4init_elements _ ROps oR s0R) as a' eqn:EA'.
  destruct (high_run lm ACC fuel' a a' t (B2R t) s2 res NR JT K) as (R1 & R2). destruct (high_short lm ACC a a' t (B2R t) NR JT) as (PL & _). destruct NR as ((_ & M') & _).
  unfold eccentric_outcome64. rewrite X1, X3. clear X1 X2 X3 K JT. set (tm := B2R t) in *. clearbody tm.
  destruct (C62.deep_exact oR _ a' tm EA' (class_eccentric_orbital oR CL) M') as (_ & _ & T3). cbv zeta.
  destruct (T3 (hlatus_apx _ _ PL)) as (E & u & K1 & K2 & K3 & K4 & K5 & K6).
  rewrite K4 in R1, R2. rewrite K5, K6 in R2. exists E, u. repeat (split; [assumption|]). assumption.
Qed.
End S.

(** Initialise a record from binary64 elements of a highly eccentric deep-space orbit, make any calls on it, then
    propagate it to a binary64 time within thirty days of epoch, all in binary64 with any accurate library.
    Evaluate the published theory on the same numbers without rounding, with the lunar-solar coefficients of an
    exact initialisation.  The call reports decay exactly when the theory's radius is below that of the Earth,
    unless it is within 2e-8 of it, and otherwise returns a state within 2.6 m and 3.2 mm/s of the theory's in
    every coordinate. *)
Theorem C67_eccentric_accuracy :
  forall (lm : libm), accurate lm ->
  forall fuel (s0 s : Satrec b64) (o : SGP4InitOptions b64) r calls s1 fuel' (t : b64) s' res fuelR s0R sR rR,
    sgp4init (FO := B64Ops lm) fuel s0 o = Done (s, r) ->
    after_calls (FO := B64Ops lm) s calls = Done s1 ->
    sgp4 (FO := B64Ops lm) fuel' s1 t = Done (s', res) ->
    sgp4init (FO := ROps) fuelR s0R (exact o) = Done (sR, rR) ->
    eccentric_ordinary o -> inside t (-43200) 43200 ->
    eccentric_outcome64 (elements (exact o)) sR (B2R t) res.
Proof.
  intros lm ACC fuel s0 s o r calls s1 fuel' t s' res fuelR s0R sR rR H A G HR O Ht. destruct (eccentric_self o O) as (CL & RD).
  exact (eccentric_accuracy lm ACC fuel s0 s o r calls s1 fuel' t s' res (exact o) fuelR s0R sR rR H A G HR CL RD Ht).
Qed.
Print Assumptions C67_eccentric_accuracy.

(** The elements and the epoch may have been rounded on their way in. *)
Theorem C67_rounded_elements :
  forall (lm : libm), accurate lm ->
  forall fuel (s0 s : Satrec b64) (o : SGP4InitOptions b64) r calls s1 fuel' (t : b64) s' res (oR : SGP4InitOptions R) fuelR s0R sR rR,
    sgp4init (FO := B64Ops lm) fuel s0 o = Done (s, r) ->
    after_calls (FO := B64Ops lm) s calls = Done s1 ->
    sgp4 (FO := B64Ops lm) fuel' s1 t = Done (s', res) ->
    sgp4init (FO := ROps) fuelR s0R oR = Done (sR, rR) ->
    eccentric_class oR -> deep_rounded o oR -> inside t (-43200) 43200 ->
    eccentric_outcome64 (elements oR) sR (B2R t) res.
Proof. exact eccentric_accuracy. Qed.
Print Assumptions C67_rounded_elements.

(** ** Non-vacuity: drag-free orbits with a perigee from 1000 km up never decay *)
Lemma drag_free_radius el tm de i E u : Str3.Bstar el = 0 -> 40 / 100 <= Str3.e0 el <= 745 / 1000 -> 1000 <= Str3.perigee_height el -> Rabs de <= 93 / 10000 ->
  105 / 100 <= Str3.rk el false tm de i E u.
Proof.
  intros HB He HP Hde. apply Rabs_le_inv in Hde.
  assert (C1 : Str3.C1 el = 0) by (unfold Str3.C1; rewrite HB; ring).
  assert (AT : Str3.at_ el false tm = Str3.a el) by (unfold Str3.at_, Str3.if_full; rewrite C1; ring).
  assert (EU : Str3.e_unclamped el false tm de = Str3.e0 el + de) by (unfold Str3.e_unclamped, Str3.if_full; rewrite HB; ring).
  assert (EE : Str3.e el false tm de = Str3.e0 el + de) by (unfold Str3.e; rewrite EU; apply Rmax_left; lra).
  unfold Str3.perigee_height, Str3.aE in HP. set (a := Str3.a el) in *. set (e0 := Str3.e0 el) in *. set (e := e0 + de) in *.
  assert (IE : e0 - 93 / 10000 <= e <= e0 + 93 / 10000) by (unfold e; lra). clearbody e. clear Hde.
  assert (PA : 11567 / 10000 <= a * (1 - e0)) by nra. assert (A0 : 0 < a) by nra.
  assert (P1 : 1113 / 1000 <= a * (1 - e)).
  { assert (a * (1 - e) >= a * (1 - e0) * (1 - 37 / 1000)); [|nra]. assert (93 / 10000 <= (1 - e0) * (37 / 1000)) by nra. nra. }
  assert (P2 : 15 / 10 <= a * (1 - e ^ 2)) by (replace (a * (1 - e ^ 2)) with (a * (1 - e) * (1 + e)) by ring; nra).
  set (k := Str3.A30 * sin i / (4 * Str3.k2 * a * (1 - e ^ 2))).
  assert (K : Rabs k <= 8 / 10000).
  { unfold k. replace (Str3.A30 * sin i / (4 * Str3.k2 * a * (1 - e ^ 2))) with (Str3.A30 / (4 * Str3.k2) * (sin i * / (a * (1 - e ^ 2)))) by (unfold Str3.k2, Str3.J2; field; nra).
    assert (I1 : 0 < / (a * (1 - e ^ 2)) <= 10 / 15) by (split; [apply Rinv_0_lt_compat; lra|replace (10 / 15) with (/ (15 / 10)) by field; apply Rinv_le_contravar; lra]).
    assert (I2 : Rabs (Str3.A30 / (4 * Str3.k2)) <= 118 / 100000) by (unfold Str3.A30, Str3.k2, Str3.J2, Str3.J3; apply Rabs_le; lra).
    rewrite !Rabs_mult. rewrite (Rabs_pos_eq (/ (a * (1 - e ^ 2)))) by lra. assert (SB : Rabs (sin i) <= 1) by (apply Rabs_le; pose proof (SIN_bound i); lra).
    pose proof (Rabs_pos (sin i)). pose proof (Rabs_pos (Str3.A30 / (4 * Str3.k2))).
    assert (Rabs (sin i) * / (a * (1 - e ^ 2)) <= 1 * (10 / 15)) by (apply Rmult_le_compat; lra). assert (0 <= Rabs (sin i) * / (a * (1 - e ^ 2))) by (apply Rmult_le_pos; lra).
    apply Rle_trans with (118 / 100000 * (1 * (10 / 15))); [apply Rmult_le_compat; lra|lra]. }
  apply Rabs_le_inv in K. set (w := Str3.w el false tm).
  assert (AX : Str3.axN el false tm de = e * cos w) by (unfold Str3.axN; rewrite EE; reflexivity).
  assert (AY : Str3.ayN el false tm de i = e * sin w + k) by (unfold Str3.ayN; rewrite EE, AT; reflexivity).
  assert (EC : Str3.e_cosE el false tm de i E <= e + 8 / 10000).
  { unfold Str3.e_cosE. rewrite AX, AY. replace (e * cos w * cos E + (e * sin w + k) * sin E) with (e * (cos E * cos w + sin E * sin w) + k * sin E) by ring.
    rewrite <- cos_minus. pose proof (COS_bound (E - w)). pose proof (SIN_bound E). assert (e * cos (E - w) <= e) by nra. assert (k * sin E <= 8 / 10000) by nra. lra. }
  assert (L2 : Str3.eL2 el false tm de i <= (e + 8 / 10000) * (e + 8 / 10000)).
  { unfold Str3.eL2. rewrite AX, AY. pose proof (sin2_cos2 w) as S. unfold Rsqr in S. pose proof (SIN_bound w) as SB.
    replace ((e * cos w) ^ 2 + (e * sin w + k) ^ 2) with (e * e * (sin w * sin w + cos w * cos w) + 2 * e * (sin w * k) + k * k) by ring. rewrite S.
    assert (sin w * k <= 8 / 10000) by nra. assert (k * k <= 8 / 10000 * (8 / 10000)) by nra. nra. }
  assert (P3 : 1105 / 1000 <= a * (1 - (e + 8 / 10000))).
  { assert (a * (8 / 10000) <= a * (1 - e) * (4 / 1000)) by (replace (a * (1 - e) * (4 / 1000)) with (a * ((1 - e) * (4 / 1000))) by ring; apply Rmult_le_compat_l; lra). nra. }
  assert (RR : 1105 / 1000 <= Str3.r el false tm de i E) by (unfold Str3.r; rewrite AT; fold a; apply Rle_trans with (1 := P3); apply Rmult_le_compat_l; lra).
  assert (PL : 15 / 10 <= Str3.pL el false tm de i).
  { unfold Str3.pL. rewrite AT. fold a. apply Rle_trans with (a * (1 - (e + 8 / 10000) * (e + 8 / 10000))); [|apply Rmult_le_compat_l; lra].
    replace (a * (1 - (e + 8 / 10000) * (e + 8 / 10000))) with (a * (1 - (e + 8 / 10000)) * (1 + (e + 8 / 10000))) by ring. nra. }
  unfold Str3.rk. set (r := Str3.r el false tm de i E) in *. set (pL := Str3.pL el false tm de i) in *.
  assert (SQ : 0 <= sqrt (1 - Str3.eL2 el false tm de i) <= 1).
  { split; [apply sqrt_pos|]. rewrite <- sqrt_1 at 2. apply sqrt_le_1_alt. unfold Str3.eL2. pose proof (pow2_ge_0 (Str3.axN el false tm de)). pose proof (pow2_ge_0 (Str3.ayN el false tm de i)). lra. }
  set (sq := sqrt (1 - Str3.eL2 el false tm de i)) in *. clearbody r pL sq. pose proof (COS_bound i) as CI. pose proof (COS_bound (2 * u)) as CU. set (c := cos i) in *. set (d := cos (2 * u)) in *. clearbody c d.
  assert (IP : 0 < / pL <= 10 / 15) by (split; [apply Rinv_0_lt_compat; lra|replace (10 / 15) with (/ (15 / 10)) by field; apply Rinv_le_contravar; lra]).
  replace (3 / 2 * Str3.k2 * sq / pL ^ 2 * (3 * c ^ 2 - 1)) with (3 / 2 * Str3.k2 * (sq * (/ pL * / pL)) * (3 * c ^ 2 - 1)) by (field; lra).
  replace (Str3.k2 / (2 * pL) * (1 - c ^ 2) * d) with (Str3.k2 / 2 * / pL * ((1 - c ^ 2) * d)) by (field; lra).
  assert (K2 : 0 < Str3.k2 <= 55 / 100000) by (unfold Str3.k2, Str3.J2; lra). set (k2 := Str3.k2) in *. clearbody k2. set (ip := / pL) in *. clearbody ip.
  assert (C2 : 0 <= c ^ 2 <= 1) by nra. set (c2 := c ^ 2) in *. clearbody c2.
  assert (X1 : 0 <= sq * (ip * ip) <= 1) by (split; [apply Rmult_le_pos; [lra|nra]|assert (0 <= ip * ip <= 1) by nra; nra]). set (x := sq * (ip * ip)) in *. clearbody x.
  assert (X2 : 3 / 2 * k2 * x * (3 * c2 - 1) <= 2 / 1000) by (assert (0 <= k2 * x <= 55 / 100000) by (split; nra); nra).
  assert (X3 : - (1) <= (1 - c2) * d <= 1) by (split; nra). set (y := (1 - c2) * d) in *. clearbody y.
  assert (X4 : - (1 / 1000) <= k2 / 2 * ip * y) by (assert (0 <= k2 / 2 * ip <= 1 / 1000) by (split; nra); nra).
  set (v := 3 / 2 * k2 * x * (3 * c2 - 1)) in *. clearbody v. assert (1105 / 1000 * (1 - 2 / 1000) <= r * (1 - v)) by (apply Rmult_le_compat; lra). lra.
Qed.
Example C67_example :
  accurate exact_lm /\
  forall o t, eccentric_ordinary o -> B2R (in_xbstar o) = 0 -> 1000 <= Str3.perigee_height (elements (exact o)) -> inside t (-43200) 43200 ->
    exists sR rR, sgp4init (FO := ROps) 0 satrec_zero (exact o) = Done (sR, rR) /\
    exists s r s' v E u, sgp4init (FO := B64Ops exact_lm) 0 (satrec_zero (FO := B64Ops exact_lm)) o = Done (s, r) /\
      sgp4 (FO := B64Ops exact_lm) 60 s t = Done (s', Ok v) /\
      close (26 / 10000) (g4_position v) (Str3.position (elements (exact o)) false (B2R t) (sr_dedt sR * B2R t) (Rabs (B2R (in_xinclo o) + d_incl sR (B2R t))) E u).
Proof.
  split; [exact exact_lm_accurate|]. intros o t O Hb HP Ht.
  destruct (C62.C62_always_returns exact_lm 0 (@satrec_zero _ (B64Ops exact_lm)) (@satrec_zero _ ROps) o) as ((s & r & H) & (sR & rR & HR) & K).
  exists sR, rR. split; [exact HR|]. destruct (K s 60%nat t (le_n _) Ht) as (s' & res & G).
  pose proof (C67_eccentric_accuracy exact_lm exact_lm_accurate _ _ _ _ _ nil s _ _ _ _ _ _ _ _ H eq_refl G HR O Ht) as (E & u & _ & _ & _ & _ & C).
  destruct (eccentric_self o O) as (CL & RD). destruct (eccentric_start exact_lm exact_lm_accurate o (exact o) (@satrec_zero _ (B64Ops exact_lm)) (@satrec_zero _ ROps) CL RD) as (_ & _ & HK & _).
  destruct HK as (_ & _ & _ & _ & _ & _ & _ & _ & _ & _ & _ & _ & _ & _ & (_ & ID & _)). cbn [el eh hedtB] in ID.
  destruct (C62.same_third _ _ _ _ _ HR) as (X1 & _ & _). rewrite <- X1 in ID.
  assert (DE : Rabs (sr_dedt sR * B2R t) <= 93 / 10000).
  { unfold Q2R in ID. cbn [Qnum Qden] in ID. change (10 ^ 9)%positive with 1000000000%positive in ID. destruct Ht as (_ & It). set (d := sr_dedt sR) in *. set (tm := B2R t) in *. clearbody d tm. clear - ID It.
    rewrite Rabs_mult. assert (A : Rabs d <= 214 / 1000000000) by (apply Rabs_le; lra). assert (A2 : Rabs tm <= 43200) by (apply Rabs_le; lra). pose proof (Rabs_pos d). pose proof (Rabs_pos tm).
    apply Rle_trans with (214 / 1000000000 * 43200); [apply Rmult_le_compat; assumption|lra]. }
  assert (He : 40 / 100 <= Str3.e0 (elements (exact o)) <= 745 / 1000) by (destruct CL as (_ & _ & He & _); exact He).
  pose proof (drag_free_radius (elements (exact o)) (B2R t) (sr_dedt sR * B2R t) (Rabs (Str3.i0 (elements (exact o)) + d_incl sR (B2R t))) E u Hb He HP DE) as RK.
  destruct (C ltac:(lra)) as (v & -> & _ & V & _). exists s, r, s', v, E, u. split; [exact H|]. split; [exact G|exact V].
Qed.

(** Such orbits exist: two revolutions a day, eccentricity 11/16, as Molniya satellites have. *)
Definition n_half_day : b64 := @B754_finite prec emax false 5066549580791808 (-59) eq_refl.
Definition e_high : b64 := @B754_finite prec emax false 6192449487634432 (-53) eq_refl.
Definition molniya (ep i w M nd : b64) : SGP4InitOptions b64 :=
  MkSGP4InitOptions OpsI nil ep (B754_zero false) e_high w i M n_half_day nd.
Example C67_inhabited : forall ep i w M nd,
  inside ep 0 40000 -> inside i 0 (28 / 10) -> inside w (-7) 7 -> inside M (-7) 7 -> inside nd (-7) 7 ->
  eccentric_ordinary (molniya ep i w M nd) /\ B2R (in_xbstar (molniya ep i w M nd)) = 0 /\ 1000 <= Str3.perigee_height (elements (exact (molniya ep i w M nd))).
Proof.
  intros ep i w M nd H1 H2 H3 H4 H5.
  assert (EN : B2R n_half_day = 9 / 1024). { unfold n_half_day, B2R, Defs.F2R. cbn [Defs.Fnum Defs.Fexp Zaux.cond_Zopp]. change (-59)%Z with (Z.opp 59). rewrite (bpow_opp radix2 59). cbn [bpow]. change (Z.pow_pos radix2 59) with 576460752303423488%Z. lra. }
  assert (EE : B2R e_high = 11 / 16). { unfold e_high, B2R, Defs.F2R. cbn [Defs.Fnum Defs.Fexp Zaux.cond_Zopp]. change (-53)%Z with (Z.opp 53). rewrite (bpow_opp radix2 53). cbn [bpow]. change (Z.pow_pos radix2 53) with 9007199254740992%Z. lra. }
  assert (P : 1000 <= Str3.perigee_height (elements (exact (molniya ep i w M nd)))).
  { set (el := elements (exact (molniya ep i w M nd))). assert (N : Str3.n0 el = 9 / 1024) by exact EN. assert (E : Str3.e0 el = 11 / 16) by exact EE. clearbody el.
    pose proof (d0_wide el ltac:(lra) ltac:(lra)) as D. apply Rabs_le_inv in D.
    assert (A : 4 <= Str3.a el).
    { unfold Str3.a, Str3.two_thirds, Str3.n. rewrite N. replace (Str3.ke / (9 / 1024 / (1 + Str3.d0 el))) with (Str3.ke * (1024 / 9) * (1 + Str3.d0 el)) by (field; lra).
      assert (E8 : 4 = Rpower 8 (2 / 3)). { replace 8 with (2 ^ 3) by ring. rewrite <- Rpower_pow by lra. rewrite Rpower_mult. replace (INR 3 * (2 / 3)) with (INR 2) by (simpl; lra). rewrite Rpower_pow by lra. ring. }
      rewrite E8. apply Rle_Rpower_l; [lra|]. split; [lra|]. unfold Str3.ke. nra. }
    unfold Str3.perigee_height, Str3.aE. rewrite E. nra. }
  assert (Z : forall l h, l <= 0 <= h -> inside (B754_zero false) l h) by (intros l h H; split; [reflexivity|exact H]).
  split; [|split; [reflexivity|exact P]]. split; [split; [reflexivity|change (in_xno (molniya ep i w M nd)) with n_half_day; rewrite EN; lra]|].
  split; [exact H2|]. split; [split; [reflexivity|change (in_xecco (molniya ep i w M nd)) with e_high; rewrite EE; lra]|]. split; [exact H1|]. split; [apply Z; lra|]. split; [exact H3|]. split; [exact H4|]. split; [exact H5|]. lra.
Qed.

(** ** From the text of an element set to a state at a date *)
Definition eccentric_usual (t : tle) : Prop :=
  92 / 100 <= dec_value (t_motion t) <= 639 / 100 /\ 0 <= dec_value (t_incl t) <= 160 /\
  401 / 1000 <= dec_value (t_ecc t) <= 7449 / 10000 /\ Rabs (dec_value (t_bstar t)) <= 999 / 1000000 /\
  0 <= dec_value (t_node t) <= 400 /\ 0 <= dec_value (t_argp t) <= 400 /\ 0 <= dec_value (t_anomaly t) <= 400 /\
  1 <= dec_value (t_day t) <= IZR (year_length (full_year (t_year t))) + 1 - 1 / 100000000 /\
  Rabs (dec_value (t_ndot t)) <= 1 /\ Rabs (dec_value (t_nddot t)) <= 1 /\
  200 <= Str3.perigee_height (tle_elements t).
Lemma eccentric_usual_range l1 l2 t m1 m2 : carries l1 l2 t m1 m2 -> eccentric_usual t ->
  Forall in_range [t_day t; t_ndot t; t_nddot t; t_bstar t; t_incl t; t_node t; t_ecc t; t_argp t; t_anomaly t; t_motion t].
Proof.
  intros C (U1 & U2 & U3 & U4 & U5 & U6 & U7 & U8 & U9 & U10 & _). apply carries_man in C.
  assert (K : bpow radix2 10 <= bpow radix2 1023) by (apply bpow_le; lia). replace (bpow radix2 10) with 1024 in K by (cbn; lra).
  pose proof (year_366 (full_year (t_year t))) as Y2.
  repeat (apply Forall_cons_iff in C; destruct C as [? C]).
  repeat (apply Forall_cons; [split; [assumption|]|]); [..|apply Forall_nil]; try (apply Rabs_le; lra); lra.
Qed.
Lemma eccentric_decoded64 lm l1 l2 t x : well_written l1 l2 t -> eccentric_usual t -> epoch_days t x -> exists p : Satrec b64,
  @parse_satrec _ (B64Ops lm) l1 l2 = Done (Ok p) /\ eccentric_class (text_options t x) /\ deep_rounded (@tle_options _ (B64Ops lm) p) (text_options t x) /\
  sr_epochyr p = t_year t /\ nearest (sr_epochdays p) (t_day t).
Proof.
  intros (m1 & m2 & C & N1 & N2 & G) U HX.
  destruct (C28_nearest_doubles lm l1 l2 m1 m2 t C N1 N2 G (eccentric_usual_range _ _ _ _ _ C U)) as (p & ndot & nddot & incl & node & argp & anomaly & motion & P & _ & _ & K1 & K2 & K3 & K4 & K5 & _ & V1 & V2 & V3 & V4 & _ & _ & W1 & W2 & W3 & W4 & W5).
  exists p. split; [exact P|]. destruct U as (U1 & U2 & U3 & U4 & U5 & U6 & U7 & U8 & _ & _ & UP).
  destruct (epoch_near lm _ _ p t x P V1 V2 U8 HX) as (X1 & X2 & X3). clear P C N1 N2 G HX.
  pose proof (deg_agree lm _ _ K1 ltac:(lra)) as D1. pose proof (deg_agree lm _ _ K2 U5) as D2. pose proof (deg_agree lm _ _ K3 U6) as D3. pose proof (deg_agree lm _ _ K4 U7) as D4.
  destruct (slow_agree lm _ _ K5 U1) as (M1 & M2). pose proof (nearest_agree _ _ V3) as B1. pose proof (nearest_agree _ _ V4) as E1.
  rewrite <- W1 in D1. rewrite <- W2 in D2. rewrite <- W3 in D3. rewrite <- W4 in D4. rewrite <- W5 in M1. clear W1 W2 W3 W4 W5 K1 K2 K3 K4 K5.
  assert (DG : forall d c, 0 <= d <= c -> 0 <= d * PI / 180 <= c * (1746 / 100000)).
  { intros d c H. pose proof CalcFun.pi_num. split; [unfold Rdiv; apply Rmult_le_pos; [apply Rmult_le_pos|]; lra|]. apply Rle_trans with (c * PI / 180); [unfold Rdiv; apply Rmult_le_compat_r; [lra|]; apply Rmult_le_compat_r; lra|]. unfold Rdiv. rewrite Rmult_assoc. apply Rmult_le_compat_l; lra. }
  pose proof (DG _ _ U2) as G1. pose proof (DG _ _ U5) as G2. pose proof (DG _ _ U6) as G3. pose proof (DG _ _ U7) as G4. clear DG.
  split; [|split; [|split; assumption]].
  - apply Rabs_le_inv in U4. unfold eccentric_class. rewrite text_options_elements. unfold text_options, tle_elements in *.
    cbn [in_xno in_xecco in_xinclo in_xmo in_xargpo in_xnodeo in_xbstar in_epoch Str3.n0 Str3.e0 Str3.i0 Str3.M0 Str3.w0 Str3.node0 Str3.Bstar].
    repeat (split; [lra|]). exact UP.
  - split; [reflexivity|]. split; [|split; [exact X1|exact X2]].
    unfold rounded, elements, text_options, tle_elements, tle_options. cbv zeta.
    cbn [in_xno in_xecco in_xinclo in_xmo in_xargpo in_xnodeo in_xbstar in_epoch Str3.n0 Str3.e0 Str3.i0 Str3.M0 Str3.w0 Str3.node0 Str3.Bstar].
    repeat (split; [assumption|]). assumption.
Qed.

(** Decode and initialise a well-written set of a highly eccentric orbit, then ask for any date within a month of
    its epoch, all in binary64 with any accurate library.  Up to 4e-6 minutes in the time asked for, the answer is
    the theory's for the elements and the epoch written in the text, within the bounds of [eccentric_outcome64].
    The set itself is refused exactly when the state at the epoch is. *)
Theorem C67_text_to_state :
  forall (lm : libm), accurate lm ->
  forall (fuel fuel' : nat) (l1 l2 : str) (t : tle) (x : R),
    well_written l1 l2 t -> eccentric_usual t -> epoch_days t x -> (60 <= fuel')%nat ->
    let el := tle_elements t in
    exists r0 : result (SGP4Result b64) SGP4Error,
      (exists sR rR, sgp4init (FO := ROps) fuel satrec_zero (text_options t x) = Done (sR, rR)) /\
      forall fuelR s0R sR rR, sgp4init (FO := ROps) fuelR s0R (text_options t x) = Done (sR, rR) ->
        eccentric_outcome64 el sR 0 r0 /\
        (forall e, r0 = Err e -> twoline2satrec (FO := B64Ops lm) fuel l1 l2 = Done (Err (Sgp4InitError e))) /\
        (forall v, r0 = Ok v -> exists s : Satrec b64, twoline2satrec (FO := B64Ops lm) fuel l1 l2 = Done (Ok s) /\
           forall (d : DateTime) (m : R), civil d -> in_span d -> minutes_since_epoch t d m -> -43199 <= m <= 43199 ->
             exists tm res, Rabs (tm - m) <= 4 / 1000000 /\
               propogate_datetime (FO := B64Ops lm) fuel' s d = Done res /\ eccentric_outcome64 el sR tm res).
Proof.
  intros lm ACC fuel fuel' l1 l2 t x W U HX HF el.
  destruct (eccentric_decoded64 lm l1 l2 t x W U HX) as (p & PA & CL & RD & Y1 & Y2).
  set (o := @tle_options _ (B64Ops lm) p) in *.
  destruct (C62.C62_always_returns lm fuel p (@satrec_zero _ ROps) o) as ((s & r & H) & _ & K).
  exists r. split; [apply InitTotal.sgp4init_total, InitTotal.zero_sane_R|]. intros fuelR s0R sR rR HR.
  assert (OUT : forall n (tt : b64), inside tt (-43200) 43200 -> forall s' res, @sgp4 _ (B64Ops lm) n s tt = Done (s', res) -> eccentric_outcome64 el sR (B2R tt) res).
  { intros n tt It s' res G. unfold el. rewrite <- (text_options_elements t x).
    exact (eccentric_accuracy lm ACC fuel p s o r nil s n tt s' res (text_options t x) fuelR s0R sR rR H eq_refl G HR CL RD It). }
  assert (T : twoline2satrec (FO := B64Ops lm) fuel l1 l2 = Done (match r with Ok _ => Ok s | Err e => Err (Sgp4InitError e) end)).
  { unfold twoline2satrec. rewrite PA. cbn [bindR]. fold o. rewrite H. now destruct r. }
  assert (Z : is_finite (@L _ (B64Ops lm) 0 0) = true /\ B2R (@L _ (B64Ops lm) 0 0) = 0) by (split; reflexivity). destruct Z as [Z1 Z2].
  split; [|split].
  - pose proof (sgp4init_replay _ _ _ _ _ H) as RP.
    destruct (@sgp4 _ (B64Ops lm) fuel s (@L _ (B64Ops lm) 0 0)) as [[s' res]| |] eqn:G; [|discriminate RP..].
    cbn [outcome_snd] in RP. injection RP as <-. rewrite <- Z2. eapply OUT; [|exact G]. split; [exact Z1|rewrite Z2; lra].
  - intros e ->. exact T.
  - intros v ->. exists s. split; [exact T|]. intros d m Cd Sd (days & HD & EM) Hm.
    destruct (C07_ready _ _ _ _ _ _ T) as (p' & v' & PA' & _ & _ & _ & _ & _ & _ & Q1 & Q2 & _). rewrite PA in PA'. injection PA' as <-.
    destruct U as (_ & _ & _ & _ & _ & _ & _ & U8 & _). destruct (day_near _ _ _ Y2 U8) as (F0 & DD & DR).
    destruct (C08_tle_elapsed_binary64 lm fuel fuel' l1 l2 s d days T) as (tt & F & E & PR).
    { now rewrite Q2. } { now rewrite Q1, Q2, Y1. }
    { exact Cd. } { exact Sd. }
    { rewrite Q1, Y1. exact HD. }
    rewrite Q2 in E.
    assert (TM : Rabs (B2R tt - m) <= 4 / 1000000).
    { apply Rabs_le_inv in E, DD. rewrite EM. apply Rabs_le. assert (/ 2 ^ 18 <= 382 / 100000000) by (cbn; lra). lra. }
    assert (IT : inside tt (-43200) 43200) by (split; [exact F|apply Rabs_le_inv in TM; lra]).
    destruct (K s fuel' tt HF IT) as (s' & res & G).
    exists (B2R tt), res. split; [exact TM|]. split; [rewrite PR, G; reflexivity|]. exact (OUT _ _ IT _ _ G).
Qed.
Print Assumptions C67_text_to_state.

(** Non-vacuity: a set of a Molniya satellite, and a date three weeks after its epoch. *)
Definition mol2 := of_string "2 28626  63.4000 286.9433 6877000 270.0000  10.6504  2.00620176  4891".
Definition mol : tle :=
  Tle (of_string "25544") 18 (Dec false 17035562296 (-8)) (Dec false 16717 (-8)) (Dec false 0 (-5)) (Dec false 10270 (-8))
      (Dec false 634000 (-4)) (Dec false 2869433 (-4)) (Dec false 6877000 (-7)) (Dec false 2700000 (-4)) (Dec false 106504 (-4)) (Dec false 200620176 (-8)).
Example C67_text_example :
  accurate exact_lm /\ well_written C25.iss1 mol2 mol /\ eccentric_usual mol /\ (exists x, epoch_days mol x /\ 25007 <= x <= 25008) /\
  civil july /\ in_span july /\ exists m, minutes_since_epoch mol july m /\ 30447 <= m <= 30448.
Proof.
  assert (D : dec_value (t_day mol) = 17035562296 / 100000000) by decv.
  split; [exact LibmExists.exact_lm_accurate|]. split.
  { destruct C28_example as ((C1 & C2 & C3 & C4 & C5 & C6 & _) & N1 & N2 & G). exists (of_string "00000"), (of_string "10270"). split; [|auto]. do 6 (split; [assumption|]).
    split; [eapply reads_of; reflexivity|]. split; [eapply reads_of; reflexivity|].
    split. { exists (of_string "6877000"), (of_string "6877000"). split; [apply columns_of; reflexivity|]. split; [exists [], []; repeat split|].
      split; [discriminate|]. split; [now apply NumFacts.all_digits_iff|reflexivity]. }
    split; [eapply reads_of; reflexivity|]. split; [eapply reads_of; reflexivity|]. eapply reads_of; reflexivity. }
  split.
  { assert (M : dec_value (t_motion mol) = 200620176 / 100000000) by decv. assert (E : dec_value (t_ecc mol) = 6877 / 10000) by decv.
    assert (I : dec_value (t_incl mol) = 634 / 10) by decv. assert (B : dec_value (t_bstar mol) = 10270 / 100000000) by decv.
    assert (N : dec_value (t_node mol) = 2869433 / 10000) by decv. assert (W : dec_value (t_argp mol) = 270) by decv. assert (A : dec_value (t_anomaly mol) = 106504 / 10000) by decv.
    assert (D1 : dec_value (t_ndot mol) = 16717 / 100000000) by decv. assert (D2 : dec_value (t_nddot mol) = 0) by decv.
    assert (Y : year_length (full_year (t_year mol)) = 365%Z) by reflexivity.
    assert (P : 200 <= Str3.perigee_height (tle_elements mol)).
    { assert (N0 : Str3.n0 (tle_elements mol) = dec_value (t_motion mol) * (2 * PI) / 1440) by reflexivity. assert (E0 : Str3.e0 (tle_elements mol) = dec_value (t_ecc mol)) by reflexivity. set (el := tle_elements mol) in *. clearbody el. rewrite E in E0. rewrite M in N0. clear - N0 E0.
      pose proof CalcFun.pi_num as PN. assert (N1 : 0 < Str3.n0 el <= 88 / 10000) by lra.
      pose proof (d0_wide el ltac:(lra) ltac:(lra)) as D. apply Rabs_le_inv in D.
      assert (A : 4 <= Str3.a el).
      { unfold Str3.a, Str3.two_thirds, Str3.n. replace (Str3.ke / (Str3.n0 el / (1 + Str3.d0 el))) with (Str3.ke * (1 + Str3.d0 el) / Str3.n0 el) by (field; lra).
        assert (E8 : 4 = Rpower 8 (2 / 3)). { replace 8 with (2 ^ 3) by ring. rewrite <- Rpower_pow by lra. rewrite Rpower_mult. replace (INR 3 * (2 / 3)) with (INR 2) by (simpl; lra). rewrite Rpower_pow by lra. ring. }
        rewrite E8. apply Rle_Rpower_l; [lra|]. split; [lra|]. apply (Rmult_le_reg_r (Str3.n0 el)); [lra|]. unfold Rdiv. rewrite Rmult_assoc, Rinv_l, Rmult_1_r by lra. unfold Str3.ke. nra. }
      unfold Str3.perigee_height, Str3.aE. rewrite E0. nra. }
    unfold eccentric_usual. rewrite M, E, I, B, N, W, A, D, D1, D2, Y. rewrite !Rabs_pos_eq by lra. repeat (split; [lra|]). exact P. }
  split.
  { eexists. split; [exists 24838%Z; split; [|reflexivity]|rewrite D; lra].
    apply CalendarFacts.days_from_iff; [unfold valid; cbn; lia|unfold valid; cbn; lia|reflexivity]. }
  split; [unfold civil, valid, dt_date, july; cbn; lia|]. split; [unfold in_span, before, dt_date, july; cbn; lia|].
  eexists. split.
  - exists 190%Z. split; [|reflexivity]. apply CalendarFacts.days_from_iff; [unfold valid; cbn; lia|unfold valid; cbn; lia|reflexivity].
  - rewrite D. change (tod july) with 43200%Z. lra.
Qed.
