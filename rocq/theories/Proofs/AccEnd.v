(** * From binary64 elements to a binary64 state: accuracy of the near-Earth model as a whole *)
From Coq Require Import ZArith QArith Reals Qreals Bool Lra Lia Psatz.
From Flocq Require Import Core IEEE754.BinarySingleNaN.
From Verif.Model Require Import Float Str Satrec Constants Vec3 Initl Sgp4 Sgp4init.
From Verif.Spec Require Import LibmAccuracy Sgp4Spec StateSpec NearAccuracy Str3Api.
From Verif.Spec Require Str3.
From Verif.Inst Require Import RInst RTac B64 B64Facts B64Calc ApxCalc.
From Verif.Proofs Require Import CalcFun CalcPow ApxFun AccInit AccNear AccSecular AccKepler AccWeek AccLow AccState AccTail Sgp4Errors Sgp4Frame InitElems InitFrame InitKind Str3Init Str3State AccSgp4 AccBoot LibmExists.
From Verif.Props Require C01.
Local Open Scope R_scope.

(** ** any history leads back to the freshly initialised record *)
Section G.
Context {F : Type} {FO : FloatOps F}.
Lemma fresh fuel (s0 s s1 s' : Satrec F) o r calls fuel' t res :
  sgp4init fuel s0 o = Done (s, r) -> after_calls s calls = Done s1 -> sgp4 fuel' s1 t = Done (s', res) ->
  exists s2, sgp4 fuel' (sgp4init_elements o s0) t = Done (s2, res).
Proof.
  intros H A P. pose proof (C01.C01_history_independence _ _ _ _ _ fuel' t A) as K. rewrite P in K. cbn [returned] in K.
  apply sgp4init_inv in H. destruct H as (a & H & E).
  assert (X : outcome_snd (sgp4 fuel' s t) = outcome_snd (sgp4 fuel' (sgp4init_elements o s0) t)).
  { rewrite <- (sgp4_history1 _ fuel' _ _ _ _ t H). rewrite E. destruct r; [apply sgp4_set_init|reflexivity]. }
  destruct (sgp4 fuel' s t) as [[s2 r2]| |]; try discriminate. cbn [returned] in K. injection K as <-. cbn [outcome_snd] in X.
  destruct (sgp4 fuel' (sgp4init_elements o s0) t) as [[s3 r3]| |]; try discriminate. injection X as <-. eauto.
Qed.
End G.

(** ** the recovered mean motion is positive *)
Lemma kozai_small el x : 0 <= Str3.e0 el <= 451 / 1000 -> 9 / 10 <= x -> Rabs (Str3.kozai el x) <= 3 / 1000.
Proof.
  intros He Hx. unfold Str3.kozai. set (c := Str3.theta el). assert (C : -1 <= c <= 1) by apply COS_bound. clearbody c.
  assert (B : 89 / 100 <= Str3.beta0 el). { unfold Str3.beta0. apply Rle_trans with (sqrt (89 / 100 * (89 / 100))); [rewrite sqrt_square; lra|]. apply sqrt_le_1_alt. nra. }
  set (b := Str3.beta0 el) in *. clearbody b.
  assert (B3 : 70 / 100 <= b ^ 3) by (assert (0 < b * b) by nra; assert (7921 / 10000 <= b * b) by nra; replace (b ^ 3) with (b * (b * b)) by ring; nra).
  assert (X2 : 81 / 100 <= x ^ 2) by nra.
  assert (I : 0 < / x ^ 2 <= 100 / 81) by (split; [apply Rinv_0_lt_compat; lra|replace (100 / 81) with (/ (81 / 100)) by field; apply Rinv_le_contravar; lra]).
  assert (J : 0 < / b ^ 3 <= 100 / 70) by (split; [apply Rinv_0_lt_compat; lra|replace (100 / 70) with (/ (70 / 100)) by field; apply Rinv_le_contravar; lra]).
  unfold Rdiv. rewrite !Rabs_mult. rewrite (Rabs_pos_eq (/ x ^ 2)), (Rabs_pos_eq (/ b ^ 3)) by lra.
  assert (T : Rabs (3 * c ^ 2 - 1) <= 2) by (apply Rabs_le; nra).
  assert (K : Rabs 3 * Rabs (/ 2) * Rabs Str3.k2 <= 82 / 100000) by (unfold Str3.k2, Str3.J2; rewrite !Rabs_pos_eq by lra; lra).
  assert (K0 : 0 <= Rabs 3 * Rabs (/ 2) * Rabs Str3.k2) by (repeat apply Rmult_le_pos; apply Rabs_pos).
  set (k := Rabs 3 * Rabs (/ 2) * Rabs Str3.k2) in *. clearbody k. pose proof (Rabs_pos (3 * c ^ 2 - 1)) as T0. set (T1 := Rabs (3 * c ^ 2 - 1)) in *. clearbody T1.
  set (ix := / x ^ 2) in *. set (ib := / b ^ 3) in *. clearbody ix ib.
  assert (k * ix <= 82 / 100000 * (100 / 81)) by (apply Rmult_le_compat; lra).
  assert (0 <= k * ix) by (apply Rmult_le_pos; lra).
  assert (k * ix * T1 <= 82 / 100000 * (100 / 81) * 2) by (apply Rmult_le_compat; lra).
  assert (0 <= k * ix * T1) by (apply Rmult_le_pos; lra).
  assert (k * ix * T1 * ib <= 82 / 100000 * (100 / 81) * 2 * (100 / 70)) by (apply Rmult_le_compat; lra). lra.
Qed.
Lemma d0_small el : 0 < Str3.n0 el <= 73 / 1000 -> 0 <= Str3.e0 el <= 451 / 1000 -> Rabs (Str3.d0 el) <= 3 / 1000.
Proof.
  intros Hn He. apply kozai_small; [exact He|].
  assert (A1 : 1 <= Str3.a1 el).
  { unfold Str3.a1, Str3.two_thirds. rewrite <- (Rpower_1 1) at 1 by lra. replace (Rpower 1 1) with (Rpower 1 (2 / 3)) by (unfold Rpower; rewrite ln_1; f_equal; ring).
    apply Rle_Rpower_l; [lra|]. split; [lra|]. apply Rmult_le_reg_r with (Str3.n0 el); [lra|]. unfold Rdiv. rewrite Rmult_assoc, Rinv_l by lra. unfold Str3.ke. lra. }
  pose proof (kozai_small el (Str3.a1 el) He ltac:(lra)) as D. unfold Str3.a0, Str3.d1. set (d := Str3.kozai el (Str3.a1 el)) in *. clearbody d.
  apply Rabs_le_inv in D. assert (0 <= d ^ 2 <= 9 / 1000000) by nra. assert (- (1 / 10000) <= d ^ 3 <= 1 / 10000) by (replace (d ^ 3) with (d * d ^ 2) by ring; nra).
  set (q := d ^ 2) in *. set (c := d ^ 3) in *. clearbody q c. nra.
Qed.
Lemma inside_apx x l h (ql qh : Q) : inside x l h -> Q2R ql <= l -> h <= Q2R qh -> apx x (B2R x) (Eb ql qh 0 0).
Proof. intros (F & I) A B. apply exact_apx; [exact F|lra]. Qed.
(** the exact elements as options for the exact model *)
Definition options_of (o : SGP4InitOptions b64) (el : Str3.Elements) : SGP4InitOptions R :=
  MkSGP4InitOptions (in_opsmode o) (in_satn o) (B2R (in_epoch o)) (Str3.Bstar el) (Str3.e0 el) (Str3.w0 el) (Str3.i0 el) (Str3.M0 el) (Str3.n0 el) (Str3.node0 el).
Lemma options_elements o el : elements (options_of o el) = el.
Proof. destruct el; reflexivity. Qed.
Lemma class_orbital el : in_class el -> orbital el.
Proof.
  intros (Hn & _ & He & _). assert (E : 0 <= Str3.e0 el <= 451 / 1000) by lra.
  pose proof (d0_small el ltac:(lra) E) as D. apply Rabs_le_inv in D. split; [lra|]. split; [lra|]. unfold Str3.n. apply Rdiv_lt_0_compat; lra.
Qed.
Lemma class_rp o el : in_class el -> 221 <= Str3.perigee_height el -> 10346 / 10000 <= ir_rp (@il _ ROps (options_of o el)).
Proof.
  intros O P. pose proof (class_orbital el O) as HO. rewrite <- (options_elements o el) in HO, P.
  pose proof (initl_rest_T (options_of o el) HO) as (_ & _ & _ & _ & _ & _ & _ & _ & R).
  rewrite (il_def (FO := ROps)). rewrite R. unfold Str3.perigee_height, Str3.aE in P. nra.
Qed.
Lemma class_rp_high o el : in_class el -> 400 <= Str3.perigee_height el -> 10627 / 10000 <= ir_rp (@il _ ROps (options_of o el)).
Proof.
  intros O P. pose proof (class_orbital el O) as HO. rewrite <- (options_elements o el) in HO, P.
  pose proof (initl_rest_T (options_of o el) HO) as (_ & _ & _ & _ & _ & _ & _ & _ & R).
  rewrite (il_def (FO := ROps)). rewrite R. unfold Str3.perigee_height, Str3.aE in P. nra.
Qed.
Lemma span_at_least el : 1440 <= span el <= 30240.
Proof. unfold span. destruct (Rle_dec _ _); lra. Qed.
Lemma class_rp_low o el : in_class el -> 157 <= Str3.perigee_height el <= 219 -> 10246 / 10000 <= ir_rp (@il _ ROps (options_of o el)) <= 103434 / 100000.
Proof.
  intros O P. pose proof (class_orbital el O) as HO. rewrite <- (options_elements o el) in HO, P.
  pose proof (initl_rest_T (options_of o el) HO) as (_ & _ & _ & _ & _ & _ & _ & _ & R).
  rewrite (il_def (FO := ROps)). rewrite R. unfold Str3.perigee_height, Str3.aE in P. split; nra.
Qed.
(** elements taken as they are *)
Lemma agree_self u tiny x : 0 <= u -> 0 <= tiny -> is_finite x = true -> agree u tiny x (B2R x).
Proof. intros U T F. split; [exact F|]. rewrite Rminus_eq_0, Rabs_R0. pose proof (Rabs_pos (B2R x)). nra. Qed.
Lemma ordinary_class o : ordinary o -> in_class (elements (exact o)) /\ rounded o (elements (exact o)).
Proof.
  intros ((Fn & Hn) & (Fi & Hi) & (Fe & He) & (Fb & Hb) & (Fw & Hw) & (Fm & Hm) & (Fd & Hd)).
  assert (T : 0 <= / 10 ^ 60) by (left; apply Rinv_0_lt_compat, pow_lt; lra).
  unfold in_class, rounded, elements, exact. cbn [in_xno in_xecco in_xinclo in_xmo in_xargpo in_xnodeo in_xbstar Str3.n0 Str3.e0 Str3.i0 Str3.M0 Str3.w0 Str3.node0 Str3.Bstar].
  split.
  - split; [exact Hn|]. split; [exact Hi|]. split; [exact He|]. repeat (split; [assumption|]). assumption.
  - cbv zeta. repeat split; try (apply agree_self; try assumption; lra); try assumption; apply agree_self; try assumption; lra.
Qed.
Lemma lit_round4 : B2R (b64_lit 1 (-4)) = round radix2 (SpecFloat.fexp prec emax) ZnearestE (1 / 10000).
Proof.
  assert (H : IZR 1 / IZR (10 ^ 4) <= bpow radix2 1023) by (apply Rle_trans with (bpow radix2 0); [simpl; lra|apply bpow_le; lia]).
  exact (proj1 (lit_dec_fin exact_lm 1 4 H)).
Qed.
(** no double lies between 1e-4 and the double nearest to it *)
Lemma same_side4 (x : b64) : B2R x <> B2R (b64_lit 1 (-4)) -> (B2R x <= B2R (b64_lit 1 (-4)) <-> B2R x <= 1 / 10000).
Proof.
  rewrite lit_round4. intros H. split; intros A.
  - destruct (Rle_or_lt (B2R x) (1 / 10000)) as [C|C]; [exact C|]. exfalso. apply H. apply Rle_antisym; [exact A|].
    rewrite <- (round_generic radix2 (SpecFloat.fexp prec emax) ZnearestE (B2R x)) by apply generic_format_B2R. apply round_le; [apply fexp_correct; reflexivity|apply valid_rnd_N|lra].
  - rewrite <- (round_generic radix2 (SpecFloat.fexp prec emax) ZnearestE (B2R x)) by apply generic_format_B2R. apply round_le; [apply fexp_correct; reflexivity|apply valid_rnd_N|lra].
Qed.
Lemma exact_side full o : (full = true -> B2R (in_xecco o) <> B2R (b64_lit 1 (-4))) -> same_side full o (elements (exact o)).
Proof. intros H Hf. exact (same_side4 _ (H Hf)). Qed.
Lemma agree_apx u tiny x a l h qu qt : agree u tiny x a -> u = Q2R qu -> tiny = Q2R qt -> 0 <= u -> 0 <= tiny -> Q2R l <= a <= Q2R h -> apx x a (Eb l h qu qt).
Proof.
  intros (F & E) -> -> U T I. split; [exact F|]. split; [exact I|]. cbn [rr ab]. split; [split; assumption|exact E].
Qed.
Lemma tiny_Q : / 10 ^ 60 = Q2R (1 # 10 ^ 60).
Proof.
  assert (E : 10 ^ 60 = IZR (Z.pos (10 ^ 60)%positive)) by (rewrite (pow_IZR 10 60); apply (f_equal IZR); vm_compute; reflexivity).
  rewrite E. unfold Q2R. cbn [Qnum Qden]. now rewrite Rmult_1_l.
Qed.

Lemma u6_Q : 6 / 10 ^ 16 = Q2R (6 # 10 ^ 16).
Proof.
  assert (E : 10 ^ 16 = IZR (Z.pos (10 ^ 16)%positive)) by (rewrite (pow_IZR 10 16); apply (f_equal IZR); vm_compute; reflexivity).
  rewrite E. unfold Q2R. cbn [Qnum Qden]. reflexivity.
Qed.
Lemma u1_Q : 12 / 10 ^ 17 = Q2R (12 # 10 ^ 17).
Proof.
  assert (E : 10 ^ 17 = IZR (Z.pos (10 ^ 17)%positive)) by (rewrite (pow_IZR 10 17); apply (f_equal IZR); vm_compute; reflexivity).
  rewrite E. unfold Q2R. cbn [Qnum Qden]. reflexivity.
Qed.

Section S.
Context (lm : libm) (ACC : accurate lm).
Notation B := (B64Ops lm).

Lemma class_rec full o el t s s' s0 s0' : in_class el -> rounded o el -> perigee_class full el -> same_side full o el -> inside t (- span el) (span el) ->
  s = @sgp4init_elements _ B o s0 -> s' = @sgp4init_elements _ ROps (options_of o el) s0' -> near_rec lm s s' t (B2R t).
Proof.
  intros O RD P SD Ht ES ES'. pose proof (class_rp o el O) as RPF. pose proof (class_rp_low o el O) as RPL. pose proof (class_rp_high o el O) as RPH. destruct O as (Hn & Hi & He & Hb & Hw & Hm & Hd).
  destruct RD as (Rn & Re & Ri & Rm & Rw & Rd & Rb).
  assert (T0 : 0 <= / 10 ^ 60) by (left; apply Rinv_0_lt_compat, pow_lt; lra).
  pose proof u6_Q as U6. pose proof u1_Q as U1.
  assert (Jn : apx (in_xno o) (in_xno (options_of o el)) in_no) by (apply (agree_apx _ _ _ _ _ _ _ _ Rn U6 (eq_sym Q2R_0)); [lra|lra|]; unfold Q2R; cbn [Qnum Qden inject_Z options_of in_xno]; lra).
  assert (Ji : apx (in_xinclo o) (in_xinclo (options_of o el)) in_inc) by (apply (agree_apx _ _ _ _ _ _ _ _ Ri U6 tiny_Q); [lra|lra|]; unfold Q2R; cbn [Qnum Qden inject_Z options_of in_xinclo]; lra).
  assert (Jb : apx (in_xbstar o) (in_xbstar (options_of o el)) in_bst) by (apply (agree_apx _ _ _ _ _ _ _ _ Rb U1 tiny_Q); [lra|lra|]; unfold Q2R; cbn [Qnum Qden inject_Z options_of in_xbstar]; lra).
  assert (Jw : apx (in_xargpo o) (in_xargpo (options_of o el)) in_ang) by (apply (agree_apx _ _ _ _ _ _ _ _ Rw U6 tiny_Q); [lra|lra|]; unfold Q2R; cbn [Qnum Qden inject_Z options_of in_xargpo]; lra).
  assert (Jm : apx (in_xmo o) (in_xmo (options_of o el)) in_ang) by (apply (agree_apx _ _ _ _ _ _ _ _ Rm U6 tiny_Q); [lra|lra|]; unfold Q2R; cbn [Qnum Qden inject_Z options_of in_xmo]; lra).
  assert (Jd : apx (in_xnodeo o) (in_xnodeo (options_of o el)) in_ang) by (apply (agree_apx _ _ _ _ _ _ _ _ Rd U6 tiny_Q); [lra|lra|]; unfold Q2R; cbn [Qnum Qden inject_Z options_of in_xnodeo]; lra).
  assert (Je : apx (in_xecco o) (in_xecco (options_of o el)) in_ecc).
  { apply (agree_apx _ _ _ _ _ _ _ _ Re U1 tiny_Q); [lra|lra|]. rewrite Q2R_0. replace (Q2R (451 # 1000)) with (451 / 1000) by (unfold Q2R; cbn [Qnum Qden]; lra). cbn [options_of in_xecco]. lra. }
  assert (JE : forall ql qh, Q2R ql <= Str3.e0 el <= Q2R qh -> apx (in_xecco o) (in_xecco (options_of o el)) (Eb ql qh (12 # 10 ^ 17) (1 # 10 ^ 60))).
  { intros ql qh IE. apply (agree_apx _ _ _ _ _ _ _ _ Re U1 tiny_Q); [lra|lra|exact IE]. }
  assert (FIN : forall b, sr_method s = MethodN -> sr_method s' = MethodN -> per_ok s s' -> apx (sr_no (st t s)) (sr_no (st (B2R t) s')) noB ->
    (forall c c' em em' am am' nm nm', sec_ok b c c' em em' am am' nm nm' -> sec_ok sbC c c' em em' am am' nm nm') ->
    sec_post lm b (st t s) (st (B2R t) s') (@sgp4_secular _ B (st t s)) (@sgp4_secular _ ROps (st (B2R t) s')) -> near_rec lm s s' t (B2R t)).
  { intros b M M' PO NO HC SP. split; [exact M|]. split; [exact M'|]. split; [exact PO|]. split; [exact NO|]. exact (near_secular lm b s s' t (B2R t) M M' HC SP). }
  destruct full.
  - cbn [perigee_class] in P. specialize (RPF P). specialize (SD eq_refl). clear RPL P.
    assert (Jt : 400 <= Str3.perigee_height el /\ apx t (B2R t) tweeks \/ apx t (B2R t) tday).
    { unfold span in Ht. destruct (Rle_dec 400 (Str3.perigee_height el)) as [C|C]; [left; split; [exact C|]|right]; apply (inside_apx _ _ _ _ _ Ht); unfold Q2R; cbn [Qnum Qden inject_Z]; lra. }
    set (br := Rlt_bool (1 / 10000) (Str3.e0 el)).
    assert (BR : @flt _ B (@L _ B 1 4) (in_xecco o) = br).
    { rewrite (lt_fin lm) by (exact (proj1 Re) || reflexivity). unfold br. destruct (Rlt_bool_spec (1 / 10000) (Str3.e0 el)) as [C|C].
      - apply Rlt_bool_true. apply Rnot_le_lt. intros D. apply SD in D. lra.
      - apply Rlt_bool_false. apply SD. exact C. }
    assert (BR2 : @flt _ ROps (@L _ ROps 1 4) (in_xecco (options_of o el)) = br) by (unfold br; cbn [options_of in_xecco]; rops; f_equal; lra).
    assert (BOX : forall P0 T ql qh nb db lo b, let E := Eb ql qh (12 # 10 ^ 17) (1 # 10 ^ 60) in near_spec lm P0 br E nb -> drag_spec lm lo nb db -> per_same nb ->
      (forall c c' em em' am am' nm nm', sec_ok b c c' em em' am am' nm nm' -> sec_ok sbC c c' em em' am am' nm nm') ->
      (forall a a', sec_in T E nb db a a' -> sec_post lm b a a' (@sgp4_secular _ B a) (@sgp4_secular _ ROps a')) ->
      Q2R ql <= Str3.e0 el <= Q2R qh -> 0 <= Q2R ql -> 0 < lo -> lo * (1 - Q2R ql) <= P0 -> 10346 / 10000 <= P0 -> P0 <= ir_rp (@il _ ROps (options_of o el)) -> apx t (B2R t) T -> near_rec lm s s' t (B2R t)).
    { intros P0 T ql qh nb db lo b E NS DS PS HC SA IE Q0 L0 LO PP RP Jt0.
      destruct (boot lm ACC P0 T br E nb db lo o (options_of o el) s0 s0' NS DS PS PP eq_refl eq_refl Jn Ji Je (JE _ _ IE) Jb Jw Jm Jd BR BR2 RP) with (s := s) (s' := s') as (M & M' & PO & SI); [cbn [options_of in_xecco]; nra|exact ES|exact ES'|].
      specialize (SI _ _ Jt0). pose proof (SA _ _ SI) as SP. destruct SI as (_ & _ & _ & _ & _ & _ & _ & NO & _).
      exact (FIN b M M' PO NO HC SP). }
    clear ES ES' Jn Ji Jb Jw Jm Jd Je JE FIN BR BR2 SD Hn Hi Hb Hw Hm Hd Ht Rn Re Ri Rm Rw Rd Rb.
    set (e := Str3.e0 el) in *.
    destruct Jt as [[JH Jt]|Jt]; [specialize (RPH JH)|].
    + destruct (Rle_lt_dec e (1 / 10000)) as [C|C].
      { assert (Z : br = false) by (apply Rlt_bool_false; exact C). clearbody br. subst br. apply (BOX (10627 / 10000) tweeks (0)%Q (1 # 10000)%Q wb1 wd1 (1062700 / 1000000) ws1 (near_either lm _ false _ _ (week_acc1 lm ACC)) (drag_week1 lm)); [repeat split|intros ? ? ? ? ? ? ? ?; apply weeks_common; tauto|exact (sec_week1 lm ACC)| | | | | |exact RPH|exact Jt]; unfold Q2R; cbn [Qnum Qden]; lra. }
      assert (Z : br = true) by (apply Rlt_bool_true; exact C). clearbody br. subst br.
      destruct (Rle_lt_dec e (1 / 1000)) as [C2|C2].
      { apply (BOX (10627 / 10000) tweeks (1 # 10000)%Q (1 # 1000)%Q wb2 wd2 (1062806 / 1000000) ws2 (week_acc2 lm ACC) (drag_week2 lm)); [repeat split|intros ? ? ? ? ? ? ? ?; apply weeks_common; tauto|exact (sec_week2 lm ACC)| | | | | |exact RPH|exact Jt]; unfold Q2R; cbn [Qnum Qden]; lra. }
      destruct (Rle_lt_dec e (2 / 100)) as [C3|C3].
      { apply (BOX (10627 / 10000) tweeks (1 # 1000)%Q (2 # 100)%Q wb3 wd3 (1063763 / 1000000) ws3 (near_either lm _ true _ _ (week_acc3 lm ACC)) (drag_week3 lm)); [repeat split|intros ? ? ? ? ? ? ? ?; apply weeks_common; tauto|exact (sec_week3 lm ACC)| | | | | |exact RPH|exact Jt]; unfold Q2R; cbn [Qnum Qden]; lra. }
      destruct (Rle_lt_dec e (1 / 10)) as [C4|C4].
      { apply (BOX (10627 / 10000) tweeks (2 # 100)%Q (1 # 10)%Q wb4 wd4 (1084387 / 1000000) ws4 (near_either lm _ true _ _ (week_acc4 lm ACC)) (drag_week4 lm)); [repeat split|intros ? ? ? ? ? ? ? ?; apply weeks_common; tauto|exact (sec_week4 lm ACC)| | | | | |exact RPH|exact Jt]; unfold Q2R; cbn [Qnum Qden]; lra. }
      destruct (Rle_lt_dec e (25 / 100)) as [C5|C5].
      { apply (BOX (10627 / 10000) tweeks (1 # 10)%Q (25 # 100)%Q wb5 wd5 (1180777 / 1000000) ws5 (near_either lm _ true _ _ (week_acc5 lm ACC)) (drag_week5 lm)); [repeat split|intros ? ? ? ? ? ? ? ?; apply weeks_common; tauto|exact (sec_week5 lm ACC)| | | | | |exact RPH|exact Jt]; unfold Q2R; cbn [Qnum Qden]; lra. }
      apply (BOX (10627 / 10000) tweeks (25 # 100)%Q (451 # 1000)%Q wb6 wd6 (1416933 / 1000000) ws6 (near_either lm _ true _ _ (week_acc6 lm ACC)) (drag_week6 lm)); [repeat split|intros ? ? ? ? ? ? ? ?; apply weeks_common; tauto|exact (sec_week6 lm ACC)| | | | | |exact RPH|exact Jt]; unfold Q2R; cbn [Qnum Qden]; lra.
    + destruct (Rle_lt_dec e (1 / 10000)) as [C|C].
      { assert (Z : br = false) by (apply Rlt_bool_false; exact C). clearbody br. subst br. apply (BOX (10346 / 10000) tday (0)%Q (1 # 10000)%Q nb1 db1 (1034600 / 1000000) sb1 (near_either lm _ false _ _ (near_acc1 lm ACC)) (drag_acc1 lm)); [repeat split|intros ? ? ? ? ? ? ? ?; apply sec_common; tauto|exact (sec_acc1 lm ACC)| | | | | |exact RPF|exact Jt]; unfold Q2R; cbn [Qnum Qden]; lra. }
      assert (Z : br = true) by (apply Rlt_bool_true; exact C). clearbody br. subst br.
      destruct (Rle_lt_dec e (1 / 1000)) as [C2|C2].
      { apply (BOX (10346 / 10000) tday (1 # 10000)%Q (1 # 1000)%Q nb2 db2 (1034703 / 1000000) sb2 (near_acc2 lm ACC) (drag_acc2 lm)); [repeat split|intros ? ? ? ? ? ? ? ?; apply sec_common; tauto|exact (sec_acc2 lm ACC)| | | | | |exact RPF|exact Jt]; unfold Q2R; cbn [Qnum Qden]; lra. }
      destruct (Rle_lt_dec e (2 / 100)) as [C3|C3].
      { apply (BOX (10346 / 10000) tday (1 # 1000)%Q (2 # 100)%Q nb3 db3 (1035635 / 1000000) sb3 (near_either lm _ true _ _ (near_acc3 lm ACC)) (drag_acc3 lm)); [repeat split|intros ? ? ? ? ? ? ? ?; apply sec_common; tauto|exact (sec_acc3 lm ACC)| | | | | |exact RPF|exact Jt]; unfold Q2R; cbn [Qnum Qden]; lra. }
      destruct (Rle_lt_dec e (1 / 10)) as [C4|C4].
      { apply (BOX (10346 / 10000) tday (2 # 100)%Q (1 # 10)%Q nb4 db4 (1055714 / 1000000) sb4 (near_either lm _ true _ _ (near_acc4 lm ACC)) (drag_acc4 lm)); [repeat split|intros ? ? ? ? ? ? ? ?; apply sec_common; tauto|exact (sec_acc4 lm ACC)| | | | | |exact RPF|exact Jt]; unfold Q2R; cbn [Qnum Qden]; lra. }
      destruct (Rle_lt_dec e (25 / 100)) as [C5|C5].
      { apply (BOX (10346 / 10000) tday (1 # 10)%Q (25 # 100)%Q nb5 db5 (1149555 / 1000000) sb5 (near_either lm _ true _ _ (near_acc5 lm ACC)) (drag_acc5 lm)); [repeat split|intros ? ? ? ? ? ? ? ?; apply sec_common; tauto|exact (sec_acc5 lm ACC)| | | | | |exact RPF|exact Jt]; unfold Q2R; cbn [Qnum Qden]; lra. }
      apply (BOX (10346 / 10000) tday (25 # 100)%Q (451 # 1000)%Q nb6 db6 (1379466 / 1000000) sb6 (near_either lm _ true _ _ (near_acc6 lm ACC)) (drag_acc6 lm)); [repeat split|intros ? ? ? ? ? ? ? ?; apply sec_common; tauto|exact (sec_acc6 lm ACC)| | | | | |exact RPF|exact Jt]; unfold Q2R; cbn [Qnum Qden]; lra.
  - cbn [perigee_class] in P. specialize (RPL P). clear RPF RPH SD.
    assert (Jt : apx t (B2R t) (Eb (-1440) 1440 0 0)).
    { unfold span in Ht. destruct (Rle_dec 400 (Str3.perigee_height el)) as [C|C]; [lra|]. apply (inside_apx _ _ _ _ _ Ht); unfold Q2R; cbn [Qnum Qden inject_Z]; lra. }
    clear P.
    assert (BOX : forall ql qh lb b, let E := Eb ql qh (12 # 10 ^ 17) (1 # 10 ^ 60) in low_spec lm E lb -> lper_same lb ->
      (forall c c' em em' am am' nm nm', sec_ok b c c' em em' am am' nm nm' -> sec_ok sbC c c' em em' am am' nm nm') ->
      (forall a a', low_in E lb a a' -> sec_post lm b a a' (@sgp4_secular _ B a) (@sgp4_secular _ ROps a')) ->
      Q2R ql <= Str3.e0 el <= Q2R qh -> near_rec lm s s' t (B2R t)).
    { intros ql qh lb b E NS PS HC SA IE.
      destruct (boot_low lm ACC E lb o (options_of o el) s0 s0' NS PS eq_refl eq_refl Jn Ji Je (JE _ _ IE) Jb Jw Jm Jd RPL) with (s := s) (s' := s') as (M & M' & PO & SI); [exact ES|exact ES'|].
      specialize (SI _ _ Jt). pose proof (SA _ _ SI) as SP. destruct SI as (_ & _ & _ & _ & _ & _ & _ & NO & _).
      exact (FIN b M M' PO NO HC SP). }
    clear ES ES' RPL Jn Ji Jb Jw Jm Jd Jt Je JE FIN Hn Hi Hb Hw Hm Hd Ht Rn Re Ri Rm Rw Rd Rb.
    set (e := Str3.e0 el) in *.
    destruct (Rle_lt_dec e (1 / 1000)) as [C1|C1].
    { apply (BOX (0)%Q (1 # 1000)%Q lb1 sl1 (low_acc1 lm ACC)); [repeat split|intros ? ? ? ? ? ? ? ?; apply low_common; tauto|exact (low_sec1 lm ACC)|unfold Q2R; cbn [Qnum Qden]; lra]. }
    destruct (Rle_lt_dec e (3 / 1000)) as [C2|C2].
    { apply (BOX (1 # 1000)%Q (3 # 1000)%Q lb2 sl2 (low_acc2 lm ACC)); [repeat split|intros ? ? ? ? ? ? ? ?; apply low_common; tauto|exact (low_sec2 lm ACC)|unfold Q2R; cbn [Qnum Qden]; lra]. }
    destruct (Rle_lt_dec e (1 / 125)) as [C3|C3].
    { apply (BOX (3 # 1000)%Q (1 # 125)%Q lb3 sl3 (low_acc3 lm ACC)); [repeat split|intros ? ? ? ? ? ? ? ?; apply low_common; tauto|exact (low_sec3 lm ACC)|unfold Q2R; cbn [Qnum Qden]; lra]. }
    destruct (Rle_lt_dec e (1 / 50)) as [C4|C4].
    { apply (BOX (1 # 125)%Q (1 # 50)%Q lb4 sl4 (low_acc4 lm ACC)); [repeat split|intros ? ? ? ? ? ? ? ?; apply low_common; tauto|exact (low_sec4 lm ACC)|unfold Q2R; cbn [Qnum Qden]; lra]. }
    destruct (Rle_lt_dec e (1 / 20)) as [C5|C5].
    { apply (BOX (1 # 50)%Q (1 # 20)%Q lb5 sl5 (low_acc5 lm ACC)); [repeat split|intros ? ? ? ? ? ? ? ?; apply low_common; tauto|exact (low_sec5 lm ACC)|unfold Q2R; cbn [Qnum Qden]; lra]. }
    destruct (Rle_lt_dec e (1 / 10)) as [C6|C6].
    { apply (BOX (1 # 20)%Q (1 # 10)%Q lb6 sl6 (low_acc6 lm ACC)); [repeat split|intros ? ? ? ? ? ? ? ?; apply low_common; tauto|exact (low_sec6 lm ACC)|unfold Q2R; cbn [Qnum Qden]; lra]. }
    destruct (Rle_lt_dec e (1 / 5)) as [C7|C7].
    { apply (BOX (1 # 10)%Q (1 # 5)%Q lb7 sl7 (low_acc7 lm ACC)); [repeat split|intros ? ? ? ? ? ? ? ?; apply low_common; tauto|exact (low_sec7 lm ACC)|unfold Q2R; cbn [Qnum Qden]; lra]. }
    destruct (Rle_lt_dec e (8 / 25)) as [C8|C8].
    { apply (BOX (1 # 5)%Q (8 # 25)%Q lb8 sl8 (low_acc8 lm ACC)); [repeat split|intros ? ? ? ? ? ? ? ?; apply low_common; tauto|exact (low_sec8 lm ACC)|unfold Q2R; cbn [Qnum Qden]; lra]. }
    apply (BOX (8 # 25)%Q (451 # 1000)%Q lb9 sl9 (low_acc9 lm ACC)); [repeat split|intros ? ? ? ? ? ? ? ?; apply low_common; tauto|exact (low_sec9 lm ACC)|unfold Q2R; cbn [Qnum Qden]; lra].
Qed.
End S.
