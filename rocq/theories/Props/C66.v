(** * C66: ranges and Doppler factors in binary64, from vectors and from the text of an element set *)
From Coq Require Import ZArith QArith Reals Qreals List Bool Lra Lia Psatz.
From Flocq Require Import Core IEEE754.BinarySingleNaN.
From Verif.Model Require Import Float Str Satrec Constants Vec3 Ext Gstime Transforms Doppler Io Propagate Sgp4 Sgp4init.
From Verif.Spec Require Import LibmAccuracy Vectors3 Calendar Str3Api PeriodicSpec NearAccuracy DeepAccuracy TleSpec.
From Verif.Spec Require Str3.
From Verif.Inst Require Import RInst RTac B64 B64Facts B64Calc.
From Verif.Proofs Require Import CalcFun CalcPow CalcAngle TransformFacts FrameR.
From Verif.Props Require Import C08 C15 C22 C40 C47 C54 C55 C56 C58 C61 C63 C65.
From Verif.Props Require C25 C28 C60.
From Verif.Proofs Require LibmExists.
Local Open Scope R_scope.

Section Range.
Context (lm : libm) (ACC : accurate lm).
Notation B := (B64Ops lm).
Notation fin := (@is_finite prec emax).
Lemma rap_pow2 x : fin x = true -> Rabs (B2R x) <= 2 ^ 300 -> rap (@fpow _ B x (@L _ B 2 0)) (B2R x * B2R x) (/ 2 ^ 51) (/ 2 ^ 200).
Proof.
  intros F H. pose proof (Rabs_pos (B2R x)) as P. assert (Q : 0 <= B2R x * B2R x <= 2 ^ 800).
  { split; [nra|]. rewrite <- (Rabs_pos_eq (B2R x * B2R x)), Rabs_mult by nra. replace (2 ^ 800) with (2 ^ 300 * 2 ^ 500) by (rewrite <- pow_add; reflexivity).
    assert (2 ^ 300 <= 2 ^ 500) by (apply Rle_pow; [lra|lia]). apply Rmult_le_compat; lra. }
  destruct (lit_int_fin lm 2) as [V2 F2]; [lia|].
  pose proof (acc_pow lm ACC x (@L _ B 2 0) F F2) as A. rewrite V2, Rpow_2 in A. replace (B2R x ^ 2) with (B2R x * B2R x) in A by ring. rewrite (Rabs_pos_eq (B2R x * B2R x)) in A by lra.
  destruct A as [A1 A2]; [right; exists 2%nat; split; [lia|reflexivity]| |].
  - assert (2 ^ 800 <= 2 ^ 1000) by (apply Rle_pow; [lra|lia]). lra.
  - split; [exact A1|]. split; [exact Q|]. exact A2.
Qed.
Lemma norm3_pow x y z : fin x = true -> fin y = true -> fin z = true ->
  Rabs (B2R x) <= 2 ^ 300 -> Rabs (B2R y) <= 2 ^ 300 -> Rabs (B2R z) <= 2 ^ 300 ->
  let n := sqrt (B2R x * B2R x + B2R y * B2R y + B2R z * B2R z) in 1 / 1000 <= n ->
  let r := @fsqrt _ B (@fadd _ B (@fadd _ B (@fpow _ B x (@L _ B 2 0)) (@fpow _ B y (@L _ B 2 0))) (@fpow _ B z (@L _ B 2 0))) in
  fin r = true /\ Rabs (B2R r - n) <= n * (11 / 2 ^ 54).
Proof.
  intros F1 F2 F3 H1 H2 H3 n Hn r. pose proof (rap_pow2 x F1 H1) as R1. pose proof (rap_pow2 y F2 H2) as R2. pose proof (rap_pow2 z F3 H3) as R3.
  assert (P : forall w : R, Rabs w <= 2 ^ 300 -> 0 <= w * w <= 2 ^ 600).
  { intros w W. split; [nra|]. rewrite <- (Rabs_pos_eq (w * w)), Rabs_mult by nra. pose proof (Rabs_pos w). replace (2 ^ 600) with (2 ^ 300 * 2 ^ 300) by (rewrite <- pow_add; reflexivity). apply Rmult_le_compat; lra. }
  pose proof (P _ H1) as P1. pose proof (P _ H2) as P2. pose proof (P _ H3) as P3. clear P.
  assert (BG : 3 * 2 ^ 600 <= 2 ^ 800). { replace (2 ^ 800) with (2 ^ 200 * 2 ^ 600) by (rewrite <- pow_add; reflexivity). assert (3 <= 2 ^ 200) by (apply Rle_trans with (2 ^ 2); [lra|apply Rle_pow; [lra|lia]]). assert (0 < 2 ^ 600) by (apply pow_lt; lra). nra. }
  assert (T0 : 0 < / 2 ^ 200 <= / 2 ^ 100). { split; [apply Rinv_0_lt_compat, pow_lt; lra|]. apply Rinv_le_contravar; [apply pow_lt; lra|apply Rle_pow; [lra|lia]]. }
  assert (T1 : / 2 ^ 100 <= / 2 ^ 70 / 1000 / 1000) by (cbn -[IZR]; lra).
  assert (R12 := rap_add lm _ _ _ _ _ _ R1 R2). destruct R12 as (F12 & A12 & E12); [cbn -[IZR]; lra|lra|lra|].
  assert (R3' : rap (@fpow _ B z (@L _ B 2 0)) (B2R z * B2R z) (/ 2 ^ 51 + / 2 ^ 52) (4 * / 2 ^ 200)).
  { destruct R3 as (F & A & E). split; [exact F|]. split; [exact A|]. eapply Rle_trans; [exact E|]. assert (0 < / 2 ^ 52) by (cbn -[IZR]; lra). nra. }
  destruct (rap_add lm _ _ _ _ _ _ (conj F12 (conj A12 E12)) R3') as (FS & AS & ES); [cbn -[IZR]; lra|lra|lra|].
  set (S := @fadd _ B (@fadd _ B (@fpow _ B x (@L _ B 2 0)) (@fpow _ B y (@L _ B 2 0))) (@fpow _ B z (@L _ B 2 0))) in *.
  set (m := B2R x * B2R x + B2R y * B2R y + B2R z * B2R z) in *. assert (Hm : 1 / 1000000 <= m).
  { unfold n in Hn. assert (M0 : 0 <= m) by lra. pose proof (sqrt_sqrt m M0). nra. }
  assert (NN : n * n = m) by (apply sqrt_sqrt; lra). clearbody n m S.
  assert (ES' : Rabs (B2R S - m) <= m * (33 / 2 ^ 55)).
  { eapply Rle_trans; [exact ES|]. set (t := / 2 ^ 200) in *. set (w := / 2 ^ 100) in *. clearbody t w. assert (K : 16 * t <= m * / 2 ^ 60) by (clear - T0 T1 Hm; cbn -[IZR] in *; lra). cbn -[IZR] in K |- *. lra. }
  clear ES. assert (SP : 0 <= B2R S) by (apply Rabs_le_inv in ES'; cbn -[IZR] in ES'; lra).
  pose proof (Bsqrt_correct prec emax _ _ mode_NE S) as (V & FV & _). change (Bsqrt mode_NE S) with r in *.
  assert (FR : fin r = true). { rewrite FV. destruct S as [s|s| |s mm ee he]; try discriminate; try reflexivity. destruct s; [|reflexivity]. exfalso. revert SP. cbn. unfold F2R. cbn. intros SP. assert (IZR (Z.neg mm) * bpow radix2 ee < 0); [|lra]. pose proof (bpow_gt_0 radix2 ee). assert (IZR (Z.neg mm) < 0) by (apply IZR_lt; lia). nra. }
  split; [exact FR|]. rewrite V. change (round radix2 (SpecFloat.fexp prec emax) (round_mode mode_NE) (sqrt (B2R S))) with (rnd (sqrt (B2R S))).
  pose proof (rnd_fine (sqrt (B2R S))) as RF. assert (U : bpow radix2 (-53) = / 2 ^ 53) by (rewrite pow_IZR; reflexivity). rewrite U in RF.
  pose proof (sqrt_pos (B2R S)) as SQ. pose proof (sqrt_sqrt (B2R S) SP) as SS. set (q := sqrt (B2R S)) in *. rewrite (Rabs_pos_eq q) in RF by exact SQ.
  assert (Q1 : Rabs (q - n) <= n * (34 / 2 ^ 56)).
  { assert (C0 : Rabs (q - n) <= n * (33 / 2 ^ 55)).
    { apply (Rmult_le_reg_r (q + n)); [lra|]. rewrite <- (Rabs_pos_eq (q + n)) at 1 by lra. rewrite <- Rabs_mult. replace ((q - n) * (q + n)) with (B2R S - m) by (rewrite <- NN, <- SS; ring).
      eapply Rle_trans; [exact ES'|]. rewrite <- NN. assert (0 < 33 / 2 ^ 55) by (cbn -[IZR]; lra). nra. }
    apply Rabs_le_inv in C0. assert (QL : n * (2 - 33 / 2 ^ 55) <= q + n) by lra.
    apply (Rmult_le_reg_r (q + n)); [lra|]. rewrite <- (Rabs_pos_eq (q + n)) at 1 by lra. rewrite <- Rabs_mult. replace ((q - n) * (q + n)) with (B2R S - m) by (rewrite <- NN, <- SS; ring).
    eapply Rle_trans; [exact ES'|]. rewrite <- NN. apply Rle_trans with (n * (34 / 2 ^ 56) * (n * (2 - 33 / 2 ^ 55))).
    - replace (n * (34 / 2 ^ 56) * (n * (2 - 33 / 2 ^ 55))) with (n * n * (34 / 2 ^ 56 * (2 - 33 / 2 ^ 55))) by ring. apply Rmult_le_compat_l; [nra|]. cbn -[IZR]. lra.
    - apply Rmult_le_compat_l; [|exact QL]. apply Rmult_le_pos; [lra|]. cbn -[IZR]. lra. }
  pose proof tiny as TN. set (t := / 2 ^ 200) in *. set (w := / 2 ^ 100) in *. set (b := bpow radix2 (-1074)) in *. clearbody t w b.
  replace (rnd q - n) with ((rnd q - q) + (q - n)) by ring. eapply Rle_trans; [apply Rabs_triang|]. apply Rabs_le_inv in Q1. assert (Q2 := Rabs_le _ _ Q1).
  assert (BN : b <= n * / 2 ^ 60) by (clear - TN T0 T1 Hn; cbn -[IZR] in *; lra). clear - BN RF Q1 Q2 Hn. unfold Rdiv. cbn -[IZR] in *. lra.
Qed.

Definition within3 (m : R) (v : Vec3 b64) : Prop := within m (v_x v) /\ within m (v_y v) /\ within m (v_z v).
Lemma sub_err x y : within 1000000 x -> within 1000000 y ->
  within 2000001 (@fsub _ B x y) /\ Rabs (B2R (@fsub _ B x y) - (B2R x - B2R y)) <= Rabs (B2R x - B2R y) * / 2 ^ 53 + / 2 ^ 200.
Proof.
  intros (F1 & H1) (F2 & H2). apply Rabs_le_inv in H1, H2. assert (H3 : Rabs (B2R x - B2R y) <= 2000000) by (apply Rabs_le; lra).
  destruct (sub_fin lm x y F1 F2) as [V FV].
  { eapply Rle_trans; [exact H3|]. apply Rle_trans with (bpow radix2 21); [cbn; lra|apply bpow_le; lia]. }
  pose proof (rnd_fine (B2R x - B2R y)) as RF. pose proof tiny as TN. assert (U : bpow radix2 (-53) = / 2 ^ 53) by (rewrite pow_IZR; reflexivity). rewrite U in RF. rewrite <- V in RF.
  assert (E : Rabs (B2R (@fsub _ B x y) - (B2R x - B2R y)) <= Rabs (B2R x - B2R y) * / 2 ^ 53 + / 2 ^ 200) by lra. split; [|exact E]. split; [exact FV|].
  assert (T : / 2 ^ 200 <= / 2 ^ 3) by (apply Rinv_le_contravar; [apply pow_lt; lra|apply Rle_pow; [lra|lia]]). set (t := / 2 ^ 200) in *. clearbody t.
  set (w := B2R x - B2R y) in *. clearbody w. apply Rabs_le_inv in H3. assert (Rabs w <= 2000000) by (apply Rabs_le; lra). apply Rabs_le_inv in E. apply Rabs_le. clear - E H3 H T. cbn -[IZR] in *. lra.
Qed.
Lemma range_err a b : within3 1000000 a -> within3 1000000 b ->
  let n := norm (minus (exact_vec a) (exact_vec b)) in 1 / 100 <= n ->
  fin (@vrange _ B a b) = true /\ Rabs (B2R (@vrange _ B a b) - n) <= n / 2 ^ 50.
Proof.
  intros (A1 & A2 & A3) (B1 & B2 & B3) n Hn. destruct (sub_err _ _ A1 B1) as ((F1 & W1) & E1). destruct (sub_err _ _ A2 B2) as ((F2 & W2) & E2). destruct (sub_err _ _ A3 B3) as ((F3 & W3) & E3).
  unfold vrange. set (x := @fsub _ B (v_x a) (v_x b)) in *. set (y := @fsub _ B (v_y a) (v_y b)) in *. set (z := @fsub _ B (v_z a) (v_z b)) in *.
  assert (BIG : forall w, Rabs w <= 2000001 -> Rabs w <= 2 ^ 300) by (intros w Hw; assert (2000001 <= 2 ^ 300); [apply Rle_trans with (2 ^ 21); [cbn; lra|apply Rle_pow; [lra|lia]]|lra]).
  assert (T : 0 < / 2 ^ 200 <= / 2 ^ 70). { split; [apply Rinv_0_lt_compat, pow_lt; lra|]. apply Rinv_le_contravar; [apply pow_lt; lra|apply Rle_pow; [lra|lia]]. }
  pose proof (norm3_pow x y z F1 F2 F3 (BIG _ W1) (BIG _ W2) (BIG _ W3)) as NP. cbv zeta in NP. clear BIG.
  set (r := fsqrt _) in *. clearbody r x y z. set (t := / 2 ^ 200) in *. clearbody t.
  set (X := B2R (v_x a) - B2R (v_x b)) in *. set (Y := B2R (v_y a) - B2R (v_y b)) in *. set (Z := B2R (v_z a) - B2R (v_z b)) in *.
  assert (NE : n = sqrt (X * X + Y * Y + Z * Z)) by (unfold n, norm, dot, minus, plus, scale, exact_vec, X, Y, Z; cbn [v_x v_y v_z]; f_equal; ring).
  assert (NN : n * n = X * X + Y * Y + Z * Z) by (rewrite NE; apply sqrt_sqrt; nra).
  set (u := / 2 ^ 53) in *. assert (HU : u = / 2 ^ 53) by reflexivity. clearbody u n X Y Z.
  assert (SQ : forall d w, Rabs d <= Rabs w * u + t -> d * d <= 2 * (w * w) * (u * u) + 2 * (t * t)).
  { intros d w H. assert (Q : d * d <= (Rabs w * u + t) * (Rabs w * u + t)). { rewrite <- (Rabs_pos_eq (d * d)) by nra. rewrite Rabs_mult. pose proof (Rabs_pos d). nra. }
    assert (WW : Rabs w * Rabs w = w * w) by (rewrite <- Rabs_mult; apply Rabs_pos_eq; nra). rewrite <- WW. set (v := Rabs w) in *. pose proof (Rle_0_sqr (v * u - t)) as S. unfold Rsqr in S. clearbody v. nra. }
  pose proof (SQ _ _ E1) as S1. pose proof (SQ _ _ E2) as S2. pose proof (SQ _ _ E3) as S3.
  assert (TU : t <= n * u * / 100).
  { subst u. clear - T Hn. apply Rle_trans with (/ 2 ^ 70); [tauto|]. apply Rle_trans with (1 / 100 * / 2 ^ 53 * / 100); [cbn -[IZR]; lra|]. assert (0 < / 2 ^ 53) by (apply Rinv_0_lt_compat, pow_lt; lra). nra. }
  assert (U0 : 0 < u) by (subst u; apply Rinv_0_lt_compat, pow_lt; lra).
  pose proof (norm_close X Y Z (B2R x) (B2R y) (B2R z) (n * (u * (3 / 2)))) as NC. rewrite <- NE in NC.
  assert (TT : t * t <= (n * u * / 100) * (n * u * / 100)) by (apply Rmult_le_compat; lra).
  specialize (NC ltac:(apply Rmult_le_pos; lra)).
  assert (NC' : Rabs (sqrt (B2R x * B2R x + B2R y * B2R y + B2R z * B2R z) - n) <= n * (u * (3 / 2))).
  { apply NC. eapply Rle_trans; [apply Rplus_le_compat; [apply Rplus_le_compat; [exact S1|exact S2]|exact S3]|].
    replace (2 * (X * X) * (u * u) + 2 * (t * t) + (2 * (Y * Y) * (u * u) + 2 * (t * t)) + (2 * (Z * Z) * (u * u) + 2 * (t * t))) with (2 * (u * u) * (n * n) + 6 * (t * t)) by (rewrite NN; ring).
    replace (n * (u * (3 / 2)) * (n * (u * (3 / 2)))) with (9 / 4 * ((n * u) * (n * u))) by field. replace (2 * (u * u) * (n * n)) with (2 * ((n * u) * (n * u))) by ring.
    assert (0 <= (n * u) * (n * u)) by nra. lra. }
  set (n' := sqrt (B2R x * B2R x + B2R y * B2R y + B2R z * B2R z)) in *. clearbody n'. apply Rabs_le_inv in NC'.
  assert (UL : u <= / 1000) by (subst u; cbn -[IZR]; lra). destruct (NP ltac:(nra)) as (FR & ER). split; [exact FR|]. clear - NC' ER HU Hn.
  apply Rabs_le_inv in ER. apply Rabs_le. subst u. cbn -[IZR] in *. lra.
Qed.
End Range.

(** The distance between two points with coordinates up to a million km, at least 10 m apart: relative error
    at most 2^-50. *)
Theorem C66_range :
  forall (lm : libm) (a b : Vec3 b64), accurate lm -> within3 1000000 a -> within3 1000000 b ->
    let n := norm (minus (exact_vec a) (exact_vec b)) in 1 / 100 <= n -> close (n / 2 ^ 50) (vrange (FO := B64Ops lm) a b) n.
Proof. intros lm a b ACC HA HB n Hn. exact (range_err lm ACC a b HA HB Hn). Qed.
Print Assumptions C66_range.

Section Dop.
Context (lm : libm) (ACC : accurate lm).
Notation B := (B64Ops lm).
Notation fin := (@is_finite prec emax).
Lemma add_err x y : within 100000 x -> within 1000 y ->
  within 101001 (@fadd _ B x y) /\ Rabs (B2R (@fadd _ B x y) - (B2R x + B2R y)) <= 12 / 10 ^ 12.
Proof.
  intros (F1 & H1) (F2 & H2). apply Rabs_le_inv in H1, H2. assert (H3 : Rabs (B2R x + B2R y) <= 101000) by (apply Rabs_le; lra).
  destruct (add_fin lm x y F1 F2) as [V FV].
  { eapply Rle_trans; [exact H3|]. apply Rle_trans with (bpow radix2 21); [cbn; lra|apply bpow_le; lia]. }
  pose proof (rnd_fine (B2R x + B2R y)) as RF. pose proof tiny as TN. assert (U : bpow radix2 (-53) = / 2 ^ 53) by (rewrite pow_IZR; reflexivity). rewrite U in RF. rewrite <- V in RF.
  assert (T : / 2 ^ 200 <= / 2 ^ 60) by (apply Rinv_le_contravar; [apply pow_lt; lra|apply Rle_pow; [lra|lia]]). set (t := / 2 ^ 200) in *. set (b := bpow radix2 (-1074)) in *. clearbody t b.
  unfold within. set (z := B2R (@fadd _ B x y)) in *. set (w := B2R x + B2R y) in *. clearbody w z.
  assert (E : Rabs (z - w) <= 12 / 10 ^ 12) by (clear - RF TN T H3; cbn -[IZR] in *; lra). split; [|exact E]. split; [exact FV|]. clear - E H3. apply Rabs_le_inv in H3, E. apply Rabs_le. cbn -[IZR] in *. lra.
Qed.
Definition rateb : bd := Bd (-1800 # 1) (1800 # 1) (73 # 10 ^ 11).
Lemma sign_rel x a : rel x a rateb -> rel (@fmul _ B x (@sign _ B x)) (Rabs a) (Bd 0 1800 (74 # 10 ^ 11)).
Proof.
  intros H. destruct H as (F & I & E). cbn [lo hi er rateb] in I, E.
  assert (XB : -1801 <= B2R x <= 1801). { apply Rabs_le_inv in E. unfold Q2R in I, E. cbn -[IZR] in I, E. lra. }
  assert (EX : rel x (B2R x) (Bd (-1801) 1801 0)). { apply rel_exact; [exact F|]. unfold Q2R. cbn -[IZR]. lra. }
  assert (P : rel (@fmul _ B x (@sign _ B x)) (Rabs (B2R x)) (Bd (-1810) 1810 (6 # 10 ^ 12))).
  { destruct (lit_int_fin lm 0) as [Z1 Z2]; [lia|]. unfold sign. destruct (@fle _ B (@L _ B 0 0) x) eqn:C.
    - rewrite (le_fin lm _ _ Z2 F), Z1 in C. assert (X0 : 0 <= B2R x) by (revert C; case Rle_bool_spec; [auto|discriminate]).
      replace (Rabs (B2R x)) with (@fmul _ ROps (B2R x) (@L _ ROps 1 0)) by (rops; rewrite Rabs_pos_eq by exact X0; ring). genrel EX. clear - EX ACC. cwide.
    - rewrite (le_fin lm _ _ Z2 F), Z1 in C. assert (X0 : B2R x < 0) by (revert C; case Rle_bool_spec; [discriminate|auto]).
      replace (Rabs (B2R x)) with (@fmul _ ROps (B2R x) (@fneg _ ROps (@L _ ROps 1 0))) by (rops; rewrite Rabs_left by exact X0; ring). genrel EX. clear - EX ACC. cwide. }
  destruct P as (FP & _ & EP). cbn [er] in EP. split; [exact FP|]. cbn [lo hi er]. set (p := B2R (@fmul _ B x (@sign _ B x))) in *. clearbody p. set (X := B2R x) in *. clearbody X.
  pose proof (Rabs_triang_inv2 X a) as TI. split.
  - split; [rewrite Q2R_0; apply Rabs_pos|]. apply Rabs_le. unfold Q2R in I |- *. cbn -[IZR] in I |- *. lra.
  - replace (p - Rabs a) with ((p - Rabs X) + (Rabs X - Rabs a)) by ring. eapply Rle_trans; [apply Rabs_triang|]. unfold Q2R in *. cbn -[IZR] in *. lra.
Qed.
Lemma big_norm x y z m : 0 <= m -> Rabs x <= m -> Rabs y <= m -> Rabs z <= m -> norm (MkVec3 x y z) <= 7 / 4 * m.
Proof.
  intros M H1 H2 H3. apply Rabs_le_inv in H1, H2, H3. apply norm_le3; [lra|].
  assert (SQ : forall d, - m <= d <= m -> d * d <= m * m) by (intros; nra). pose proof (SQ _ H1). pose proof (SQ _ H2). pose proof (SQ _ H3). nra.
Qed.
Lemma within3_le m m' v : m <= m' -> within3 m v -> within3 m' v.
Proof. intros H ((A & B1) & (C & D) & (E & G)). repeat split; try assumption; lra. Qed.
Lemma doppler_err l p v : within3 110000 l -> within3 100000 p -> within3 1000 v ->
  1 / 50 <= norm (minus (exact_vec p) (exact_vec l)) -> 1 / 50 <= norm (minus (plus (exact_vec p) (exact_vec v)) (exact_vec l)) ->
  rel (@doppler_factor _ B l p v) (@doppler_factor _ ROps (exact_vec l) (exact_vec p) (exact_vec v)) (Bd (9 # 10) 2 (3 # 10 ^ 15)).
Proof.
  intros HL HP HV N1 N2. rewrite doppler_R. unfold doppler_factor. cbv zeta.
  assert (LE : forall n, 1 / 50 - 1 / 1000 <= n -> 1 / 100 <= n) by (intros; lra).
  destruct (range_err lm ACC p l (within3_le 100000 1000000 _ ltac:(lra) HP) (within3_le 110000 1000000 _ ltac:(lra) HL) (LE _ ltac:(eapply Rle_trans; [|exact N1]; lra))) as (FC & EC).
  destruct HP as (P1 & P2 & P3). destruct HV as (V1 & V2 & V3).
  destruct (add_err _ _ P1 V1) as (W1 & A1). destruct (add_err _ _ P2 V2) as (W2 & A2). destruct (add_err _ _ P3 V3) as (W3 & A3).
  set (q := vadd p v). assert (HQ : within3 101001 q) by (unfold q, vadd; split; [exact W1|]; split; [exact W2|exact W3]).
  assert (D : norm (minus (exact_vec q) (plus (exact_vec p) (exact_vec v))) <= 7 / 4 * (12 / 10 ^ 12)).
  { unfold minus, plus, scale, exact_vec, q, vadd. cbn [v_x v_y v_z]. replace (-1 * (B2R (v_x p) + B2R (v_x v))) with (- (B2R (v_x p) + B2R (v_x v))) by ring.
    replace (-1 * (B2R (v_y p) + B2R (v_y v))) with (- (B2R (v_y p) + B2R (v_y v))) by ring. replace (-1 * (B2R (v_z p) + B2R (v_z v))) with (- (B2R (v_z p) + B2R (v_z v))) by ring.
    apply big_norm; [lra|assumption..]. }
  pose proof (norm_diff (minus (exact_vec q) (exact_vec l)) (minus (plus (exact_vec p) (exact_vec v)) (exact_vec l))) as ND.
  replace (minus (minus (exact_vec q) (exact_vec l)) (minus (plus (exact_vec p) (exact_vec v)) (exact_vec l))) with (minus (exact_vec q) (plus (exact_vec p) (exact_vec v))) in ND
    by (apply vec_eq; unfold minus, plus, scale; cbn [v_x v_y v_z]; ring).
  assert (ND' : Rabs (norm (minus (exact_vec q) (exact_vec l)) - norm (minus (plus (exact_vec p) (exact_vec v)) (exact_vec l))) <= 21 / 10 ^ 12) by lra. apply Rabs_le_inv in ND'.
  destruct (range_err lm ACC q l (within3_le 101001 1000000 _ ltac:(lra) HQ) (within3_le 110000 1000000 _ ltac:(lra) HL) (LE (norm (minus (exact_vec q) (exact_vec l))) ltac:(lra))) as (FN & EN).
  assert (NB : norm (minus (exact_vec q) (exact_vec l)) <= 7 / 4 * 211001 /\ norm (minus (exact_vec p) (exact_vec l)) <= 7 / 4 * 211001).
  { destruct HQ as ((_ & Q1) & (_ & Q2) & (_ & Q3)). destruct HL as ((_ & L1) & (_ & L2) & (_ & L3)). destruct P1 as (_ & P1), P2 as (_ & P2), P3 as (_ & P3).
    apply Rabs_le_inv in Q1, Q2, Q3, L1, L2, L3, P1, P2, P3. unfold minus, plus, scale, exact_vec. cbn [v_x v_y v_z]. split; (apply big_norm; [lra|apply Rabs_le; lra..]). }
  assert (RR : Rabs (norm (minus (plus (exact_vec p) (exact_vec v)) (exact_vec l)) - norm (minus (exact_vec p) (exact_vec l))) <= 7 / 4 * 1000).
  { eapply Rle_trans; [apply norm_diff|]. replace (minus (minus (plus (exact_vec p) (exact_vec v)) (exact_vec l)) (minus (exact_vec p) (exact_vec l))) with (exact_vec v)
      by (apply vec_eq; unfold minus, plus, scale; cbn [v_x v_y v_z]; ring). unfold exact_vec. apply big_norm; [lra|apply V1|apply V2|apply V3]. }
  set (cur := vrange p l) in *. set (nxt := vrange q l) in *. set (nq := norm (minus (exact_vec q) (exact_vec l))) in *. set (n := norm (minus (exact_vec p) (exact_vec l))) in *.
  set (n2 := norm (minus (plus (exact_vec p) (exact_vec v)) (exact_vec l))) in *. clearbody cur nxt nq n n2. clear - ACC FC EC FN EN NB RR ND' N1 N2.
  assert (R1 : rel cur n (Bd 0 370000 (329 # 10 ^ 12))).
  { split; [exact FC|]. cbn [lo hi er]. split; [unfold Q2R; cbn -[IZR]; lra|]. eapply Rle_trans; [exact EC|]. unfold Q2R. cbn -[IZR]. lra. }
  assert (R2 : rel nxt n2 (Bd 0 370000 (350 # 10 ^ 12))).
  { split; [exact FN|]. cbn [lo hi er]. split; [unfold Q2R; cbn -[IZR]; lra|]. replace (B2R nxt - n2) with ((B2R nxt - nq) + (nq - n2)) by ring. eapply Rle_trans; [apply Rabs_triang|].
    assert (Rabs (nq - n2) <= 21 / 10 ^ 12) by (apply Rabs_le; lra). unfold Q2R. cbn -[IZR] in *. lra. }
  assert (R3 : rel (@fsub _ B nxt cur) (n2 - n) rateb).
  { change (n2 - n) with (@fsub _ ROps n2 n). eapply rel_weaken; [eapply rel_shrink with (l := (-1800 # 1)%Q) (h := (1800 # 1)%Q); [crel|]|vm_compute; reflexivity..].
    apply Rabs_le_inv in RR. rops. unfold Q2R. cbn -[IZR]. lra. }
  apply sign_rel in R3. set (s := @fmul _ B (@fsub _ B nxt cur) _) in *. clearbody s. set (a := Rabs (n2 - n)) in *. clearbody a. clear - ACC R3.
  replace (1 + a / c_light) with (@fadd _ ROps (@L _ ROps 1 0) (@fdiv _ ROps a (@kC _ ROps))) by (unfold kC, c_light; rops; replace (299792458 / 1000) with 299792.458 by lra; reflexivity). unfold kC. cwide.
Qed.
End Dop.

(** The Doppler factor: coordinates up to 100 000 km (110 000 for the observer), velocity components up to 1000 km/s, both ranges at
    least 20 m: within 3e-15 of the exact formula (C47). *)
Theorem C66_doppler :
  forall (lm : libm) (l p v : Vec3 b64), accurate lm -> within3 110000 l -> within3 100000 p -> within3 1000 v ->
    let r := norm (minus (exact_vec p) (exact_vec l)) in
    let r' := norm (minus (plus (exact_vec p) (exact_vec v)) (exact_vec l)) in
    1 / 50 <= r -> 1 / 50 <= r' ->
    close (3 / 10 ^ 15) (doppler_factor (FO := B64Ops lm) l p v) (1 + Rabs (r' - r) / c_light).
Proof.
  intros lm l p v ACC HL HP HV r r' H H'. pose proof (doppler_err lm ACC l p v HL HP HV H H') as K. rewrite doppler_R in K. destruct K as (F & _ & E). split; [exact F|]. eapply Rle_trans; [exact E|]. clear. cbn [er]. unfold Q2R. cbn [Qnum Qden]. change (Z.pos (10 ^ 15)) with 1000000000000000%Z. lra.
Qed.
Print Assumptions C66_doppler.

(** ** The rate of a range, and how it depends on the two vectors *)
Lemma rate_lip a d v : 0 < norm a + norm (plus a v) ->
  Rabs ((norm (plus (plus a d) v) - norm (plus a d)) - (norm (plus a v) - norm a)) <= 4 * norm d * norm v / (norm a + norm (plus a v)).
Proof.
  intros HD. pose proof (norm_sqr a) as S1. pose proof (norm_sqr (plus a v)) as S2. pose proof (norm_sqr (plus a d)) as S3. pose proof (norm_sqr (plus (plus a d) v)) as S4.
  assert (D4 : dot (plus (plus a d) v) (plus (plus a d) v) - dot (plus a d) (plus a d) = dot (plus a v) (plus a v) - dot a a + 2 * dot d v) by (unfold dot, plus; cbn [v_x v_y v_z]; ring).
  assert (F1 : Rabs (norm (plus (plus a d) v) - norm (plus a d)) <= norm v).
  { eapply Rle_trans; [apply norm_diff|]. replace (minus (plus (plus a d) v) (plus a d)) with v by (apply vec_eq; unfold minus, plus, scale; cbn [v_x v_y v_z]; ring). lra. }
  assert (F2 : Rabs (norm (plus (plus a d) v) - norm (plus a v)) <= norm d).
  { eapply Rle_trans; [apply norm_diff|]. replace (minus (plus (plus a d) v) (plus a v)) with d by (apply vec_eq; unfold minus, plus, scale; cbn [v_x v_y v_z]; ring). lra. }
  assert (F3 : Rabs (norm (plus a d) - norm a) <= norm d).
  { eapply Rle_trans; [apply norm_diff|]. replace (minus (plus a d) a) with d by (apply vec_eq; unfold minus, plus, scale; cbn [v_x v_y v_z]; ring). lra. }
  pose proof (dot_le d v) as F4. rewrite <- S1, <- S2, <- S3, <- S4 in D4. pose proof (norm_nonneg d) as N1. pose proof (norm_nonneg v) as N2.
  set (A := norm a) in *. set (A' := norm (plus a d)) in *. set (B := norm (plus a v)) in *. set (B' := norm (plus (plus a d) v)) in *. set (x := dot d v) in *. set (nd := norm d) in *. set (nv := norm v) in *.
  clearbody A A' B B' x nd nv. clear S1 S2 S3 S4.
  apply (Rmult_le_reg_r (A + B)); [exact HD|]. unfold Rdiv. rewrite Rmult_assoc, Rinv_l, Rmult_1_r by lra. rewrite <- (Rabs_pos_eq (A + B)) at 1 by lra. rewrite <- Rabs_mult.
  replace ((B' - A' - (B - A)) * (A + B)) with (2 * x - (B' - A') * ((B' - B) + (A' - A))) by nra.
  unfold Rminus at 1. eapply Rle_trans; [apply Rabs_triang|]. rewrite Rabs_Ropp, !Rabs_mult, (Rabs_pos_eq 2) by lra.
  assert (F5 : Rabs (B' - B + (A' - A)) <= 2 * nd) by (eapply Rle_trans; [apply Rabs_triang|lra]).
  pose proof (Rabs_pos (B' - A')). pose proof (Rabs_pos (B' - B + (A' - A))).
  assert (Rabs (B' - A') * Rabs (B' - B + (A' - A)) <= nv * (2 * nd)) by (apply Rmult_le_compat; assumption). lra.
Qed.
Lemma rate_close a v a' v' e f : 0 < norm a + norm (plus a v) -> norm (minus a' a) <= e -> norm (minus v' v) <= f ->
  Rabs (Rabs (norm (plus a' v') - norm a') - Rabs (norm (plus a v) - norm a)) <= 4 * e * norm v / (norm a + norm (plus a v)) + f.
Proof.
  intros HD HE HF. eapply Rle_trans; [apply Rabs_triang_inv2|]. pose proof (rate_lip a (minus a' a) v HD) as L.
  replace (plus a (minus a' a)) with a' in L by (apply vec_eq; unfold minus, plus, scale; cbn [v_x v_y v_z]; ring).
  assert (K : Rabs (norm (plus a' v') - norm (plus a' v)) <= f).
  { eapply Rle_trans; [apply norm_diff|]. replace (minus (plus a' v') (plus a' v)) with (minus v' v) by (apply vec_eq; unfold minus, plus, scale; cbn [v_x v_y v_z]; ring). exact HF. }
  assert (M : 4 * norm (minus a' a) * norm v / (norm a + norm (plus a v)) <= 4 * e * norm v / (norm a + norm (plus a v))).
  { unfold Rdiv. apply Rmult_le_compat_r; [left; now apply Rinv_0_lt_compat|]. apply Rmult_le_compat_r; [apply norm_nonneg|]. lra. }
  replace (norm (plus a' v') - norm a' - (norm (plus a v) - norm a)) with ((norm (plus a' v') - norm (plus a' v)) + (norm (plus a' v) - norm a' - (norm (plus a v) - norm a))) by ring.
  eapply Rle_trans; [apply Rabs_triang|]. lra.
Qed.

(** What a Doppler factor says about an observer at [S], a satellite at [P] and its velocity [V] (Earth-fixed
    axes, km and km/s), when the satellite is at least 100 m away now and a second later: it is 1 + |change of
    range over that second| / c, with an error in that change of at most (4 e + 1 cm) |V| / (r + r') for the
    position (known within [e]), and [f] + 4e-9 |V| for the velocity (known within [f]). *)
Definition factor_of (e f : R) (x : b64) (S P V : Vec3 R) : Prop :=
  let r := norm (minus P S) in let r' := norm (minus (plus P V) S) in
  1 / 10 <= r -> 1 / 10 <= r' ->
  close (((4 * e + 1 / 100000) * norm V / (r + r') + 4 / 10 ^ 9 * norm V + f) / c_light + 3 / 10 ^ 15) x (1 + Rabs (r' - r) / c_light).

Lemma rate_arith e fv f s s' n r r2 cv : Rabs (f - (1 + s' / c_light)) <= 3 / 10 ^ 15 ->
  Rabs (s' - s) <= 4 * (e + 1 / 1000000) * n / (r + r2) + (7 / 4 * cv + 4 / 10 ^ 9 * n + 2 / 10 ^ 9) ->
  1 / 10 <= r -> 1 / 10 <= r2 -> 7 / 4 * cv + 2 / 10 ^ 9 <= fv -> 0 <= n ->
  Rabs (f - (1 + s / c_light)) <= ((4 * e + 1 / 100000) * n / (r + r2) + 4 / 10 ^ 9 * n + fv) / c_light + 3 / 10 ^ 15.
Proof.
  intros E RC R1 R2 HCV NV0. assert (CP : 0 < c_light) by (unfold c_light; lra). generalize dependent c_light. intros cl E CP. set (e15 := 3 / 10 ^ 15) in *. clearbody e15.
  replace (f - (1 + s / cl)) with ((f - (1 + s' / cl)) + (s' - s) / cl) by (unfold Rdiv; ring). eapply Rle_trans; [apply Rabs_triang|].
  assert (M : Rabs ((s' - s) / cl) <= ((4 * e + 1 / 100000) * n / (r + r2) + 4 / 10 ^ 9 * n + fv) / cl); [|lra].
  unfold Rdiv at 1. rewrite Rabs_mult, (Rabs_pos_eq (/ cl)) by (left; now apply Rinv_0_lt_compat). unfold Rdiv at 1. apply Rmult_le_compat_r; [left; now apply Rinv_0_lt_compat|].
  eapply Rle_trans; [exact RC|]. assert (IP : 0 < / (r + r2)) by (apply Rinv_0_lt_compat; lra). unfold Rdiv in *. set (k := / (r + r2)) in *. clearbody k. pose proof (Rmult_le_pos n k ltac:(lra) ltac:(lra)). lra.
Qed.
Lemma observed_core lm (ACC : accurate lm) (l p q : Vec3 b64) (S P' V' : Vec3 R) e f cv : within3 110000 l -> within3 100000 p -> within3 1000 q ->
  norm (minus (exact_vec p) P') <= e -> norm (minus (exact_vec l) S) <= 7 / 4 * (2 / 10 ^ 10) -> norm V' <= 350 -> e <= 1 / 100 -> 0 <= cv <= 1 / 10000 -> 7 / 4 * cv + 2 / 10 ^ 9 <= f ->
  norm (minus (exact_vec q) V') <= 7 / 4 * cv + 4 / 10 ^ 9 * norm V' + 2 / 10 ^ 9 -> factor_of e f (@doppler_factor _ (B64Ops lm) l p q) S P' V'.
Proof.
  intros BL BP BV EP EL NV HE HCV HF EV R1 R2. pose proof (norm_nonneg V') as NV0.
  set (a := minus P' S). set (a' := minus (exact_vec p) (exact_vec l)). set (v' := exact_vec q) in *.
  assert (EA : norm (minus a' a) <= e + 1 / 1000000).
  { replace (minus a' a) with (plus (minus (exact_vec p) P') (scale (-1) (minus (exact_vec l) S))) by (apply vec_eq; unfold a, a', minus, plus, scale; cbn [v_x v_y v_z]; ring).
    eapply Rle_trans; [apply triangle|]. rewrite norm_opp. lra. }
  assert (Q1 : minus (plus P' V') S = plus a V') by (apply vec_eq; unfold a, minus, plus, scale; cbn [v_x v_y v_z]; ring). rewrite Q1 in *. fold a in R1. fold a. clear Q1.
  assert (Q2 : minus (plus (exact_vec p) (exact_vec q)) (exact_vec l) = plus a' v') by (apply vec_eq; unfold a', v', minus, plus, scale; cbn [v_x v_y v_z]; ring).
  assert (N1 : 1 / 50 <= norm a'). { pose proof (norm_diff a' a) as N. apply Rle_trans with (2 := EA) in N. apply Rabs_le_inv in N. lra. }
  assert (N2 : 1 / 50 <= norm (plus a' v')).
  { pose proof (norm_diff (plus a' v') (plus a V')) as N. replace (minus (plus a' v') (plus a V')) with (plus (minus a' a) (minus v' V')) in N by (apply vec_eq; unfold minus, plus, scale; cbn [v_x v_y v_z]; ring).
    pose proof (triangle (minus a' a) (minus v' V')) as T. assert (N' : Rabs (norm (plus a' v') - norm (plus a V')) <= 1 / 50) by lra. apply Rabs_le_inv in N'. lra. }
  assert (N2' : 1 / 50 <= norm (minus (plus (exact_vec p) (exact_vec q)) (exact_vec l))) by (rewrite Q2; exact N2).
  destruct (C66_doppler lm l p q ACC BL BP BV N1 N2') as (F & E0). cbv zeta in E0. rewrite Q2 in E0. fold a' in E0. split; [exact F|].
  pose proof (rate_close a V' a' v' (e + 1 / 1000000) (7 / 4 * cv + 4 / 10 ^ 9 * norm V' + 2 / 10 ^ 9) ltac:(lra) EA EV) as RC.
  exact (rate_arith _ _ _ _ _ _ _ _ _ E0 RC R1 R2 HF NV0).
Qed.

Section Observed.
Context (lm : libm) (ACC : accurate lm).
Notation B := (B64Ops lm).
Context (g : Geodedic b64) (HG : ok_geo g) (x w : Vec3 b64) (P V : Vec3 R) (c cv X : R) (HC : 0 <= c) (HX : 0 <= X <= 90000)
  (e f : R) (HB : 7 / 4 * c + 4 / 10 ^ 9 * X + 1 / 1000000 <= e) (HE : e <= 1 / 100) (HP : NearAccuracy.close c x P) (NP : norm P <= X)
  (HCV : 0 <= cv <= 1 / 10000) (HF : 7 / 4 * cv + 2 / 10 ^ 9 <= f) (HV : NearAccuracy.close cv w V) (NV : norm V <= 350)
  (gm : b64) (th : R) (HT : is_finite gm = true /\ turns_close (B2R gm) th (4 / 10 ^ 9)).
Lemma observed : factor_of e f (@doppler_factor _ B (@geodedic_to_ecf _ B g) (@eci_to_ecf _ B x gm) (@eci_to_ecf _ B w gm))
  (@geodedic_to_ecf _ ROps (exact_geo g)) (earth_fixed th P) (earth_fixed th V).
Proof.
    pose proof (norm_nonneg V) as NV0. assert (HX2 : 0 <= norm V <= 90000) by lra. assert (HB2 : 7 / 4 * cv + 4 / 10 ^ 9 * norm V + 1 / 1000000 <= 1 / 100) by lra.
  pose proof (turned_err lm ACC x P c X HC HX e HB HE HP NP gm th HT) as EP. pose proof (turned_err lm ACC w V cv (norm V) (proj1 HCV) HX2 (1 / 100) HB2 (Rle_refl _) HV (Rle_refl _) gm th HT) as EV.
  pose proof (p_bound lm ACC x P c X HC HX e HB HE HP NP gm th HT) as BP.
  pose proof (p_bound lm ACC w V cv (norm V) (proj1 HCV) HX2 (1 / 100) HB2 (Rle_refl _) HV (Rle_refl _) gm th HT) as BV0.
  destruct (geo_rel lm ACC g HG) as (G1 & G2 & G3).
  set (p := @eci_to_ecf _ B x gm) in *. set (q := @eci_to_ecf _ B w gm) in *. set (l := @geodedic_to_ecf _ B g) in *. set (S := @geodedic_to_ecf _ ROps (exact_geo g)) in *.
  set (P' := earth_fixed th P) in *. set (V' := earth_fixed th V) in *. assert (NV' : norm V' = norm V) by apply turn_norm.
  assert (BV : within3 1000 q).
  { assert (NQ : norm (exact_vec q) <= 351).
    { replace (exact_vec q) with (plus (minus (exact_vec q) V') V') by (apply vec_eq; unfold minus, plus, scale; cbn [v_x v_y v_z]; ring). eapply Rle_trans; [apply triangle|]. rewrite NV'. lra. }
    destruct (coord_le (exact_vec q)) as (C1 & C2 & C3). cbn [exact_vec v_x v_y v_z] in C1, C2, C3. destruct BV0 as ((V1 & _) & (V2 & _) & (V3 & _)).
    split; [|split]; (split; [assumption|lra]). }
  assert (GN : forall y a, rel y a gb -> within 110000 y /\ Rabs (B2R y - a) <= 2 / 10 ^ 10).
  { intros y a (F & I & E). cbn [lo hi er gb] in I, E. unfold Q2R in I, E. cbn -[IZR] in I, E. apply Rabs_le_inv in E. unfold within. repeat split; [exact F|apply Rabs_le; lra..]. }
  destruct (GN _ _ G1) as (L1 & D1). destruct (GN _ _ G2) as (L2 & D2). destruct (GN _ _ G3) as (L3 & D3). clear GN G1 G2 G3.
  assert (BL : within3 110000 l) by (split; [exact L1|]; split; [exact L2|exact L3]).
  assert (EL : norm (minus (exact_vec l) S) <= 7 / 4 * (2 / 10 ^ 10)).
  { replace (minus (exact_vec l) S) with (MkVec3 (B2R (v_x l) - v_x S) (B2R (v_y l) - v_y S) (B2R (v_z l) - v_z S)) by (apply vec_eq; unfold minus, plus, scale; cbn [v_x v_y v_z exact_vec]; ring).
    apply big_norm; [lra|assumption..]. }
  clearbody p q l S P' V'. clear L1 L2 L3 D1 D2 D3 BV0.
  apply (observed_core lm ACC l p q S P' V' e f cv BL BP BV); [lra|exact EL|lra|exact HE|exact HCV|exact HF|rewrite NV'; exact EV].
Qed.
End Observed.

(** The last step: an Earth-fixed site, and binary64 position, velocity and sidereal angle near exact ones. *)
Theorem C66_observed :
  forall (lm : libm), accurate lm ->
  forall (g : Geodedic b64) (x w : Vec3 b64) (P V : Vec3 R) (c cv X e f : R) (gm : b64) (th : R),
    ok_geo g -> NearAccuracy.close c x P -> norm P <= X -> NearAccuracy.close cv w V -> norm V <= 350 ->
    0 <= c -> 0 <= X <= 90000 -> 7 / 4 * c + 4 / 10 ^ 9 * X + 1 / 1000000 <= e -> e <= 1 / 100 -> 0 <= cv <= 1 / 10000 -> 7 / 4 * cv + 2 / 10 ^ 9 <= f ->
    is_finite gm = true -> turns_close (B2R gm) th (4 / 10 ^ 9) ->
    factor_of e f (doppler_factor (FO := B64Ops lm) (geodedic_to_ecf (FO := B64Ops lm) g) (eci_to_ecf (FO := B64Ops lm) x gm) (eci_to_ecf (FO := B64Ops lm) w gm))
      (geodedic_to_ecf (FO := ROps) (exact_geo g)) (earth_fixed th P) (earth_fixed th V).
Proof. intros lm ACC g x w P V c cv X e f gm th HG HP NP HV NV HC HX HB HE HCV HF F HT. exact (observed lm ACC g HG x w P V c cv X HC HX e f HB HE HP NP HCV HF HV NV gm th (conj F HT)). Qed.
Print Assumptions C66_observed.

(** Near-earth sets: decode, propagate to a date within a day of the epoch (three weeks, from 400 km up), turn position and velocity into the
    Earth-fixed frame with the sidereal time of that date, and take the Doppler factor for a site, all in
    binary64 with any accurate library. *)
Theorem C66_text_to_doppler :
  forall (lm : libm), accurate lm ->
  forall (full : bool) (fuel fuel' : nat) (l1 l2 : str) (t : tle) (s : Satrec b64),
    well_written l1 l2 t -> usual t -> perigee_class full (tle_elements t) ->
    twoline2satrec (FO := B64Ops lm) fuel l1 l2 = Done (Ok s) ->
    let el := tle_elements t in
      forall (d : DateTime) (m : R) (n : Z), civil d -> in_span d -> minutes_since_epoch t d m -> Rabs m <= span (tle_elements t) - 1 ->
        days_from (Date 2000 1 1) (dt_date d) n ->
        let jd := 2451544.5 + IZR n + IZR (tod d) / 86400 in
        exists tm, Rabs (tm - m) <= 4 / 1000000 /\
          let i := Str3.i0 el in
          (- (1 / 1000) + 1 / 1000000000 <= Str3.e_unclamped el full tm 0 -> exists E u,
             kepler_angle (Str3.axN el full tm 0) (Str3.ayN el full tm 0 i) (Str3.U el full tm 0 i) E /\
             sin u = Str3.sin_u el full tm 0 i E /\ cos u = Str3.cos_u el full tm 0 i E /\
             (1 + 1 / 100000000 <= Str3.rk el full tm 0 i E u ->
              exists v, propogate_datetime (FO := B64Ops lm) fuel' s d = Done (Ok v) /\
                forall g : Geodedic b64, ok_geo g ->
                  let gm := gstime_datetime (FO := B64Ops lm) d in
                  factor_of (51 / 100000) (4 / 10 ^ 7) (doppler_factor (FO := B64Ops lm) (geodedic_to_ecf (FO := B64Ops lm) g)
                               (eci_to_ecf (FO := B64Ops lm) (g4_position v) gm) (eci_to_ecf (FO := B64Ops lm) (g4_velocity v) gm))
                    (geodedic_to_ecf (FO := ROps) (exact_geo g))
                    (earth_fixed (gmst_angle jd) (Str3.position el full tm 0 i E u)) (earth_fixed (gmst_angle jd) (Str3.velocity el full tm 0 i E u)))).
Proof.
  intros lm ACC full fuel fuel' l1 l2 t s W U P T.
  destruct (C58_text_to_binary64_state lm ACC full fuel fuel' l1 l2 t W U P) as (r0 & _ & TE & TO). intros el. fold el in TE, TO.
  destruct r0 as [v0|e]; [|rewrite (TE e eq_refl) in T; discriminate]. destruct (TO v0 eq_refl) as (s2 & T2 & K). rewrite T in T2. injection T2 as <-. clear TE TO T.
  intros d m n Cd Sd Md Hm HN jd. destruct (K d m Cd Sd Md Hm) as (tm & res & E1 & PR & O). exists tm. split; [exact E1|]. cbv zeta. intros HE.
  destruct O as (_ & O). destruct (O HE) as (E & u & O1 & O2 & O3 & RB & _ & O4). clear O. exists E, u. split; [exact O1|]. split; [exact O2|]. split; [exact O3|].
  intros HR. destruct (O4 HR) as (v & -> & PV & VV & SV). exists v. split; [exact PR|]. intros g HG. destruct (sidereal lm d n Cd Sd HN) as ((F & _) & TC). fold jd in TC.
  apply (C66_observed lm ACC g (g4_position v) (g4_velocity v) _ _ (12 / 100000) (2 / 10000000) 19500 (51 / 100000) (4 / 10 ^ 7) _ _ HG PV); [|exact VV|lra|lra..|exact F|exact TC].
  rewrite C60.norm_position, Rabs_pos_eq by lra. unfold Str3.aE. lra.
Qed.
Print Assumptions C66_text_to_doppler.

(** Deep-space sets, to a date within thirty days of the epoch. *)
Theorem C66_text_to_deep_doppler :
  forall (lm : libm), accurate lm ->
  forall (fuel fuel' : nat) (l1 l2 : str) (t : tle) (x : R) (s : Satrec b64),
    well_written l1 l2 t -> deep_usual t -> epoch_days t x -> (60 <= fuel')%nat ->
    twoline2satrec (FO := B64Ops lm) fuel l1 l2 = Done (Ok s) ->
    let el := tle_elements t in
    forall fuelR s0R (sR : Satrec R) rR, sgp4init (FO := ROps) fuelR s0R (text_options t x) = Done (sR, rR) ->
      forall (d : DateTime) (m : R) (n : Z), civil d -> in_span d -> minutes_since_epoch t d m -> -43199 <= m <= 43199 ->
        days_from (Date 2000 1 1) (dt_date d) n ->
        let jd := 2451544.5 + IZR n + IZR (tod d) / 86400 in
        exists tm, Rabs (tm - m) <= 4 / 1000000 /\
          let de := sr_dedt sR * tm in
          let i := Rabs (Str3.i0 el + d_incl sR tm) in
          (- (1 / 1000) + 1 / 1000000000 <= Str3.e_unclamped el false tm de -> 1 / 1000000000 <= Str3.e el false tm de + d_ecc sR tm ->
           exists v E u,
             propogate_datetime (FO := B64Ops lm) fuel' s d = Done (Ok v) /\
             kepler_angle (Str3.axN el false tm de) (Str3.ayN el false tm de i) (Str3.U el false tm de i) E /\
             sin u = Str3.sin_u el false tm de i E /\ cos u = Str3.cos_u el false tm de i E /\
             forall g : Geodedic b64, ok_geo g ->
               let gm := gstime_datetime (FO := B64Ops lm) d in
               factor_of (51 / 100000) (4 / 10 ^ 7) (doppler_factor (FO := B64Ops lm) (geodedic_to_ecf (FO := B64Ops lm) g)
                            (eci_to_ecf (FO := B64Ops lm) (g4_position v) gm) (eci_to_ecf (FO := B64Ops lm) (g4_velocity v) gm))
                 (geodedic_to_ecf (FO := ROps) (exact_geo g))
                 (earth_fixed (gmst_angle jd) (Str3.position el false tm de i E u)) (earth_fixed (gmst_angle jd) (Str3.velocity el false tm de i E u))).
Proof.
  intros lm ACC fuel fuel' l1 l2 t x s W U HX HF T el fuelR s0R sR rR HR.
  destruct (C63_text_to_deep_state lm ACC fuel fuel' l1 l2 t x W U HX HF) as (r0 & _ & TR). destruct (TR _ _ _ _ HR) as (_ & TE & TO). clear TR. fold el in TO.
  destruct r0 as [v0|e]; [|rewrite (TE e eq_refl) in T; discriminate]. destruct (TO v0 eq_refl) as (s2 & T2 & K). rewrite T in T2. injection T2 as <-. clear TE TO T.
  intros d m n Cd Sd Md Hm HN jd. destruct (K d m Cd Sd Md Hm) as (tm & res & E1 & PR & O). exists tm. split; [exact E1|]. intros de i HE HP.
  destruct O as (_ & _ & O1). destruct (O1 HE HP) as (v & E & u & -> & K1 & K2 & K3 & RB & PV & VV & SV). clear O1.
  exists v, E, u. split; [exact PR|]. split; [exact K1|]. split; [exact K2|]. split; [exact K3|]. intros g HG. destruct (sidereal lm d n Cd Sd HN) as ((F & _) & TC). fold jd in TC.
  assert (NB : norm (Str3.position el false tm de i E u) <= 64101) by (fold de in RB; fold i in RB; clearbody i de; clear - RB; rewrite C60.norm_position; rewrite Rabs_pos_eq; unfold Str3.aE; lra).
  apply (C66_observed lm ACC g (g4_position v) (g4_velocity v) _ _ (14 / 100000) (6 / 100000000) 64101 (51 / 100000) (4 / 10 ^ 7) _ _ HG PV); [exact NB|exact VV|eapply Rle_trans; [exact SV|lra]|lra..|exact F|exact TC].
Qed.
Print Assumptions C66_text_to_deep_doppler.

(** Non-vacuity: the ISS set and the geostationary set with their dates; a satellite 622 km above and 1000 km
    east of a site on the equator, going east at 7 km/s, meets the hypotheses of C66_doppler and C66_observed. *)
Example C66_example :
  accurate LibmExists.exact_lm /\
  (well_written C25.iss1 C25.iss2 C28.iss /\ usual C28.iss /\ perigee_class true (tle_elements C28.iss) /\ civil noon /\ in_span noon /\
   exists m, minutes_since_epoch C28.iss noon m /\ 207 <= m <= 208) /\
  (well_written C25.iss1 C54.geo2 C54.geo /\ deep_usual C54.geo /\ (exists x, epoch_days C54.geo x /\ 25007 <= x <= 25008) /\ civil july /\ in_span july /\
   exists m, minutes_since_epoch C54.geo july m /\ 30447 <= m <= 30448) /\
  ok_geo origin /\
  let l := MkVec3 (b64_lit 6378 0) (b64_lit 0 0) (b64_lit 0 0) in
  let x := MkVec3 (b64_lit 7000 0) (b64_lit 1000 0) (b64_lit 0 0) in let P := exact_vec x in
  let w := MkVec3 (b64_lit 0 0) (b64_lit 7 0) (b64_lit 0 0) in let V := exact_vec w in
  within3 110000 l /\ within3 100000 x /\ within3 1000 w /\
  1 / 50 <= norm (minus P (exact_vec l)) /\ 1 / 50 <= norm (minus (plus P V) (exact_vec l)) /\
  NearAccuracy.close (12 / 100000) x P /\ norm P <= 19500 /\ NearAccuracy.close (2 / 10000000) w V /\ norm V <= 350 /\
  is_finite (b64_lit 0 0) = true /\ turns_close (B2R (b64_lit 0 0)) 0 (4 / 10 ^ 9) /\
  (let S := geodedic_to_ecf (FO := ROps) (exact_geo origin) in
   1 / 10 <= norm (minus (earth_fixed 0 P) S) /\ 1 / 10 <= norm (minus (plus (earth_fixed 0 P) (earth_fixed 0 V)) S)).
Proof.
  destruct C65_example as (X1 & X2 & X3 & _). split; [exact X1|]. split; [exact X2|]. split; [exact X3|]. split; [apply C61_example|]. cbv zeta.
  assert (L : forall n : Z, (0 <= n <= 7000)%Z -> B2R (b64_lit n 0) = IZR n /\ is_finite (b64_lit n 0) = true).
  { intros n Hn. exact (B64Facts.lit_int_fin LibmExists.exact_lm n ltac:(lia)). }
  destruct (L 0%Z ltac:(lia)) as [Z1 Z2]. destruct (L 7000%Z ltac:(lia)) as [A1 A2]. destruct (L 1000%Z ltac:(lia)) as [B1 B2]. destruct (L 6378%Z ltac:(lia)) as [C1 C2]. destruct (L 7%Z ltac:(lia)) as [D1 D2].
  unfold within3, within, NearAccuracy.close, exact_vec, exact_geo, origin. cbn [v_x v_y v_z gd_longitude gd_latitude gd_height]. rewrite Z1, A1, B1, C1, D1.
  rewrite !(Rminus_diag_eq _ _ eq_refl), !Rabs_R0, !Rabs_pos_eq by lra.
  assert (NL : forall x y z e, 0 <= e -> e * e <= x * x + y * y + z * z -> e <= norm (MkVec3 x y z)).
  { intros x y z e H1 H2. unfold norm, dot. cbn [v_x v_y v_z]. rewrite <- (sqrt_square e H1). now apply sqrt_le_1_alt. }
  repeat (split; [repeat split; try assumption; lra|]).
  split; [unfold minus, plus, scale; cbn [v_x v_y v_z]; apply NL; lra|]. split; [unfold minus, plus, scale; cbn [v_x v_y v_z]; apply NL; lra|].
  split; [repeat split; try assumption; lra|]. split; [apply norm_le3; lra|]. split; [repeat split; try assumption; lra|]. split; [apply norm_le3; lra|]. split; [exact Z2|].
  split. { exists 0%Z. rewrite Rmult_0_r, Rplus_0_r, Rminus_0_r, Rabs_R0. lra. }
  rewrite to_ecf_R. cbn [gd_longitude gd_latitude gd_height]. unfold prime_vertical, w_of, earth_fixed, minus, plus, scale. cbn [v_x v_y v_z]. rewrite sin_0, cos_0, !Rmult_0_r, Rminus_0_r, sqrt_1.
  unfold WA. split; (apply NL; lra).
Qed.
