(** * Lengths and angles in binary64: relative error of a norm, conditioning of atan2 and asin *)
From Coq Require Import ZArith QArith Reals Qreals Bool Lra Lia Psatz.
From Flocq Require Import Core IEEE754.BinarySingleNaN.
From Verif.Model Require Import Float.
From Verif.Spec Require Import LibmAccuracy.
From Verif.Inst Require Import RInst RTac B64 B64Facts B64Calc Atan2.
From Verif.Proofs Require Import GeodeticError CalcFun.
Local Open Scope R_scope.

(** ** Direction of a perturbed point *)
Lemma atan2_close y x y' x' d : let rho := sqrt (x * x + y * y) in
  d < rho -> (x' - x) * (x' - x) + (y' - y) * (y' - y) <= d * d -> 0 <= d ->
  exists k : Z, Rabs (Ratan2 y' x' - Ratan2 y x - 2 * PI * IZR k) <= d / (rho - d).
Proof.
  intros rho Hd H D0. destruct (Ratan2_polar y x) as [P1 P2]. fold rho in P1, P2. set (phi := Ratan2 y x) in *.
  set (a := (x' - x) * cos phi + (y' - y) * sin phi). set (b := (y' - y) * cos phi - (x' - x) * sin phi).
  pose proof (sin2_cos2 phi) as Q. unfold Rsqr in Q.
  assert (AB : a * a + b * b <= d * d).
  { replace (a * a + b * b) with (((x' - x) * (x' - x) + (y' - y) * (y' - y)) * (sin phi * sin phi + cos phi * cos phi)) by (unfold a, b; ring). rewrite Q. lra. }
  assert (A : - d <= a <= d) by nra. assert (Bb : Rabs b <= d) by (apply Rabs_le; nra).
  set (p := rho + a). assert (Pp : rho - d <= p) by (unfold p; lra).
  assert (X : x' = p * cos phi - b * sin phi).
  { unfold p, a, b. replace ((rho + ((x' - x) * cos phi + (y' - y) * sin phi)) * cos phi - ((y' - y) * cos phi - (x' - x) * sin phi) * sin phi) with (rho * cos phi + (x' - x) * (sin phi * sin phi + cos phi * cos phi)) by ring. rewrite Q, <- P1. ring. }
  assert (Y : y' = p * sin phi + b * cos phi).
  { unfold p, a, b. replace ((rho + ((x' - x) * cos phi + (y' - y) * sin phi)) * sin phi + ((y' - y) * cos phi - (x' - x) * sin phi) * cos phi) with (rho * sin phi + (y' - y) * (sin phi * sin phi + cos phi * cos phi)) by ring. rewrite Q, <- P2. ring. }
  set (al := Ratan2 b p). destruct (Ratan2_polar b p) as [B1 B2]. fold al in B1, B2. set (h := sqrt (p * p + b * b)) in *.
  assert (Hh : 0 < h) by (apply sqrt_lt_R0; nra).
  destruct (Ratan2_polar y' x') as [C1 C2]. assert (E : sqrt (x' * x' + y' * y') = h).
  { unfold h. f_equal. rewrite X, Y. replace ((p * cos phi - b * sin phi) * (p * cos phi - b * sin phi) + (p * sin phi + b * cos phi) * (p * sin phi + b * cos phi)) with ((p * p + b * b) * (sin phi * sin phi + cos phi * cos phi)) by ring. rewrite Q. ring. }
  rewrite E in C1, C2. set (psi := Ratan2 y' x') in *.
  destruct (sc_eq psi (phi + al)) as [k K].
  - apply (Rmult_eq_reg_l h); [|lra]. rewrite <- C1, cos_plus, X, B1, B2. ring_simplify. rewrite <- B1 at 1. nra.
  - apply (Rmult_eq_reg_l h); [|lra]. rewrite <- C2, sin_plus, Y, B1, B2. nra.
  - exists k. replace (psi - phi - 2 * PI * IZR k) with al by lra. unfold al, Ratan2. rewrite Rlt_bool_true by lra.
    eapply Rle_trans; [apply atan_abs|]. unfold Rdiv. rewrite Rabs_mult, (Rabs_pos_eq (/ p)) by (left; apply Rinv_0_lt_compat; lra).
    apply Rmult_le_compat; [apply Rabs_pos|left; apply Rinv_0_lt_compat; lra|exact Bb|apply Rinv_le_contravar; lra].
Qed.

(** ** Arc sine away from +-1 *)
Lemma asin_close_lt u v d : -1 < u < 1 -> -1 < v < 1 -> u < v -> v - u <= d -> 4 * d <= 1 - u * u -> 4 * d <= 1 - v * v ->
  forall w, (w = u \/ w = v) -> Rabs (asin v - asin u) <= 3 / 2 * d / sqrt (1 - w * w).
Proof.
  intros Hu Hv H Hd H1 H2 w Hw. pose proof (asin_bound_lt u Hu) as Bu. pose proof (asin_bound_lt v Hv) as Bv.
  pose proof (sin_asin u ltac:(lra)) as Su. pose proof (sin_asin v ltac:(lra)) as Sv. set (a := asin u) in *. set (b := asin v) in *.
  assert (AB : a < b). { destruct (Rlt_le_dec a b) as [G|G]; [exact G|exfalso]. pose proof (sin_incr_1 b a ltac:(lra) ltac:(lra) ltac:(lra) ltac:(lra) G). lra. }
  destruct (MVT_cor2 sin cos a b AB) as (c & E & C); [intros c _; apply derivable_pt_lim_sin|]. rewrite Su, Sv in E.
  assert (C1 : u <= sin c) by (rewrite <- Su; apply sin_incr_1; lra). assert (C2 : sin c <= v) by (rewrite <- Sv; apply sin_incr_1; lra).
  assert (CP : 0 < cos c) by (apply cos_gt_0; lra). pose proof (sin2_cos2 c) as Q. unfold Rsqr in Q.
  rewrite Rabs_pos_eq by lra.
  assert (K : (1 - w * w) / 2 <= cos c * cos c) by (destruct Hw as [-> | ->]; nra).
  assert (W : 0 < 1 - w * w) by (destruct Hw as [-> | ->]; nra).
  assert (S : 0 < sqrt (1 - w * w)) by now apply sqrt_lt_R0. pose proof (sqrt_sqrt (1 - w * w) ltac:(lra)) as SS.
  assert (T : 2 / 3 * sqrt (1 - w * w) <= cos c) by nra.
  apply (Rmult_le_reg_r (cos c)); [exact CP|]. replace ((b - a) * cos c) with (v - u) by lra.
  replace (3 / 2 * d / sqrt (1 - w * w) * cos c) with (d * (cos c / (2 / 3 * sqrt (1 - w * w)))) by (field; lra).
  assert (1 <= cos c / (2 / 3 * sqrt (1 - w * w))); [|nra].
  apply (Rmult_le_reg_r (2 / 3 * sqrt (1 - w * w))); [lra|]. unfold Rdiv at 2. rewrite Rmult_assoc, Rinv_l by lra. lra.
Qed.
Lemma asin_close u v d : -1 < u < 1 -> Rabs (v - u) <= d -> 8 * d <= 1 - u * u -> -1 < v < 1 /\ Rabs (asin v - asin u) <= 3 / 2 * d / sqrt (1 - u * u).
Proof.
  intros Hu H D. apply Rabs_le_inv in H. assert (0 <= d) by lra.
  assert (V : v * v <= u * u + 4 * d) by nra. assert (Hv : -1 < v < 1) by nra. split; [exact Hv|].
  destruct (Rtotal_order u v) as [G|[G|G]].
  - apply asin_close_lt; solve [lra|auto].
  - subst v. rewrite Rminus_diag_eq, Rabs_R0 by reflexivity. apply Rle_mult_inv_pos; [lra|apply sqrt_lt_R0; nra].
  - rewrite Rabs_minus_sym. apply asin_close_lt; solve [lra|auto].
Qed.

(** ** Relative error of a Euclidean norm *)
Section Norm.
Context (lm : libm) (ACC : accurate lm).
Notation B := (B64Ops lm).
Notation fin := (@is_finite prec emax).
(** [x] is finite and approximates the non-negative [a] within [a e + t] *)
Definition rap (x : b64) (a e t : R) : Prop := fin x = true /\ 0 <= a <= 2 ^ 800 /\ Rabs (B2R x - a) <= a * e + t.
Lemma pow_big n : (n <= 1000)%nat -> 2 ^ n <= bpow radix2 1000.
Proof. intros H. replace (bpow radix2 1000) with (2 ^ 1000) by (rewrite pow_IZR, <- IZR_Zpower; [f_equal|lia]; reflexivity). apply Rle_pow; [lra|exact H]. Qed.
Lemma tiny : bpow radix2 (-1074) <= / 2 ^ 200.
Proof.
  replace (/ 2 ^ 200) with (bpow radix2 (-200)) by (rewrite pow_IZR; change (bpow radix2 (-200)) with (/ IZR (2 ^ 200)); f_equal). apply bpow_le. lia.
Qed.
Lemma rap_sq x : fin x = true -> Rabs (B2R x) <= 2 ^ 300 -> rap (@fpowi _ B x 2) (B2R x * B2R x) (/ 2 ^ 50) (/ 2 ^ 200).
Proof.
  intros F H. pose proof (Rabs_pos (B2R x)) as P. assert (Q : 0 <= B2R x * B2R x <= 2 ^ 800).
  { split; [nra|]. rewrite <- (Rabs_pos_eq (B2R x * B2R x)), Rabs_mult by nra. replace (2 ^ 800) with (2 ^ 300 * 2 ^ 500) by (rewrite <- pow_add; reflexivity).
    assert (2 ^ 300 <= 2 ^ 500) by (apply Rle_pow; [lra|lia]). apply Rmult_le_compat; lra. }
  destruct (acc_powi lm ACC x 2 F) as [A1 A2]; [lia| |].
  - replace (B2R x ^ 2) with (B2R x * B2R x) by ring. rewrite Rabs_pos_eq by lra. assert (2 ^ 800 <= 2 ^ 1000) by (apply Rle_pow; [lra|lia]). lra.
  - split; [exact A1|]. split; [exact Q|]. replace (B2R x ^ 2) with (B2R x * B2R x) in A2 by ring. rewrite (Rabs_pos_eq (B2R x * B2R x)) in A2 by lra. exact A2.
Qed.
Lemma rap_add x y a b e t : rap x a e t -> rap y b e t -> 0 <= e <= 1 -> / 2 ^ 200 <= t <= 1 -> a + b <= 2 ^ 800 ->
  rap (@fadd _ B x y) (a + b) (e + / 2 ^ 52) (4 * t).
Proof.
  intros (F1 & A1 & E1) (F2 & A2 & E2) He Ht HB. pose proof tiny as TN.
  assert (S : Rabs (B2R x + B2R y - (a + b)) <= (a + b) * e + 2 * t).
  { replace (B2R x + B2R y - (a + b)) with ((B2R x - a) + (B2R y - b)) by ring. eapply Rle_trans; [apply Rabs_triang|]. lra. }
  assert (S' : Rabs (B2R x + B2R y) <= 2 * (a + b) + 2 * t).
  { replace (B2R x + B2R y) with ((a + b) + (B2R x + B2R y - (a + b))) by ring. eapply Rle_trans; [apply Rabs_triang|]. rewrite (Rabs_pos_eq (a + b)) by lra. assert ((a + b) * e <= (a + b) * 1) by (apply Rmult_le_compat_l; lra). lra. }
  destruct (add_fin lm x y F1 F2) as [V FV].
  - eapply Rle_trans; [exact S'|]. pose proof (pow_big 802 ltac:(lia)) as PB. assert (bpow radix2 1000 <= bpow radix2 1023) by (apply bpow_le; lia).
    replace (2 ^ 802) with (4 * 2 ^ 800) in PB by (change 802%nat with (2 + 800)%nat; rewrite pow_add; ring). assert (1 <= 2 ^ 800) by (apply pow_R1_Rle; lra). lra.
  - split; [exact FV|]. split; [lra|]. rewrite V. pose proof (rnd_fine (B2R x + B2R y)) as RF.
    replace (rnd (B2R x + B2R y) - (a + b)) with ((rnd (B2R x + B2R y) - (B2R x + B2R y)) + (B2R x + B2R y - (a + b))) by ring.
    eapply Rle_trans; [apply Rabs_triang|]. assert (U : bpow radix2 (-53) = / 2 ^ 53) by (rewrite pow_IZR; reflexivity). rewrite U in RF.
    assert (U2 : / 2 ^ 52 = 2 * / 2 ^ 53) by (cbn -[IZR]; lra). rewrite U2. assert (0 < / 2 ^ 53 <= / 2) by (cbn -[IZR]; lra). set (u := / 2 ^ 53) in *. clearbody u.
    assert (Rabs (B2R x + B2R y) * u <= (2 * (a + b) + 2 * t) * u) by (apply Rmult_le_compat_r; lra). assert (t * u <= t * / 2) by (apply Rmult_le_compat_l; lra). lra.
Qed.
Lemma norm3_b64 x y z : fin x = true -> fin y = true -> fin z = true ->
  Rabs (B2R x) <= 2 ^ 300 -> Rabs (B2R y) <= 2 ^ 300 -> Rabs (B2R z) <= 2 ^ 300 ->
  let n := sqrt (B2R x * B2R x + B2R y * B2R y + B2R z * B2R z) in 1 / 1000 <= n ->
  let r := @fsqrt _ B (@fadd _ B (@fadd _ B (@fpowi _ B x 2) (@fpowi _ B y 2)) (@fpowi _ B z 2)) in
  fin r = true /\ Rabs (B2R r - n) <= n / 2 ^ 48.
Proof.
  intros F1 F2 F3 H1 H2 H3 n Hn r. pose proof (rap_sq x F1 H1) as R1. pose proof (rap_sq y F2 H2) as R2. pose proof (rap_sq z F3 H3) as R3.
  assert (P : forall w : R, Rabs w <= 2 ^ 300 -> 0 <= w * w <= 2 ^ 600).
  { intros w W. split; [nra|]. rewrite <- (Rabs_pos_eq (w * w)), Rabs_mult by nra. pose proof (Rabs_pos w). replace (2 ^ 600) with (2 ^ 300 * 2 ^ 300) by (rewrite <- pow_add; reflexivity). apply Rmult_le_compat; lra. }
  pose proof (P _ H1) as P1. pose proof (P _ H2) as P2. pose proof (P _ H3) as P3. clear P.
  assert (BG : 3 * 2 ^ 600 <= 2 ^ 800). { replace (2 ^ 800) with (2 ^ 200 * 2 ^ 600) by (rewrite <- pow_add; reflexivity). assert (3 <= 2 ^ 200) by (apply Rle_trans with (2 ^ 2); [lra|apply Rle_pow; [lra|lia]]). assert (0 < 2 ^ 600) by (apply pow_lt; lra). nra. }
  assert (T0 : 0 < / 2 ^ 200 <= / 2 ^ 100). { split; [apply Rinv_0_lt_compat, pow_lt; lra|]. apply Rinv_le_contravar; [apply pow_lt; lra|apply Rle_pow; [lra|lia]]. }
  assert (T1 : / 2 ^ 100 <= / 2 ^ 70 / 1000 / 1000) by (cbn -[IZR]; lra).
  assert (R12 := rap_add _ _ _ _ _ _ R1 R2). destruct R12 as (F12 & A12 & E12); [cbn -[IZR]; lra|lra|lra|].
  assert (R3' : rap (@fpowi _ B z 2) (B2R z * B2R z) (/ 2 ^ 50 + / 2 ^ 52) (4 * / 2 ^ 200)).
  { destruct R3 as (F & A & E). split; [exact F|]. split; [exact A|]. eapply Rle_trans; [exact E|]. assert (0 < / 2 ^ 52) by (cbn -[IZR]; lra). nra. }
  destruct (rap_add _ _ _ _ _ _ (conj F12 (conj A12 E12)) R3') as (FS & AS & ES); [cbn -[IZR]; lra|lra|lra|].
  set (S := @fadd _ B (@fadd _ B (@fpowi _ B x 2) (@fpowi _ B y 2)) (@fpowi _ B z 2)) in *.
  set (m := B2R x * B2R x + B2R y * B2R y + B2R z * B2R z) in *. assert (Hm : 1 / 1000000 <= m).
  { unfold n in Hn. assert (M0 : 0 <= m) by lra. pose proof (sqrt_sqrt m M0). nra. }
  assert (NN : n * n = m) by (apply sqrt_sqrt; lra). clearbody n m S.
  assert (ES' : Rabs (B2R S - m) <= m * / 2 ^ 49).
  { eapply Rle_trans; [exact ES|]. set (t := / 2 ^ 200) in *. set (w := / 2 ^ 100) in *. clearbody t w. assert (K : 16 * t <= m * / 2 ^ 60) by (cbn -[IZR] in *; lra). cbn -[IZR] in K |- *. lra. }
  clear ES. assert (SP : 0 <= B2R S) by (apply Rabs_le_inv in ES'; cbn -[IZR] in ES'; lra).
  pose proof (Bsqrt_correct prec emax _ _ mode_NE S) as (V & FV & _). change (Bsqrt mode_NE S) with r in *.
  assert (FR : fin r = true). { rewrite FV. destruct S as [s|s| |s mm ee he]; try discriminate; try reflexivity. destruct s; [|reflexivity]. exfalso. revert SP. cbn. unfold F2R. cbn. intros SP. assert (IZR (Z.neg mm) * bpow radix2 ee < 0); [|lra]. pose proof (bpow_gt_0 radix2 ee). assert (IZR (Z.neg mm) < 0) by (apply IZR_lt; lia). nra. }
  split; [exact FR|]. rewrite V. change (round radix2 (SpecFloat.fexp prec emax) (round_mode mode_NE) (sqrt (B2R S))) with (rnd (sqrt (B2R S))).
  pose proof (rnd_fine (sqrt (B2R S))) as RF. assert (U : bpow radix2 (-53) = / 2 ^ 53) by (rewrite pow_IZR; reflexivity). rewrite U in RF.
  pose proof (sqrt_pos (B2R S)) as SQ. pose proof (sqrt_sqrt (B2R S) SP) as SS. set (q := sqrt (B2R S)) in *. rewrite (Rabs_pos_eq q) in RF by exact SQ.
  assert (Q1 : Rabs (q - n) <= n * / 2 ^ 49).
  { apply (Rmult_le_reg_r (q + n)); [lra|]. rewrite <- (Rabs_pos_eq (q + n)) at 1 by lra. rewrite <- Rabs_mult. replace ((q - n) * (q + n)) with (B2R S - m) by (rewrite <- NN, <- SS; ring).
    eapply Rle_trans; [exact ES'|]. rewrite <- NN. assert (0 < / 2 ^ 49) by (cbn -[IZR]; lra). nra. }
  pose proof tiny as TN. set (t := / 2 ^ 200) in *. set (w := / 2 ^ 100) in *. set (b := bpow radix2 (-1074)) in *. clearbody t w b.
  replace (rnd q - n) with ((rnd q - q) + (q - n)) by ring. eapply Rle_trans; [apply Rabs_triang|]. apply Rabs_le_inv in Q1. assert (Q2 := Rabs_le _ _ Q1).
  assert (b <= n * / 2 ^ 60) by (cbn -[IZR] in *; lra). unfold Rdiv. cbn -[IZR] in *. lra.
Qed.
End Norm.
