(** * The Kepler iteration for eccentricities up to 0.77

    Newton's quadratic bound alone does not contract from the first guess.  One step does: with L the distance
    from the first guess to the root, the error after a step is (L B - c A) / (1 - c cos L - L sin L), where
    c^2 + L^2 = e^2, A = sin L - L cos L and B = cos L - 1 + L sin L; by Cauchy-Schwarz that is at most 0.487.
    From there on the quadratic bound takes over. *)
From Coq Require Import ZArith Bool Reals Lra Lia Psatz.
From Flocq Require Import Core.Raux.
From Verif.Model Require Import Float Str Satrec Constants Sgp4.
From Verif.Inst Require Import RInst RTac.
From Verif.Spec Require Import KeplerSpec.
From Verif.Proofs Require Import KeplerFacts.
Local Open Scope R_scope.

Lemma sin_cube L : Rabs L <= 1 -> L * sin L >= L ^ 2 - L ^ 4 / 6 /\ Rabs (L - sin L) <= Rabs L ^ 3 / 6.
Proof.
  assert (P : forall x, 0 <= x <= 1 -> x - x ^ 3 / 6 <= sin x <= x).
  { intros x H. split.
    - pose proof (sin_bound x 0 ltac:(lra) ltac:(pose proof PI2_1; lra)) as [A _]. unfold sin_approx, sin_term in A. cbn in A. lra.
    - destruct (Req_dec x 0) as [-> |N]; [rewrite sin_0; lra|]. left. apply sin_lt_x. lra. }
  intros H. destruct (Rle_or_lt 0 L) as [S|S].
  - rewrite (Rabs_pos_eq L) in * by lra. pose proof (P L ltac:(lra)). split; [nra|]. rewrite Rabs_pos_eq; lra.
  - rewrite (Rabs_left L) in * by lra. pose proof (P (- L) ltac:(lra)) as Q. rewrite sin_neg in Q. split; [nra|]. rewrite Rabs_left1; [|lra]. replace ((- L) ^ 3) with (- L ^ 3) in * by ring. lra.
Qed.
Lemma cos_six L : Rabs L <= 1 -> 1 - L ^ 2 / 2 + L ^ 4 / 24 - L ^ 6 / 720 <= cos L.
Proof.
  intros H. apply Rabs_le_inv in H. pose proof PI2_1 as P.
  pose proof (cos_bound L 1 ltac:(lra) ltac:(lra)) as [A _]. unfold cos_approx, cos_term in A. cbn in A. lra.
Qed.

(** A^2 + B^2 *)
Lemma ab_small L : Rabs L <= 1 -> 2 - 2 * cos L + L ^ 2 - 2 * (L * sin L) <= L ^ 4 / 4 + L ^ 6 / 360.
Proof. intros H. destruct (sin_cube L H) as (S & _). pose proof (cos_six L H). lra. Qed.

(** the error of the k-th guess, with room for rounding *)
Definition gh (k : nat) : R := match k with
  | O => 77 / 100 | S O => 4871 / 10000 | 2%nat => 3981 / 10000 | 3%nat => 2661 / 10000 | 4%nat => 119 / 1000 | 5%nat => 239 / 10000
  | 6%nat => 97 / 100000 | 7%nat => 16 / 10000000 | 8%nat => 44 / 10000000000000 | _ => 1 / 10000000000000 end.
Lemma gh_le k : 0 < gh k <= 77 / 100 /\ (k <> O -> gh k <= 4871 / 10000).
Proof. do 9 (destruct k as [|k]; [cbn [gh]; split; [lra|intros; try lra; congruence]|]). cbn [gh]. split; [|intros]; lra. Qed.
Lemma gh_step k : k <> O -> 1677 / 1000 * (gh k * gh k) + 9 / 100000000000000 <= gh (S k).
Proof. do 9 (destruct k as [|k]; [intros; cbn [gh]; try lra; congruence|]). intros _. cbn [gh]. lra. Qed.

Section K.
Variables ax ay u e : R.
Hypothesis He : 0 <= e <= 77 / 100.
Hypothesis Hxy : ax * ax + ay * ay = e * e.

Lemma cauchy p q a b : (p * a + q * b) * (p * a + q * b) <= (p * p + q * q) * (a * a + b * b).
Proof. assert (0 <= (p * b - q * a) * (p * b - q * a)) by (apply Rle_0_sqr). nra. Qed.

(** the remainder of the first-order expansion at [x], exactly *)
Lemma remainder x y : let h := x - y in let s := ax * sin x - ay * cos x in let c := ax * cos x + ay * sin x in
  kep ax ay y - kep ax ay x - dkep ax ay x * (y - x) = s * (1 - cos h) - c * (h - sin h) /\ s * s + c * c = e * e.
Proof.
  intros h s c. split.
  - unfold kep, dkep. replace y with (x - h) by (unfold h; ring). rewrite sin_minus, cos_minus. unfold s, c. ring.
  - rewrite <- Hxy. unfold s, c. pose proof (cs1 x) as C. set (sx := sin x) in *. set (cx := cos x) in *. clearbody sx cx.
    replace ((ax * sx - ay * cx) * (ax * sx - ay * cx) + (ax * cx + ay * sx) * (ax * cx + ay * sx)) with ((ax * ax + ay * ay) * (cx * cx + sx * sx)) by ring. rewrite C. ring.
Qed.
Lemma kep_second2 x y d : Rabs (y - x) <= d -> d <= 1 ->
  Rabs (kep ax ay y - kep ax ay x - dkep ax ay x * (y - x)) <= e * (d * d * (1 / 2 + d * d / 360)).
Proof.
  intros H D. destruct (remainder x y) as (E & Q). cbv zeta in E, Q. rewrite E. set (h := x - y) in *. set (s := ax * sin x - ay * cos x) in *. set (c := ax * cos x + ay * sin x) in *. clearbody s c.
  assert (Hh : Rabs h <= d) by (unfold h; now rewrite Rabs_minus_sym). clearbody h. pose proof (Rabs_pos h) as P0.
  pose proof (ab_small h ltac:(lra)) as AB. pose proof (cs1 h) as C1.
  assert (G : (1 - cos h) * (1 - cos h) + (h - sin h) * (h - sin h) <= d ^ 4 / 4 + d ^ 6 / 360).
  { assert (H2 : h ^ 2 <= d ^ 2) by (rewrite <- (pow2_abs h); apply pow_incr; lra).
    assert (H4 : h ^ 4 <= d ^ 4) by (replace (h ^ 4) with ((h ^ 2) ^ 2) by ring; replace (d ^ 4) with ((d ^ 2) ^ 2) by ring; apply pow_incr; split; [apply pow2_ge_0|exact H2]).
    assert (H6 : h ^ 6 <= d ^ 6) by (replace (h ^ 6) with ((h ^ 2) ^ 3) by ring; replace (d ^ 6) with ((d ^ 2) ^ 3) by ring; apply pow_incr; split; [apply pow2_ge_0|exact H2]).
    replace ((1 - cos h) * (1 - cos h) + (h - sin h) * (h - sin h)) with (2 - 2 * cos h + h ^ 2 - 2 * (h * sin h) + (cos h * cos h + sin h * sin h - 1)) by ring. rewrite C1. lra. }
  pose proof (cauchy s c (1 - cos h) (- (h - sin h))) as CS. rewrite Q in CS.
  replace (s * (1 - cos h) - c * (h - sin h)) with (s * (1 - cos h) + c * - (h - sin h)) by ring. set (X := s * (1 - cos h) + c * - (h - sin h)) in *.
  assert (D2 : 0 <= d * d) by nra. assert (P : 0 <= e * (d * d * (1 / 2 + d * d / 360))) by (apply Rmult_le_pos; nra).
  rewrite <- (Rabs_pos_eq _ P). apply Rsqr_le_abs_0. unfold Rsqr.
  eapply Rle_trans; [exact CS|]. replace (e * (d * d * (1 / 2 + d * d / 360)) * (e * (d * d * (1 / 2 + d * d / 360)))) with (e * e * (d ^ 4 / 4 + d ^ 6 / 360 + d ^ 8 / 129600)) by field.
  assert (0 <= d ^ 8) by (replace (d ^ 8) with ((d ^ 4) ^ 2) by ring; apply pow2_ge_0). apply Rmult_le_compat_l; [nra|]. nra.
Qed.

Variable r : R.
Hypothesis Hr : kep ax ay r = u.
Hypothesis Hu : Rabs (u - r) <= e.

Lemma newton_gap E : E + newton ax ay u E - r = (kep ax ay r - kep ax ay E - dkep ax ay E * (r - E)) / dkep ax ay E.
Proof. rewrite newton_R, <- Hr. pose proof (dkep_bounds ax ay e ltac:(lra) Hxy E) as B. field. lra. Qed.
Lemma newton_error2 E d : Rabs (E - r) <= d -> d <= 77 / 100 -> Rabs (E + newton ax ay u E - r) <= 168 / 100 * (d * d) /\
  (d <= 4871 / 10000 -> Rabs (E + newton ax ay u E - r) <= 1677 / 1000 * (d * d)).
Proof.
  intros H D. pose proof (Rabs_pos (E - r)) as P0. assert (D0 : 0 <= d) by lra. rewrite newton_gap. pose proof (dkep_bounds ax ay e ltac:(lra) Hxy E) as B. rewrite Rabs_minus_sym in H. pose proof (kep_second2 E r d H ltac:(lra)) as S.
  assert (G : forall k, e * (1 / 2 + d * d / 360) <= k * (23 / 100) -> Rabs ((kep ax ay r - kep ax ay E - dkep ax ay E * (r - E)) / dkep ax ay E) <= k * (d * d)).
  { intros k K. unfold Rdiv. rewrite Rabs_mult, (Rabs_pos_eq (/ dkep ax ay E)). 2:{ apply Rlt_le, Rinv_0_lt_compat; lra. }
    apply Rmult_le_reg_r with (dkep ax ay E); [lra|]. rewrite Rmult_assoc, Rinv_l, Rmult_1_r by lra. eapply Rle_trans; [exact S|].
    assert (0 <= d * d) by nra. replace (e * (d * d * (1 / 2 + d * d / 360))) with (e * (1 / 2 + d * d / 360) * (d * d)) by ring.
    assert (K0 : 0 <= k). { assert (0 <= e * (1 / 2 + d * d / 360)) by (apply Rmult_le_pos; nra). lra. }
    apply Rle_trans with (k * (23 / 100) * (d * d)); [apply Rmult_le_compat_r; assumption|]. replace (k * (d * d) * dkep ax ay E) with (k * dkep ax ay E * (d * d)) by ring. apply Rmult_le_compat_r; [assumption|]. apply Rmult_le_compat_l; lra. }
  split; [|intros D2]; apply G.
  - assert (d * d <= 6 / 10) by nra. assert (e * (1 / 2 + d * d / 360) <= 77 / 100 * (1 / 2 + 6 / 10 / 360)) by (apply Rmult_le_compat; nra). lra.
  - assert (d * d <= 238 / 1000) by nra. assert (e * (1 / 2 + d * d / 360) <= 77 / 100 * (1 / 2 + 238 / 1000 / 360)) by (apply Rmult_le_compat; nra). lra.
Qed.

(** the first step *)
Lemma first_error : Rabs (u + newton ax ay u u - r) <= 487 / 1000.
Proof.
  rewrite newton_gap. pose proof (dkep_bounds ax ay e ltac:(lra) Hxy u) as B.
  set (l := r - u) in *. assert (Hl : Rabs l <= e) by (unfold l; now rewrite Rabs_minus_sym). pose proof (Rabs_pos l) as P0.
  set (c := ax * cos r + ay * sin r).
  assert (EL : ax * sin r - ay * cos r = l) by (unfold l; rewrite <- Hr; unfold kep; ring).
  assert (Q : l * l + c * c = e * e). { rewrite <- EL. exact (proj2 (remainder r u)). }
  assert (EU : u = r - l) by (unfold l; ring).
  assert (SU : ax * sin u - ay * cos u = l * cos l - c * sin l). { transitivity ((ax * sin r - ay * cos r) * cos l - c * sin l); [|now rewrite EL]. rewrite EU, sin_minus, cos_minus. unfold c. ring. }
  assert (CU : ax * cos u + ay * sin u = c * cos l + l * sin l). { transitivity (c * cos l + (ax * sin r - ay * cos r) * sin l); [|now rewrite EL]. rewrite EU, sin_minus, cos_minus. unfold c. ring. }
  assert (DU : dkep ax ay u = 1 - (c * cos l + l * sin l)) by (rewrite <- CU; unfold dkep; ring).
  assert (NU : kep ax ay r - kep ax ay u - dkep ax ay u * l = l * (cos l - 1 + l * sin l) - c * (sin l - l * cos l)).
  { rewrite DU. replace (kep ax ay u) with (u - (l * cos l - c * sin l)) by (rewrite <- SU; unfold kep; ring). rewrite Hr. replace (kep ax ay r) with (r - l) by (rewrite <- EL; unfold kep; ring). rewrite EU. ring. }
  rewrite NU. set (N := l * (cos l - 1 + l * sin l) - c * (sin l - l * cos l)).
  unfold Rdiv. rewrite Rabs_mult, (Rabs_pos_eq (/ dkep ax ay u)). 2:{ apply Rlt_le, Rinv_0_lt_compat; lra. }
  apply Rmult_le_reg_r with (dkep ax ay u); [lra|]. rewrite Rmult_assoc, Rinv_l, Rmult_1_r by lra. rewrite DU.
  pose proof (ab_small l ltac:(lra)) as AB. destruct (sin_cube l ltac:(lra)) as (_ & CB). pose proof (cs1 l) as C1.
  assert (L1 : 0 <= Rabs l <= 77 / 100) by lra. assert (L3 : Rabs l ^ 3 <= 456533 / 1000000) by (apply Rle_trans with ((77 / 100) ^ 3); [apply pow_incr; lra|lra]).
  assert (L4 : l ^ 4 <= 351531 / 1000000). { replace (l ^ 4) with (Rabs l ^ 4) by (rewrite RPow_abs; apply Rabs_pos_eq; replace (l ^ 4) with ((l ^ 2) ^ 2) by ring; apply pow2_ge_0). apply Rle_trans with ((77 / 100) ^ 4); [apply pow_incr; lra|lra]. }
  assert (L6 : l ^ 6 <= 208423 / 1000000). { replace (l ^ 6) with (Rabs l ^ 6) by (rewrite RPow_abs; apply Rabs_pos_eq; replace (l ^ 6) with ((l ^ 3) ^ 2) by ring; apply pow2_ge_0). apply Rle_trans with ((77 / 100) ^ 6); [apply pow_incr; lra|lra]. }
  apply Rabs_le_inv in CB. unfold N. clear NU DU CU SU EU EL N. clearbody c. set (sn := sin l) in *. set (cn := cos l) in *. set (H := 487 / 1000).
  assert (ABE : (sn - l * cn) * (sn - l * cn) + (cn - 1 + l * sn) * (cn - 1 + l * sn) <= 8847 / 100000).
  { replace ((sn - l * cn) * (sn - l * cn) + (cn - 1 + l * sn) * (cn - 1 + l * sn)) with (2 - 2 * cn + l ^ 2 - 2 * (l * sn) + (cn * cn + sn * sn - 1) * (1 + l ^ 2)) by ring. rewrite C1. lra. }
  assert (CRE : (cn - 1 + l * sn) * sn - (sn - l * cn) * cn = l - sn).
  { replace ((cn - 1 + l * sn) * sn - (sn - l * cn) * cn) with (l * (cn * cn + sn * sn) - sn) by ring. rewrite C1. ring. }
  set (a := sn - l * cn) in *. set (b := cn - 1 + l * sn) in *.
  assert (G : forall s, s * s = 1 -> s * (l * b - c * a) <= H * (1 - (c * cn + l * sn))).
  { intros s S1. pose proof (cauchy l c (s * b + H * sn) (- (s * a) + H * cn)) as CS. rewrite Q in CS.
    assert (S2 : -1 <= s <= 1) by nra.
    assert (Z : (s * b + H * sn) * (s * b + H * sn) + (- (s * a) + H * cn) * (- (s * a) + H * cn) <= H * H * (10000 / 5929)).
    { replace ((s * b + H * sn) * (s * b + H * sn) + (- (s * a) + H * cn) * (- (s * a) + H * cn)) with (s * s * (a * a + b * b) + H * H * (cn * cn + sn * sn) + 2 * H * (s * (b * sn - a * cn))) by ring.
      rewrite S1, C1, CRE. assert (s * (l - sn) <= 761 / 10000) by nra. unfold H. lra. }
    assert (W : (l * (s * b + H * sn) + c * (- (s * a) + H * cn)) * (l * (s * b + H * sn) + c * (- (s * a) + H * cn)) <= H * H).
    { eapply Rle_trans; [exact CS|]. assert (0 <= e * e <= 5929 / 10000) by nra. eapply Rle_trans; [apply Rmult_le_compat_l; [lra|exact Z]|].
      apply Rle_trans with (5929 / 10000 * (H * H * (10000 / 5929))); [apply Rmult_le_compat_r; [unfold H; lra|lra]|right; field]. }
    replace (s * (l * b - c * a)) with (l * (s * b + H * sn) + c * (- (s * a) + H * cn) - H * (c * cn + l * sn)) by ring.
    assert (l * (s * b + H * sn) + c * (- (s * a) + H * cn) <= H); [|lra]. set (v := l * (s * b + H * sn) + c * (- (s * a) + H * cn)) in *. clearbody v. unfold H in *. nra. }
  pose proof (G 1 ltac:(ring)). pose proof (G (-1) ltac:(ring)). apply Rabs_le. unfold H in *. split; lra.
Qed.

(** a correction [q] near the exact one, limited: the cut at 0.95 never goes further past the root *)
Lemma cut_error q c : Rabs (q - newton ax ay u u) <= c -> 0 <= c <= 1 / 1000 ->
  forall l, (l = q \/ (95 / 100 <= q /\ l = 95 / 100) \/ (q <= - (95 / 100) /\ l = - (95 / 100))) -> Rabs (u + l - r) <= 487 / 1000 + c.
Proof.
  intros Q C l Hl. pose proof first_error as F. set (n := newton ax ay u u) in *. clearbody n. apply Rabs_le_inv in Q, F. apply Rabs_le_inv in Hu. apply Rabs_le.
  destruct Hl as [-> |[(G & ->)|(G & ->)]]; lra.
Qed.
Lemma limited_cases q : limited q = q \/ (95 / 100 <= q /\ limited q = 95 / 100) \/ (q <= - (95 / 100) /\ limited q = - (95 / 100)).
Proof.
  unfold limited. rops. case Rle_bool_spec; intros H; [|now left]. case Rlt_bool_spec; intros K; right; [left|right]; (split; [|lra]).
  - rewrite Rabs_pos_eq in H; lra.
  - rewrite Rabs_left1 in H; lra.
Qed.

Lemma step_error2 E d : d <= 4871 / 10000 -> Rabs (E - r) <= d -> Rabs (newton ax ay u E) <= 89 / 100 /\ limited (newton ax ay u E) = newton ax ay u E /\
  Rabs (E + newton ax ay u E - r) <= 1677 / 1000 * (d * d).
Proof.
  intros D H. pose proof (Rabs_pos (E - r)) as P. destruct (newton_error2 E d H ltac:(lra)) as (_ & N). specialize (N D).
  assert (A : Rabs (newton ax ay u E) <= 89 / 100).
  { replace (newton ax ay u E) with ((E + newton ax ay u E - r) + (r - E)) by ring. eapply Rle_trans; [apply Rabs_triang|]. rewrite (Rabs_minus_sym r E). assert (d * d <= 2373 / 10000) by nra. lra. }
  split; [exact A|]. split; [apply limited_id; lra|exact N].
Qed.
Lemma guess_high k : Rabs (guess ax ay u k - r) <= gh k.
Proof.
  induction k as [|k IH]; cbn [guess]; [cbn [gh]; lra|]. destruct (gh_le k) as (G & G1). rops. destruct k as [|k].
  - cbn [guess gh]. pose proof (cut_error (newton ax ay u u) 0 ltac:(rewrite Rminus_diag_eq, Rabs_R0 by reflexivity; lra) ltac:(lra) _ (limited_cases _)). lra.
  - specialize (G1 ltac:(discriminate)). destruct (step_error2 _ _ G1 IH) as (_ & -> & N). pose proof (gh_step (S k) ltac:(discriminate)). lra.
Qed.
(** the last correction is small by the tenth *)
Lemma tenth_small : Rabs (newton ax ay u (guess ax ay u 9)) <= 2 / 10000000000000 /\ large (corr ax ay u 9) = false.
Proof.
  pose proof (guess_high 9) as H. cbn [gh] in H. destruct (step_error2 _ (1 / 10000000000000) ltac:(lra) H) as (A & LM & N).
  set (E := guess ax ay u 9) in *. unfold corr. fold E. rewrite LM.
  assert (Z : Rabs (newton ax ay u E) <= 2 / 10000000000000).
  { replace (newton ax ay u E) with ((E + newton ax ay u E - r) + (r - E)) by ring. eapply Rle_trans; [apply Rabs_triang|]. rewrite (Rabs_minus_sym r E). lra. }
  split; [exact Z|]. unfold large. rops. apply Rle_bool_false. lra.
Qed.
End K.

(** the iteration over the reals *)
Lemma kepler_real_high x y w e r : 0 <= e <= 77 / 100 -> x * x + y * y = e * e -> kep x y r = w -> Rabs (w - r) <= e ->
  exists E, Rabs (E - r) <= 8 / 1000000000000 /\ ko_sineo1 (@sgp4_kepler _ ROps x y w) = sin E /\ ko_coseo1 (@sgp4_kepler _ ROps x y w) = cos E.
Proof.
  intros He Hxy Hr Hu. destruct (@kepler_trace _ ROps x y w large_R) as (j & J1 & -> & _ & J4). exists (@guess _ ROps x y w j). split; [|split; reflexivity].
  pose proof (guess_high x y w e He Hxy r Hr Hu j) as GE. destruct J4 as [-> |J4]; [eapply Rle_trans; [exact GE|]; cbn [gh]; lra|].
  pose proof (small_residual x y w e ltac:(lra) Hxy _ J4) as S. pose proof (dkep_bounds _ _ e ltac:(lra) Hxy (@guess _ ROps x y w j)) as DB.
  pose proof (kep_expands x y e ltac:(lra) Hxy (@guess _ ROps x y w j) r) as KE. rewrite Hr, (Rabs_minus_sym r) in KE. set (E := @guess _ ROps x y w j) in *.
  pose proof (Rabs_pos (E - r)). nra.
Qed.
