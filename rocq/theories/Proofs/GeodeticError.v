(** * How far the latitude iteration of eci_to_geodedic lands from the true latitude

    Written over plain reals: [A] the equatorial radius, [e] the squared eccentricity.  The model's
    constants are put in by Props/C42.v. *)
From Coq Require Import Reals Lra Psatz.
From Flocq Require Import Core.Raux.
From Verif.Inst Require Import RInst RTac Atan2.
From Verif.Proofs Require Import FrameR.
Local Open Scope R_scope.

Lemma sin_lip x y : Rabs (sin x - sin y) <= Rabs (x - y).
Proof.
  assert (G : forall a b, a < b -> Rabs (sin b - sin a) <= b - a).
  { intros a b H. destruct (MVT_cor2 sin cos a b H (fun c _ => derivable_pt_lim_sin c)) as (c & E & _). rewrite E.
    rewrite Rabs_mult, (Rabs_pos_eq (b - a)) by lra. pose proof (COS_bound c). assert (Rabs (cos c) <= 1) by (apply Rabs_le; lra). nra. }
  destruct (Rtotal_order x y) as [H|[->|H]].
  - rewrite Rabs_minus_sym, (Rabs_minus_sym x), (Rabs_pos_eq (y - x)) by lra. now apply G.
  - unfold Rminus. rewrite !Rplus_opp_r. lra.
  - rewrite (Rabs_pos_eq (x - y)) by lra. now apply G.
Qed.
Lemma cos_lip_at x y m : Rabs (x - y) <= m -> Rabs (cos x - cos y) <= m * (Rabs (sin y) + m).
Proof.
  intros Hm.
  assert (G : forall a b, a < b -> b - a <= m -> forall t, (t = a \/ t = b) -> Rabs (cos b - cos a) <= m * (Rabs (sin t) + m)).
  { intros a b H Hb t Ht. destruct (MVT_cor2 cos (fun u => - sin u) a b H (fun c _ => derivable_pt_lim_cos c)) as (c & E & Hc). rewrite E.
    rewrite Rabs_mult, Rabs_Ropp, (Rabs_pos_eq (b - a)) by lra.
    assert (S : Rabs (sin c) <= Rabs (sin t) + m).
    { pose proof (sin_lip c t) as L. pose proof (Rabs_triang_inv (sin c) (sin t)) as T.
      assert (Rabs (c - t) <= m) by (apply Rabs_le; destruct Ht; subst; lra). lra. }
    pose proof (Rabs_pos (sin c)). pose proof (Rabs_pos (sin t)).
    rewrite Rmult_comm. apply Rmult_le_compat; lra. }
  destruct (Rtotal_order x y) as [H|[->|H]].
  - rewrite (Rabs_left (x - y)) in Hm by lra. rewrite Rabs_minus_sym. apply (G x y); lra || now right.
  - pose proof (Rabs_pos (sin y)). pose proof (Rabs_pos (y - y)). unfold Rminus at 1. rewrite Rplus_opp_r, Rabs_R0. apply Rmult_le_pos; lra.
  - rewrite (Rabs_pos_eq (x - y)) in Hm by lra. apply (G y x); lra || now left.
Qed.
Lemma atan_abs u : Rabs (atan u) <= Rabs u.
Proof.
  assert (G : forall v, 0 < v -> 0 <= atan v <= v).
  { intros v H. split.
    - rewrite <- atan_0. left. now apply atan_increasing.
    - destruct (MVT_cor2 atan (fun t => / (1 + t ^ 2)) 0 v H) as (c & E & _).
      + intros c _. apply derivable_pt_lim_atan.
      + rewrite atan_0 in E. assert (0 < / (1 + c ^ 2) <= 1); [|nra].
        assert (0 <= c ^ 2) by (simpl; nra). split; [apply Rinv_0_lt_compat; lra|]. rewrite <- Rinv_1. apply Rinv_le_contravar; lra. }
  destruct (Rtotal_order u 0) as [H|[->|H]].
  - destruct (G (- u)) as [G1 G2]; [lra|]. rewrite atan_opp in G1, G2. rewrite (Rabs_left u), Rabs_left1; lra.
  - rewrite atan_0. lra.
  - destruct (G u H). rewrite !Rabs_pos_eq; lra.
Qed.

(** The angle between the direction of (r, y) and the latitude phi, from the cross and dot products. *)
Lemma angle_off r y phi m :
  0 < r -> - (PI / 2) < phi < PI / 2 -> 0 < r * cos phi + y * sin phi ->
  Rabs (y * cos phi - r * sin phi) <= m * (r * cos phi + y * sin phi) ->
  Rabs (Ratan2 y r - phi) <= m.
Proof.
  intros Hr Hp Hd Hc. destruct (Ratan2_polar y r) as [P1 P2]. set (rho := sqrt (r * r + y * y)) in *. set (x := Ratan2 y r) in *.
  assert (Hrho : 0 < rho) by (apply sqrt_lt_R0; nra).
  assert (Hx : - (PI / 2) < x < PI / 2).
  { unfold x, Ratan2. rewrite Rlt_bool_true by exact Hr. pose proof (atan_bound (y / r)). lra. }
  assert (D : r * cos phi + y * sin phi = rho * cos (x - phi)) by (rewrite P1, P2 at 1; rewrite cos_minus; ring).
  assert (C : y * cos phi - r * sin phi = rho * sin (x - phi)) by (rewrite P1, P2 at 1; rewrite sin_minus; ring).
  rewrite D, C in *. assert (Cp : 0 < cos (x - phi)) by nra.
  assert (Hb : - (PI / 2) < x - phi < PI / 2).
  { destruct (Rlt_le_dec (- (PI / 2)) (x - phi)) as [K|K].
    - split; [exact K|]. destruct (Rlt_le_dec (x - phi) (PI / 2)) as [K'|K']; [exact K'|exfalso].
      pose proof (cos_le_0 (x - phi) K'). lra.
    - exfalso. pose proof (cos_le_0 (- (x - phi))). rewrite cos_neg in *. lra. }
  replace (x - phi) with (atan (tan (x - phi))) by (apply atan_tan; exact Hb).
  eapply Rle_trans; [apply atan_abs|]. unfold tan, Rdiv. rewrite Rabs_mult, (Rabs_pos_eq (/ _)) by (left; now apply Rinv_0_lt_compat).
  apply (Rmult_le_reg_r (cos (x - phi))); [exact Cp|]. rewrite Rmult_assoc, Rinv_l, Rmult_1_r by lra.
  rewrite Rabs_mult, (Rabs_pos_eq rho) in Hc by lra. apply (Rmult_le_reg_l rho); lra.
Qed.

Section Ellipsoid.
Context (A e phi h : R).
Context (HA : 0 < A) (He : 669 / 100000 < e < 6695 / 1000000).
Context (Hphi : - (PI / 2) < phi < PI / 2) (Hh : 0 <= h).
Let s := sin phi.
Let c := cos phi.
Let w (x : R) := 1 - e * (sin x * sin x).
Let q := sqrt (w phi).
Let N := A / q.
Let r := (N + h) * c.
Let z := (N * (1 - e) + h) * s.
Let Y x := z + A * (1 / w x) * e * sin x.

Lemma ge_w x : 993305 / 1000000 < w x <= 1.
Proof. unfold w. pose proof (sc2 x). assert (0 <= sin x * sin x <= 1) by nra. nra. Qed.
Lemma ge_q : 99664 / 100000 < q <= 1 /\ q * q = w phi.
Proof.
  pose proof (ge_w phi) as W. unfold q. pose proof (sqrt_sqrt (w phi) ltac:(lra)) as S. pose proof (sqrt_pos (w phi)). split; [|exact S]. split; nra.
Qed.
Lemma ge_c : 0 < c <= 1. Proof. split; [apply cos_gt_0; lra|apply COS_bound]. Qed.
Lemma ge_s : -1 <= s <= 1. Proof. apply SIN_bound. Qed.
Lemma ge_sc : s * s + c * c = 1. Proof. unfold s, c. apply sc2. Qed.
Lemma ge_N : A <= N /\ N * q = A /\ N * w phi = A * q /\ 10034 * A >= 10000 * N.
Proof.
  destruct ge_q as [Q1 Q2]. assert (E : N * q = A) by (unfold N; field; lra).
  repeat split; [|exact E| |].
  - assert (0 < N) by (apply Rdiv_lt_0_compat; lra). nra.
  - rewrite <- Q2, <- Rmult_assoc, E. reflexivity.
  - assert (0 < N) by (apply Rdiv_lt_0_compat; lra). nra.
Qed.
Lemma ge_r : 0 < r. Proof. destruct ge_N, ge_c. apply Rmult_lt_0_compat; lra. Qed.

(** The first guess: the geocentric latitude. *)
Lemma ge_start : Rabs (Ratan2 z r - phi) <= 675 / 100000 * (c * Rabs s).
Proof.
  destruct ge_N as (N1 & N2 & N3 & N4). destruct ge_q as [Q1 Q2]. pose proof ge_c as C. pose proof ge_sc as SC. pose proof (ge_w phi) as W.
  assert (P : r * cos phi + z * sin phi = N * w phi + h).
  { fold s c. unfold r, z, w. fold s. transitivity ((N + h) * (s * s + c * c) - N * e * (s * s)); [ring|]. rewrite SC. ring. }
  assert (X : z * cos phi - r * sin phi = - (N * e * (c * s))) by (fold s c; unfold r, z; ring).
  assert (NW : 0 < N * w phi) by (apply Rmult_lt_0_compat; lra).
  apply angle_off; [apply ge_r|exact Hphi| |]; rewrite ?P, ?X; [lra|].
  rewrite Rabs_Ropp, Rabs_mult, (Rabs_pos_eq (N * e)) by (apply Rmult_le_pos; lra). rewrite Rabs_mult, (Rabs_pos_eq c) by lra.
  pose proof (Rabs_pos s). assert (0 <= c * Rabs s) by (apply Rmult_le_pos; lra).
  replace (675 / 100000 * (c * Rabs s) * (N * w phi + h)) with ((N * w phi + h) * (675 / 100000) * (c * Rabs s)) by ring.
  apply Rmult_le_compat_r; [assumption|].
  assert (N * e <= N * w phi * (675 / 100000)); [|nra].
  rewrite Rmult_assoc. apply Rmult_le_compat_l; lra.
Qed.

Lemma ge_inv_w x y : 1 / w x - 1 / w y = e * ((sin x - sin y) * (sin x + sin y)) * / (w x * w y).
Proof.
  pose proof (ge_w x). pose proof (ge_w y). replace (e * ((sin x - sin y) * (sin x + sin y))) with (w y - w x) by (unfold w; ring).
  field. lra.
Qed.

Lemma ge_G x : Rabs (sin x * (1 / w x) - s * (1 / w phi)) <= 10205 / 10000 * Rabs (x - phi).
Proof.
  pose proof (ge_w x) as W. pose proof (ge_w phi) as V.
  assert (E : sin x * (1 / w x) - s * (1 / w phi) = (sin x - s) * ((1 + e * (sin x * s)) * / (w x * w phi))).
  { unfold s. assert (w x <> 0) by lra. assert (w phi <> 0) by lra. unfold w in *. field. split; assumption. }
  rewrite E, Rabs_mult. pose proof (sin_lip x phi) as L. fold s in L. rewrite (Rmult_comm (10205 / 10000)).
  apply Rmult_le_compat; try apply Rabs_pos; [exact L|].
  assert (I : 0 < / (w x * w phi) <= 1013526 / 1000000).
  { assert (9866548 / 10000000 < w x * w phi) by nra. split; [apply Rinv_0_lt_compat; lra|].
    replace (1013526 / 1000000) with (/ (1000000 / 1013526)) by field. apply Rinv_le_contravar; lra. }
  pose proof (SIN_bound x). pose proof ge_s. assert (-1 <= sin x * s <= 1) by nra.
  rewrite Rabs_pos_eq; [|apply Rmult_le_pos; nra].
  assert (0 <= 1 + e * (sin x * s) <= 1006695 / 1000000) by nra.
  apply Rle_trans with (1006695 / 1000000 * (1013526 / 1000000)); [apply Rmult_le_compat; lra|lra].
Qed.

Lemma ge_D : 1 / w phi - 1 / q = e * (s * s) * / (w phi * (1 + q)) /\ 1 / 2 <= / (w phi * (1 + q)) <= 5043 / 10000.
Proof.
  destruct ge_q as [Q1 Q2]. pose proof (ge_w phi) as W. split.
  - replace (e * (s * s)) with (1 - q * q) by (rewrite Q2; unfold w; fold s; ring). rewrite <- Q2. field. lra.
  - assert (1983178 / 1000000 < w phi * (1 + q) <= 2) by nra.
    split.
    + replace (1 / 2) with (/ 2) by lra. apply Rinv_le_contravar; lra.
    + replace (5043 / 10000) with (/ (10000 / 5043)) by field. apply Rinv_le_contravar; lra.
Qed.

(** One pass of the loop. *)
Lemma ge_step x m : 0 <= m -> Rabs (x - phi) <= m * (c * Rabs s) ->
  Rabs (Ratan2 (Y x) r - phi) <= (6905 / 1000000 * m + 2285 / 100000000) * (c * Rabs s).
Proof.
  intros Hm Hx. destruct ge_N as (N1 & N2 & N3 & N4). destruct ge_q as [Q1 Q2]. pose proof ge_c as C. pose proof ge_sc as SC.
  pose proof (ge_w phi) as V. pose proof (ge_w x) as W. pose proof ge_s as S.
  set (K := A * (sin x * (1 / w x))).
  assert (P : r * cos phi + Y x * sin phi = A * q + h + e * (K * s)).
  { assert (WF : w phi = 1 - e * (s * s)) by reflexivity. rewrite <- N3, WF. fold s c. unfold Y, r, z, K.
    transitivity ((N + h) * (s * s + c * c) - N * e * (s * s) + e * (A * (sin x * (1 / w x)) * s)); [ring|]. rewrite SC. ring. }
  assert (X : Y x * cos phi - r * sin phi = c * (e * (K - N * s))) by (fold s c; unfold Y, r, z, K; ring).
  assert (I : 0 < 1 / w x <= 100675 / 100000).
  { split; [apply Rdiv_lt_0_compat; lra|]. unfold Rdiv at 1. rewrite Rmult_1_l.
    replace (100675 / 100000) with (/ (100000 / 100675)) by field. apply Rinv_le_contravar; lra. }
  assert (KB : Rabs (sin x * (1 / w x)) <= 100675 / 100000).
  { rewrite Rabs_mult, (Rabs_pos_eq (1 / w x)) by lra. pose proof (SIN_bound x). assert (Rabs (sin x) <= 1) by (apply Rabs_le; lra).
    pose proof (Rabs_pos (sin x)). nra. }
  assert (PB : 98989 / 100000 * A <= A * q + h + e * (K * s)).
  { unfold K. apply Rabs_le_inv in KB. set (k := sin x * (1 / w x)) in *.
    assert (- (100675 / 100000) <= k * s) by nra. assert (- (6741 / 1000000) <= e * (k * s)) by nra.
    replace (e * (A * k * s)) with (A * (e * (k * s))) by ring. nra. }
  apply angle_off; [apply ge_r|exact Hphi| |]; rewrite ?P, ?X; [nra|].
  assert (KN : K - N * s = A * ((sin x * (1 / w x) - s * (1 / w phi)) + s * (1 / w phi - 1 / q))).
  { unfold K, N. field. lra. }
  assert (NB : Rabs (K - N * s) <= A * (10205 / 10000 * (m * (c * Rabs s)) + 3377 / 1000000 * Rabs s)).
  { rewrite KN, Rabs_mult, (Rabs_pos_eq A) by lra. apply Rmult_le_compat_l; [lra|]. eapply Rle_trans; [apply Rabs_triang|].
    apply Rplus_le_compat; [eapply Rle_trans; [apply ge_G|lra]|].
    destruct ge_D as [D1 [D2 D3]]. rewrite D1, Rabs_mult, Rmult_comm. apply Rmult_le_compat_r; [apply Rabs_pos|].
    assert (0 <= s * s <= 1) by nra. assert (0 <= e * (s * s) <= 6695 / 1000000) by nra.
    rewrite Rabs_pos_eq by (apply Rmult_le_pos; lra).
    apply Rle_trans with (6695 / 1000000 * (5043 / 10000)); [apply Rmult_le_compat; lra|lra]. }
  rewrite Rabs_mult, (Rabs_pos_eq c), Rabs_mult, (Rabs_pos_eq e) by lra.
  pose proof (Rabs_pos s) as AS. set (a := Rabs s) in *. set (T := 6905 / 1000000 * m + 2285 / 100000000).
  assert (T0 : 0 <= T * (c * a)) by (apply Rmult_le_pos; [unfold T; lra|apply Rmult_le_pos; lra]).
  apply Rle_trans with (T * (c * a) * (98989 / 100000 * A)); [|apply Rmult_le_compat_l; lra].
  apply Rle_trans with (c * (6695 / 1000000 * (A * (10205 / 10000 * (m * (c * a)) + 3377 / 1000000 * a)))).
  - apply Rmult_le_compat_l; [lra|]. apply Rmult_le_compat; [lra|apply Rabs_pos|lra|exact NB].
  - assert (MC : m * (c * a) <= m * a) by (apply Rmult_le_compat_l; nra).
    replace (T * (c * a) * (98989 / 100000 * A)) with (c * (A * (98989 / 100000 * T * a))) by ring.
    replace (c * (6695 / 1000000 * (A * (10205 / 10000 * (m * (c * a)) + 3377 / 1000000 * a))))
      with (c * (A * (6695 / 1000000 * (10205 / 10000 * (m * (c * a)) + 3377 / 1000000 * a)))) by ring.
    apply Rmult_le_compat_l; [lra|]. apply Rmult_le_compat_l; [lra|]. unfold T. assert (0 <= m * a) by (apply Rmult_le_pos; lra). nra.
Qed.

(** The height computed from the last pass. *)
Lemma ge_height x y :
  Rabs (x - phi) <= 24 / 1000000 * (c * Rabs s) -> Rabs (y - phi) <= 24 / 1000000 * (c * Rabs s) ->
  Rabs (r / cos y - A * (1 / w x) - h + A * e / 2 * (s * s)) <= (A * (533 / 10000000) + h * (245 / 10000000)) * (s * s).
Proof.
  intros Hx Hy. destruct ge_N as (N1 & N2 & N3 & N4). destruct ge_q as [Q1 Q2]. pose proof ge_c as C. pose proof ge_s as S.
  pose proof (ge_w phi) as V. pose proof (ge_w x) as W. pose proof (Rabs_pos s) as AS. set (a := Rabs s) in *.
  assert (A1 : a <= 1) by (unfold a; apply Rabs_le; lra).
  assert (AA : a * a = s * s) by (unfold a; rewrite <- Rabs_mult; apply Rabs_pos_eq; nra).
  assert (DC : Rabs (cos y - c) <= 24001 / 1000000000 * (c * (a * a))).
  { eapply Rle_trans; [apply cos_lip_at; exact Hy|]. fold s. fold a. assert (0 <= c * a) by nra. assert (c * a <= a) by nra. nra. }
  pose proof (Rabs_le_inv _ _ DC) as DC'.
  assert (CA : 0 <= c * (a * a) <= c * 1) by (split; [apply Rmult_le_pos; nra|apply Rmult_le_compat_l; nra]).
  assert (CY : 9999 / 10000 * c < cos y) by lra. assert (CY0 : 0 < cos y) by lra.
  assert (E1 : r / cos y - A * (1 / w x) - h + A * e / 2 * (s * s)
    = (N + h) * ((c - cos y) / cos y) - A * (1 / w x - 1 / w phi) - A * (1 / w phi - 1 / q - e / 2 * (s * s))).
  { unfold r, N. field. lra. }
  destruct ge_D as [D1 [D2 D3]]. rewrite E1.
  assert (T1 : Rabs ((N + h) * ((c - cos y) / cos y)) <= (N + h) * (2404 / 100000000 * (a * a))).
  { rewrite Rabs_mult, (Rabs_pos_eq (N + h)) by lra. apply Rmult_le_compat_l; [lra|].
    unfold Rdiv. rewrite Rabs_mult, (Rabs_pos_eq (/ cos y)) by (left; now apply Rinv_0_lt_compat).
    apply (Rmult_le_reg_r (cos y)); [exact CY0|]. rewrite Rmult_assoc, Rinv_l, Rmult_1_r by lra. rewrite Rabs_minus_sym. nra. }
  assert (T2 : Rabs (A * (1 / w x - 1 / w phi)) <= A * (33 / 100000000 * (a * a))).
  { rewrite Rabs_mult, (Rabs_pos_eq A) by lra. apply Rmult_le_compat_l; [lra|]. rewrite ge_inv_w.
    pose proof (sin_lip x phi) as L. fold s in L |- *.
    assert (L1 : Rabs (sin x - s) <= 24 / 1000000 * a) by nra.
    assert (L2 : Rabs (sin x + s) <= 2000024 / 1000000 * a).
    { replace (sin x + s) with ((sin x - s) + 2 * s) by ring. eapply Rle_trans; [apply Rabs_triang|]. rewrite (Rabs_mult 2), (Rabs_pos_eq 2) by lra. fold a. lra. }
    assert (I : 0 < / (w x * w phi) <= 1013526 / 1000000).
    { assert (9866548 / 10000000 < w x * w phi) by nra. split; [apply Rinv_0_lt_compat; lra|].
      replace (1013526 / 1000000) with (/ (1000000 / 1013526)) by field. apply Rinv_le_contravar; lra. }
    rewrite !Rabs_mult, (Rabs_pos_eq e), (Rabs_pos_eq (/ _)) by lra.
    assert (M : Rabs (sin x - s) * Rabs (sin x + s) <= 24 / 1000000 * a * (2000024 / 1000000 * a)) by (apply Rmult_le_compat; try apply Rabs_pos; assumption).
    assert (0 <= Rabs (sin x - s) * Rabs (sin x + s)) by (apply Rmult_le_pos; apply Rabs_pos).
    apply Rle_trans with (6695 / 1000000 * (24 / 1000000 * a * (2000024 / 1000000 * a)) * (1013526 / 1000000)).
    - apply Rmult_le_compat; [apply Rmult_le_pos; lra|lra| |lra]. apply Rmult_le_compat; lra.
    - assert (0 <= a * a) by nra. nra. }
  assert (T3 : Rabs (A * (1 / w phi - 1 / q - e / 2 * (s * s))) <= A * (2879 / 100000000 * (a * a))).
  { rewrite Rabs_mult, (Rabs_pos_eq A) by lra. apply Rmult_le_compat_l; [lra|]. rewrite D1, AA.
    set (v := / (w phi * (1 + q))) in *. replace (e * (s * s) * v - e / 2 * (s * s)) with (e * (v - 1 / 2) * (s * s)) by field.
    rewrite Rabs_mult, (Rabs_pos_eq (s * s)) by nra. apply Rmult_le_compat_r; [nra|]. rewrite Rabs_mult, (Rabs_pos_eq e), Rabs_pos_eq by lra. nra. }
  assert (NN : N * (a * a) <= 10034 / 10000 * A * (a * a)) by (apply Rmult_le_compat_r; nra).
  rewrite <- AA in T3 |- *. eapply Rle_trans; [apply Rabs_triang|]. rewrite Rabs_Ropp.
  eapply Rle_trans; [apply Rplus_le_compat_r; eapply Rle_trans; [apply Rabs_triang|rewrite Rabs_Ropp; apply Rplus_le_compat; [exact T1|exact T2]]|].
  eapply Rle_trans; [apply Rplus_le_compat_l, T3|]. assert (0 <= a * a) by nra.
  assert (0 <= A * (a * a)) by (apply Rmult_le_pos; lra). assert (0 <= h * (a * a)) by (apply Rmult_le_pos; lra). lra.
Qed.
End Ellipsoid.
