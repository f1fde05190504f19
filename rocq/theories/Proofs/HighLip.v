(** * How position and speed in the orbit depend on the eccentric anomaly *)
From Coq Require Import ZArith Reals Lra Psatz.
From Flocq Require Import Core.
From Verif.Model Require Import Float Constants Sgp4.
From Verif.Inst Require Import RInst RTac Atan2.
From Verif.Proofs Require Import KeplerFacts CalcAngle Str3State.
Local Open Scope R_scope.

(** the derivative of the direction is the direction turned by a right angle *)
Lemma turn_id (p q c s b : R) : c * c + s * s = 1 - b * b ->
  (p * (1 + b) - (p * c + q * s) * c) * (1 - c) - ((q - (q * c - p * s)) * (1 + b) - (p * c + q * s) * s) * s = b * ((p - (p * c + q * s)) * (1 + b) + (q * c - p * s) * s).
Proof.
  intros H. assert (H0 : c * c = 1 - b * b - s * s) by lra. assert (H1 : c * c * c = (1 - b * b - s * s) * c) by (rewrite <- H0; ring).
  match goal with |- ?l = ?r => replace l with (p * (1 + b) * (1 - c) - p * (c * c) + p * (c * c * c) - q * s * c + q * s * (c * c) - (q - q * c + p * s) * (1 + b) * s + (p * c + q * s) * s * s) by ring end.
  rewrite H1, H0. ring.
Qed.
Lemma turn_id2 (p q c s b : R) : c * c + s * s = 1 - b * b ->
  ((- q) * (1 + b) + (q * c - p * s) * c) * (1 - c) - ((p - (p * c + q * s)) * (1 + b) + (q * c - p * s) * s) * s = - (b * ((q - (q * c - p * s)) * (1 + b) - (p * c + q * s) * s)).
Proof.
  intros H. pose proof (turn_id (- q) p c s b H) as T. lra.
Qed.

Section L.
Context (ax ay e : R) (He : 0 <= e <= 7654 / 10000) (Hxy : ax * ax + ay * ay = e * e).
Notation D := (dkep ax ay).
Notation es := (ddkep ax ay).
Definition bet := sqrt (1 - (ax * ax + ay * ay)).
Lemma bet_sq : bet * bet = 1 - (ax * ax + ay * ay).
Proof. unfold bet. rewrite sqrt_sqrt; [reflexivity|nra]. Qed.
Lemma bet_pos : 0 <= bet <= 1.
Proof. split; [apply sqrt_pos|]. pose proof bet_sq. pose proof (sqrt_pos (1 - (ax * ax + ay * ay))) as P. fold bet in P. nra. Qed.
Lemma D_bounds z : 2346 / 10000 <= D z <= 17654 / 10000.
Proof. pose proof (dkep_bounds ax ay e ltac:(lra) Hxy z). lra. Qed.
Lemma D_lo z : 1 - e <= D z.
Proof. pose proof (dkep_bounds ax ay e ltac:(lra) Hxy z). lra. Qed.
Lemma es_deriv z : derivable_pt_lim es z (1 - D z).
Proof.
  assert (A : 1 - D z = ax * cos z - ay * - sin z) by (unfold dkep; ring). rewrite A. unfold ddkep.
  apply derivable_pt_lim_minus; apply derivable_pt_lim_scal; [apply derivable_pt_lim_sin|apply derivable_pt_lim_cos].
Qed.
Lemma cs_id z : ax = cos z * (1 - D z) + sin z * es z /\ ay = sin z * (1 - D z) - cos z * es z /\ (1 - D z) * (1 - D z) + es z * es z = 1 - bet * bet.
Proof.
  rewrite bet_sq. unfold dkep, ddkep. pose proof (cs1 z) as C. set (p := cos z) in *. set (q := sin z) in *. clearbody p q. repeat split.
  - transitivity (ax * (p * p + q * q)); [rewrite C; ring|ring].
  - transitivity (ay * (p * p + q * q)); [rewrite C; ring|ring].
  - transitivity ((ax * ax + ay * ay) * (p * p + q * q)); [ring|rewrite C; ring].
Qed.

Definition SU z := (sin z - ay - ax * (es z / (1 + bet))) / D z.
Definition CU z := (cos z - ax + ay * (es z / (1 + bet))) / D z.
Lemma scu_unit z : SU z * SU z + CU z * CU z = 1.
Proof.
  pose proof (uk_unit ax ay (cos z) (sin z) bet (cs1 z) ltac:(apply bet_pos) ltac:(rewrite bet_sq; ring)) as U. cbv zeta in U.
  unfold SU, CU. pose proof (D_bounds z) as DB. fold (es z) in U. replace (1 - (ax * cos z + ay * sin z)) with (D z) in U by (unfold dkep; ring).
  set (X := sin z - ay - _) in *. set (Y := cos z - ax + _) in *. replace (X / D z * (X / D z) + Y / D z * (Y / D z)) with ((X ^ 2 + Y ^ 2) * (/ D z * / D z)) by (field; lra).
  rewrite U. field. lra.
Qed.
Lemma SU_deriv z : derivable_pt_lim SU z (bet / D z * CU z).
Proof.
  pose proof (D_bounds z) as DB. pose proof bet_pos as PB.
  pose (N := fun z => sin z - ay - ax / (1 + bet) * es z). apply (derivable_pt_lim_ext (N / D)%F).
  { intros t. unfold div_fct, N, SU. pose proof (D_bounds t). field. lra. }
  assert (DN : derivable_pt_lim N z (cos z - 0 - ax / (1 + bet) * (1 - D z))).
  { apply derivable_pt_lim_minus; [apply derivable_pt_lim_minus; [apply derivable_pt_lim_sin|apply derivable_pt_lim_const]|apply derivable_pt_lim_scal, es_deriv]. }
  pose proof (derivable_pt_lim_div N D z _ _ DN (dkep_deriv ax ay z) ltac:(lra)) as Q.
  replace (bet / D z * CU z) with (((cos z - 0 - ax / (1 + bet) * (1 - D z)) * D z - es z * N z) / Rsqr (D z)); [exact Q|].
  destruct (cs_id z) as (IX & IY & IE). pose proof (turn_id (cos z) (sin z) (1 - D z) (es z) bet IE) as T. rewrite <- IX, <- IY in T.
  unfold CU, N, Rsqr. assert (A : (cos z - 0 - ax / (1 + bet) * (1 - D z)) * D z - es z * (sin z - ay - ax / (1 + bet) * es z) = bet * (cos z - ax + ay * (es z / (1 + bet)))).
  { apply (Rmult_eq_reg_l (1 + bet)); [|lra]. transitivity (bet * ((cos z - ax) * (1 + bet) + ay * es z)); [rewrite <- T; field; lra|field; lra]. }
  rewrite A. field. lra.
Qed.
Lemma CU_deriv z : derivable_pt_lim CU z (- (bet / D z * SU z)).
Proof.
  pose proof (D_bounds z) as DB. pose proof bet_pos as PB.
  pose (N := fun z => cos z - ax + ay / (1 + bet) * es z). apply (derivable_pt_lim_ext (N / D)%F).
  { intros t. unfold div_fct, N, CU. pose proof (D_bounds t). field. lra. }
  assert (DN : derivable_pt_lim N z (- sin z - 0 + ay / (1 + bet) * (1 - D z))).
  { apply derivable_pt_lim_plus; [apply derivable_pt_lim_minus; [apply derivable_pt_lim_cos|apply derivable_pt_lim_const]|apply derivable_pt_lim_scal, es_deriv]. }
  pose proof (derivable_pt_lim_div N D z _ _ DN (dkep_deriv ax ay z) ltac:(lra)) as Q.
  replace (- (bet / D z * SU z)) with (((- sin z - 0 + ay / (1 + bet) * (1 - D z)) * D z - es z * N z) / Rsqr (D z)); [exact Q|].
  destruct (cs_id z) as (IX & IY & IE). pose proof (turn_id2 (cos z) (sin z) (1 - D z) (es z) bet IE) as T. rewrite <- IX, <- IY in T.
  unfold SU, N, Rsqr. assert (A : (- sin z - 0 + ay / (1 + bet) * (1 - D z)) * D z - es z * (cos z - ax + ay / (1 + bet) * es z) = - (bet * (sin z - ay - ax * (es z / (1 + bet))))).
  { apply (Rmult_eq_reg_l (1 + bet)); [|lra]. transitivity (- (bet * ((sin z - ay) * (1 + bet) - ax * es z))); [rewrite <- T; field; lra|field; lra]. }
  rewrite A. field. lra.
Qed.
(** sqrt ((1 + e) / (1 - e)) *)
Lemma rate z : 0 <= bet / D z <= 2744 / 1000.
Proof.
  pose proof (D_bounds z) as DB. pose proof bet_pos as PB. pose proof bet_sq as B2. pose proof (D_lo z) as DL. split; [apply Rmult_le_pos; [lra|left; apply Rinv_0_lt_compat; lra]|].
  apply (Rmult_le_reg_r (D z)); [lra|]. unfold Rdiv at 1. rewrite Rmult_assoc, Rinv_l, Rmult_1_r by lra. apply Rle_trans with (2744 / 1000 * (1 - e)); [|lra].
  apply Rsqr_incr_0_var; [|lra]. unfold Rsqr. rewrite B2, Hxy. nra.
Qed.
Lemma lip f f' K x y : (forall z, derivable_pt_lim f z (f' z)) -> (forall z, Rabs (f' z) <= K) -> Rabs (f y - f x) <= K * Rabs (y - x).
Proof. intros H1 H2. destruct (mvt f f' x y H1) as (c & -> & _). rewrite Rabs_mult. apply Rmult_le_compat_r; [apply Rabs_pos|apply H2]. Qed.
Lemma scu_le z : Rabs (SU z) <= 1 /\ Rabs (CU z) <= 1.
Proof. pose proof (scu_unit z). split; apply Rabs_le; nra. Qed.
Lemma SU_lip x y : Rabs (SU y - SU x) <= 2744 / 1000 * Rabs (y - x).
Proof.
  apply (lip SU (fun z => bet / D z * CU z)); [apply SU_deriv|]. intros z. rewrite Rabs_mult. destruct (scu_le z) as [_ C]. pose proof (rate z) as R. rewrite (Rabs_pos_eq (bet / D z)) by lra.
  pose proof (Rabs_pos (CU z)). nra.
Qed.
Lemma CU_lip x y : Rabs (CU y - CU x) <= 2744 / 1000 * Rabs (y - x).
Proof.
  apply (lip CU (fun z => - (bet / D z * SU z))); [apply CU_deriv|]. intros z. rewrite Rabs_Ropp, Rabs_mult. destruct (scu_le z) as [C _]. pose proof (rate z) as R. rewrite (Rabs_pos_eq (bet / D z)) by lra.
  pose proof (Rabs_pos (SU z)). nra.
Qed.
Lemma D_lip x y : Rabs (D y - D x) <= 7654 / 10000 * Rabs (y - x).
Proof.
  apply (lip D es); [apply dkep_deriv|]. intros z. pose proof (ddkep_le ax ay e ltac:(lra) Hxy z). lra.
Qed.
Lemma inv_lip x y : Rabs (/ D y - / D x) <= 1391 / 100 * Rabs (y - x).
Proof.
  pose proof (D_bounds x) as X. pose proof (D_bounds y) as Y. replace (/ D y - / D x) with ((D x - D y) * (/ D y * / D x)) by (field; lra).
  rewrite Rabs_mult, Rabs_minus_sym. assert (IX : 0 < / D x <= 10000 / 2346) by (split; [apply Rinv_0_lt_compat; lra|replace (10000 / 2346) with (/ (2346 / 10000)) by field; apply Rinv_le_contravar; lra]).
  assert (IY : 0 < / D y <= 10000 / 2346) by (split; [apply Rinv_0_lt_compat; lra|replace (10000 / 2346) with (/ (2346 / 10000)) by field; apply Rinv_le_contravar; lra]).
  assert (P : 0 <= / D y * / D x <= 1817 / 100) by (split; [apply Rmult_le_pos; lra|nra]). rewrite (Rabs_pos_eq (/ D y * / D x)) by lra.
  pose proof (D_lip x y) as L. pose proof (Rabs_pos (D y - D x)). pose proof (Rabs_pos (y - x)).
  apply Rle_trans with (7654 / 10000 * Rabs (y - x) * (1817 / 100)); [apply Rmult_le_compat; lra|lra].
Qed.
Lemma ratio_deriv z : derivable_pt_lim (es / D)%F z (((1 - D z) * D z - es z * es z) / Rsqr (D z)).
Proof. pose proof (D_bounds z). apply (derivable_pt_lim_div es D z _ _ (es_deriv z) (dkep_deriv ax ay z)). lra. Qed.
Lemma ratio_lip x y : Rabs (es y / D y - es x / D x) <= 427 / 100 * Rabs (y - x).
Proof.
  apply (lip (es / D)%F _ _ x y ratio_deriv). intros z. pose proof (D_bounds z) as DB. pose proof (D_lo z) as DL. destruct (cs_id z) as (_ & _ & I). rewrite bet_sq, Hxy in I.
  set (d := D z) in *. set (s := es z) in *. clearbody d s. assert (P : 0 < d * d) by nra. unfold Rsqr. apply Rabs_le. split.
  - apply (Rmult_le_reg_r (d * d)); [exact P|]. unfold Rdiv at 2. rewrite Rmult_assoc, Rinv_l, Rmult_1_r by lra. nra.
  - apply (Rmult_le_reg_r (d * d)); [exact P|]. unfold Rdiv at 1. rewrite Rmult_assoc, Rinv_l, Rmult_1_r by lra. nra.
Qed.
(** the angle itself, up to full turns *)
Lemma angle_lip x y : Rabs (y - x) <= 1 / 1000 -> exists k : Z, Rabs (Ratan2 (SU y) (CU y) - Ratan2 (SU x) (CU x) - 2 * PI * IZR k) <= 3925 / 1000 * Rabs (y - x).
Proof.
  intros H. set (d := 3882 / 1000 * Rabs (y - x)). pose proof (Rabs_pos (y - x)) as P. assert (S1 : sqrt (CU x * CU x + SU x * SU x) = 1) by (rewrite Rplus_comm, scu_unit; apply sqrt_1).
  destruct (atan2_close (SU x) (CU x) (SU y) (CU y) d) as [k K]; rewrite ?S1; [unfold d; lra| |unfold d; lra|].
  - pose proof (SU_lip x y) as A. pose proof (CU_lip x y) as B. unfold d. set (t := Rabs (y - x)) in *. clearbody t.
    assert (Q : forall u, Rabs u <= 2744 / 1000 * t -> u * u <= 753 / 100 * (t * t)) by (intros u U; apply Rabs_le_inv in U; nra).
    pose proof (Q _ A). pose proof (Q _ B). nra.
  - exists k. rewrite S1 in K. eapply Rle_trans; [exact K|]. apply (Rmult_le_reg_r (1 - d)); [unfold d; lra|]. unfold Rdiv at 1. rewrite Rmult_assoc, Rinv_l, Rmult_1_r by (unfold d; lra). unfold d. nra.
Qed.
End L.

(** in terms of the model *)
Definition shortR (k : @KeplerOut R) ax ay am := @sgp4_shortq _ ROps (@sgp4_short _ ROps k ax ay am) k ax ay am.
Lemma short_lip ax ay am k1 k2 E1 E2 : ax * ax + ay * ay <= 7654 / 10000 * (7654 / 10000) -> 188 / 100 <= am ->
  ko_sineo1 k1 = sin E1 -> ko_coseo1 k1 = cos E1 -> ko_sineo1 k2 = sin E2 -> ko_coseo1 k2 = cos E2 -> Rabs (E2 - E1) <= 1 / 1000 ->
  let q1 := shortR k1 ax ay am in let q2 := shortR k2 ax ay am in let t := Rabs (E2 - E1) in
  Rabs (q_rl q2 - q_rl q1) <= am * (7654 / 10000 * t) /\ Rabs (q_rdotl q2 - q_rdotl q1) <= 312 / 100 * t /\ Rabs (q_rvdotl q2 - q_rvdotl q1) <= 1016 / 100 * t /\
  q_betal q2 = q_betal q1 /\ (exists k : Z, Rabs (q_su q2 - q_su q1 - 2 * PI * IZR k) <= 3925 / 1000 * t) /\
  Rabs (q_sin2u q2 - q_sin2u q1) <= 11 * t /\ Rabs (q_cos2u q2 - q_cos2u q1) <= 11 * t /\ q_temp1 q2 = q_temp1 q1 /\ q_temp2 q2 = q_temp2 q1.
Proof.
  intros EL AM S1 C1 S2 C2 HT q1 q2 t. set (e := sqrt (ax * ax + ay * ay)). assert (P : 0 <= ax * ax + ay * ay) by nra. pose proof (sqrt_pos (ax * ax + ay * ay)) as E0. pose proof (sqrt_sqrt _ P) as EE. fold e in E0, EE.
  assert (He : 0 <= e <= 7654 / 10000) by nra. assert (Hxy := eq_sym EE). clearbody e.
  pose proof (D_bounds ax ay e He Hxy E1) as D1. pose proof (D_bounds ax ay e He Hxy E2) as D2. pose proof (bet_pos ax ay e He Hxy) as PB.
  assert (F : forall k E, ko_sineo1 k = sin E -> ko_coseo1 k = cos E -> let q := shortR k ax ay am in
    q_rl q = am * dkep ax ay E /\ q_rdotl q = / sqrt am * (ddkep ax ay E / dkep ax ay E) /\ q_rvdotl q = bet ax ay * / sqrt am * / dkep ax ay E /\ q_betal q = bet ax ay /\
    q_su q = Ratan2 (SU ax ay E) (CU ax ay E) /\ q_sin2u q = 2 * CU ax ay E * SU ax ay E /\ q_cos2u q = 1 - 2 * SU ax ay E * SU ax ay E /\
    q_temp1 q = 5 / 10 * @kJ2 _ ROps * (1 / (am * (1 - (ax * ax + ay * ay)))) /\ q_temp2 q = 5 / 10 * @kJ2 _ ROps * (1 / (am * (1 - (ax * ax + ay * ay)))) * (1 / (am * (1 - (ax * ax + ay * ay))))).
  { intros k E S C q. pose proof (D_bounds ax ay e He Hxy E) as DB. pose proof (sqrt_lt_R0 am ltac:(lra)) as SP. pose proof (sqrt_sqrt am ltac:(lra)) as SS.
    assert (RL : q_rl q = am * dkep ax ay E) by (unfold q, shortR, sgp4_shortq, sgp4_short, dkep; cbv zeta; cbn [q_rl q_rdotl q_rvdotl q_betal q_su q_sin2u q_cos2u q_temp1 q_temp2 sh_ecose sh_esine sh_el2 sh_pl]; rewrite S, C; rops; ring).
    assert (BE : q_betal q = bet ax ay) by (unfold q, shortR, sgp4_shortq, sgp4_short, bet; cbv zeta; cbn [q_rl q_rdotl q_rvdotl q_betal q_su q_sin2u q_cos2u q_temp1 q_temp2 sh_ecose sh_esine sh_el2 sh_pl]; rops; f_equal; ring).
    assert (SQ : sqrt (am * (1 - (ax * ax + ay * ay))) = sqrt am * bet ax ay) by (unfold bet; apply sqrt_mult; lra).
    assert (ESI : sqrt am * ddkep ax ay E / q_rl q = / sqrt am * (ddkep ax ay E / dkep ax ay E)) by (rewrite RL; rewrite <- SS at 2; field; lra).
    assert (EVI : sqrt am * bet ax ay / q_rl q = bet ax ay * / sqrt am * / dkep ax ay E) by (rewrite RL; rewrite <- SS at 2; field; lra).
    assert (QU : am / q_rl q = / dkep ax ay E) by (rewrite RL; field; lra).
    assert (SUE : am / q_rl q * (sin E - ay - ax * (ddkep ax ay E / (1 + bet ax ay))) = SU ax ay E) by (rewrite QU; unfold SU, Rdiv; ring).
    assert (CUE : am / q_rl q * (cos E - ax + ay * (ddkep ax ay E / (1 + bet ax ay))) = CU ax ay E) by (rewrite QU; unfold CU, Rdiv; ring).
    assert (X1 : q_rdotl q = sqrt am * ddkep ax ay E / q_rl q) by (unfold q, shortR, sgp4_shortq, sgp4_short, ddkep; cbv zeta; cbn [q_rl q_rdotl q_rvdotl q_betal q_su q_sin2u q_cos2u q_temp1 q_temp2 sh_ecose sh_esine sh_el2 sh_pl]; rewrite S, C; rops; reflexivity).
    assert (X2 : q_rvdotl q = sqrt (am * (1 - (ax * ax + ay * ay))) / q_rl q) by (unfold q, shortR, sgp4_shortq, sgp4_short; cbv zeta; cbn [q_rl q_rdotl q_rvdotl q_betal q_su q_sin2u q_cos2u q_temp1 q_temp2 sh_ecose sh_esine sh_el2 sh_pl]; rops; reflexivity).
    assert (LS : am / q_rl q * (ko_sineo1 k - ay - ax * ((ax * ko_sineo1 k - ay * ko_coseo1 k) / (1 + q_betal q))) = SU ax ay E) by (rewrite BE, S, C; exact SUE).
    assert (LC : am / q_rl q * (ko_coseo1 k - ax + ay * ((ax * ko_sineo1 k - ay * ko_coseo1 k) / (1 + q_betal q))) = CU ax ay E) by (rewrite BE, S, C; exact CUE).
    split; [exact RL|]. split; [rewrite X1; exact ESI|]. split; [rewrite X2, SQ; exact EVI|]. split; [exact BE|].
    rewrite <- LS, <- LC. unfold q, shortR, sgp4_shortq, sgp4_short. cbv zeta. cbn [q_rl q_rdotl q_rvdotl q_betal q_su q_sin2u q_cos2u q_temp1 q_temp2 sh_ecose sh_esine sh_el2 sh_pl]. rops. repeat split; try reflexivity; try ring; unfold Rdiv; ring. }
  destruct (F k1 E1 S1 C1) as (A1 & A2 & A3 & A4 & A5 & A6 & A7 & A8 & A9). destruct (F k2 E2 S2 C2) as (B1 & B2 & B3 & B4 & B5 & B6 & B7 & B8 & B9). clear F. fold q1 in A1, A2, A3, A4, A5, A6, A7, A8, A9. fold q2 in B1, B2, B3, B4, B5, B6, B7, B8, B9.
  assert (IS : 0 < / sqrt am <= 73 / 100).
  { pose proof (sqrt_lt_R0 am ltac:(lra)) as SP. split; [apply Rinv_0_lt_compat; lra|]. replace (73 / 100) with (/ (100 / 73)) by field. apply Rinv_le_contravar; [lra|].
    rewrite <- (sqrt_Rsqr (100 / 73)) by lra. apply sqrt_le_1_alt. unfold Rsqr. lra. }
  pose proof (Rabs_pos (E2 - E1)) as PT. fold t in PT, HT.
  rewrite A1, A2, A3, A4, A5, A6, A7, A8, A9, B1, B2, B3, B4, B5, B6, B7, B8, B9.
  split. { replace (am * dkep ax ay E2 - am * dkep ax ay E1) with (am * (dkep ax ay E2 - dkep ax ay E1)) by ring. rewrite Rabs_mult, (Rabs_pos_eq am) by lra. apply Rmult_le_compat_l; [lra|]. apply (D_lip ax ay e He Hxy). }
  split. { rewrite <- Rmult_minus_distr_l, Rabs_mult, (Rabs_pos_eq (/ sqrt am)) by lra. pose proof (ratio_lip ax ay e He Hxy E1 E2) as W. fold t in W. pose proof (Rabs_pos (ddkep ax ay E2 / dkep ax ay E2 - ddkep ax ay E1 / dkep ax ay E1)). apply Rle_trans with (73 / 100 * (427 / 100 * t)); [apply Rmult_le_compat; lra|lra]. }
  split. { rewrite <- Rmult_minus_distr_l, Rabs_mult. rewrite (Rabs_pos_eq (bet ax ay * / sqrt am)) by (apply Rmult_le_pos; lra). pose proof (inv_lip ax ay e He Hxy E1 E2) as W. fold t in W. pose proof (Rabs_pos (/ dkep ax ay E2 - / dkep ax ay E1)).
    apply Rle_trans with (73 / 100 * (1391 / 100 * t)); [apply Rmult_le_compat; [apply Rmult_le_pos; lra|lra|nra|lra]|lra]. }
  split; [reflexivity|]. split; [apply (angle_lip ax ay e He Hxy); exact HT|].
  pose proof (SU_lip ax ay e He Hxy E1 E2) as LS. pose proof (CU_lip ax ay e He Hxy E1 E2) as LC. fold t in LS, LC. destruct (scu_le ax ay e He Hxy E1) as (U1 & U2). destruct (scu_le ax ay e He Hxy E2) as (U3 & U4).
  clear - LS LC U1 U2 U3 U4 PT. set (s1 := SU ax ay E1) in *. set (s2 := SU ax ay E2) in *. set (c1 := CU ax ay E1) in *. set (c2 := CU ax ay E2) in *. clearbody s1 s2 c1 c2 t.
  assert (M : forall u v p, Rabs u <= p -> Rabs v <= 1 -> Rabs (u * v) <= p) by (intros u v p Hu Hv; rewrite Rabs_mult; pose proof (Rabs_pos u); pose proof (Rabs_pos v); nra).
  split; [|split; [|split; reflexivity]].
  - replace (2 * c2 * s2 - 2 * c1 * s1) with (2 * ((c2 - c1) * s2 + (s2 - s1) * c1)) by ring. rewrite Rabs_mult, (Rabs_pos_eq 2) by lra. pose proof (Rabs_triang ((c2 - c1) * s2) ((s2 - s1) * c1)). pose proof (M _ _ _ LC U3). pose proof (M _ _ _ LS U2). lra.
  - replace (1 - 2 * s2 * s2 - (1 - 2 * s1 * s1)) with (- (2 * ((s2 - s1) * s2 + (s2 - s1) * s1))) by ring. rewrite Rabs_Ropp, Rabs_mult, (Rabs_pos_eq 2) by lra. pose proof (Rabs_triang ((s2 - s1) * s2) ((s2 - s1) * s1)). pose proof (M _ _ _ LS U3). pose proof (M _ _ _ LS U1). lra.
Qed.
