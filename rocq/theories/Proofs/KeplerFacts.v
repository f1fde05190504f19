(** * The Kepler iteration *)
From Coq Require Import ZArith List Bool Reals Lra Lia.
From Flocq Require Import Core.Raux.
From Verif.Model Require Import Float Str Satrec Constants Vec3 Sgp4.
From Verif.Inst Require Import RInst RTac.
From Verif.Spec Require Import KeplerSpec.
Local Open Scope R_scope.

Section G.
Context {F : Type} {FO : FloatOps F}.
Implicit Types ax ay u : F.

Lemma corr_spec ax ay u E : kepler_correction ax ay u E = limited (newton ax ay u E).
Proof. reflexivity. Qed.

Lemma kstep n ax ay u c k : kepler_loop (S n) ax ay u c k =
  if large c then
    kepler_loop n ax ay u (kepler_correction ax ay u (ko_eo1 k))
      (MkKeplerOut (fsin (ko_eo1 k)) (fcos (ko_eo1 k)) (fadd (ko_eo1 k) (kepler_correction ax ay u (ko_eo1 k))))
  else k.
Proof. reflexivity. Qed.

Definition out ax ay u (k : nat) : KeplerOut :=
  MkKeplerOut (fsin (guess ax ay u k)) (fcos (guess ax ay u k)) (guess ax ay u (S k)).

Lemma loop_from n ax ay u k :
  exists j, (k <= j <= k + n)%nat /\ kepler_loop n ax ay u (corr ax ay u k) (out ax ay u k) = out ax ay u j /\
    (forall i, (k <= i < j)%nat -> large (corr ax ay u i) = true) /\
    (j = k + n \/ large (corr ax ay u j) = false)%nat.
Proof.
  revert k. induction n as [|n IH]; intros k.
  - exists k. split; [lia|]. split; [reflexivity|]. split; [intros; lia|left; lia].
  - rewrite kstep. destruct (large (corr ax ay u k)) eqn:E.
    + destruct (IH (S k)) as (j & J1 & J2 & J3 & J4).
      exists j. split; [lia|]. split; [|split].
      * rewrite corr_spec. exact J2.
      * intros i Hi. destruct (PeanoNat.Nat.eq_dec i k) as [->|N]; [exact E|]. apply J3; lia.
      * destruct J4 as [->|]; [left; lia|right; assumption].
    + exists k. split; [lia|]. split; [reflexivity|]. split; [intros; lia|right; exact E].
Qed.

Lemma kepler_trace ax ay u : large (L 99999 1) = true ->
  exists j, (j < 10)%nat /\ sgp4_kepler ax ay u = out ax ay u j /\
    (forall i, (i < j)%nat -> large (corr ax ay u i) = true) /\
    (j = 9 \/ large (corr ax ay u j) = false)%nat.
Proof.
  intros H. unfold sgp4_kepler. rewrite kstep, H. cbn [ko_eo1]. rewrite corr_spec.
  destruct (loop_from 9 ax ay u 0) as (j & J1 & J2 & J3 & J4).
  exists j. split; [lia|]. split; [exact J2|]. split; [intros i Hi; apply J3; lia|].
  destruct J4; [left; lia|right; assumption].
Qed.
End G.

Lemma large_R : @large R ROps (L 99999 1) = true.
Proof. unfold large. rops. rewrite Rabs_pos_eq by lra. apply Rle_bool_true. lra. Qed.

(** ** The equation over the reals *)
Section K.
Variables ax ay u e : R.
Hypothesis He : 0 <= e < 1.
Hypothesis Hxy : ax * ax + ay * ay = e * e.

Definition kep (E : R) : R := E - ax * sin E + ay * cos E.
Definition dkep (E : R) : R := 1 - cos E * ax - sin E * ay.

Lemma dot_le p q : p * p + q * q = 1 -> Rabs (ax * p + ay * q) <= e.
Proof.
  intros H. rewrite <- (Rabs_pos_eq e) by lra. apply Rsqr_le_abs_0. unfold Rsqr.
  rewrite <- Hxy. replace (ax * ax + ay * ay) with ((ax * ax + ay * ay) * (p * p + q * q)) by (rewrite H; ring).
  assert (0 <= (ax * q - ay * p) * (ax * q - ay * p)) by (apply Rle_0_sqr). nra.
Qed.

Lemma cs1 x : cos x * cos x + sin x * sin x = 1.
Proof. rewrite Rplus_comm. exact (sin2_cos2 x). Qed.

Lemma dkep_bounds E : 1 - e <= dkep E <= 1 + e.
Proof.
  pose proof (dot_le (cos E) (sin E) (cs1 E)) as H. apply Rabs_le_inv in H. unfold dkep. lra.
Qed.

Lemma kep_deriv E : derivable_pt_lim kep E (dkep E).
Proof.
  unfold kep, dkep.
  replace (1 - cos E * ax - sin E * ay) with (1 - ax * cos E + ay * - sin E) by ring.
  apply derivable_pt_lim_plus; [apply derivable_pt_lim_minus|].
  - apply derivable_pt_lim_id.
  - apply derivable_pt_lim_scal, derivable_pt_lim_sin.
  - apply derivable_pt_lim_scal, derivable_pt_lim_cos.
Qed.
Definition ddkep E := ax * sin E - ay * cos E.
Lemma dkep_deriv E : derivable_pt_lim dkep E (ddkep E).
Proof.
  unfold dkep, ddkep.
  replace (ax * sin E - ay * cos E) with (0 - (- sin E * ax) - cos E * ay) by ring.
  apply derivable_pt_lim_minus; [apply derivable_pt_lim_minus|].
  - apply derivable_pt_lim_const.
  - replace (- sin E * ax) with (- sin E * ax + cos E * 0) by ring.
    apply (derivable_pt_lim_mult cos (fct_cte ax)); [apply derivable_pt_lim_cos|apply derivable_pt_lim_const].
  - replace (cos E * ay) with (cos E * ay + sin E * 0) by ring.
    apply (derivable_pt_lim_mult sin (fct_cte ay)); [apply derivable_pt_lim_sin|apply derivable_pt_lim_const].
Qed.
Lemma ddkep_le E : Rabs (ddkep E) <= e.
Proof.
  unfold ddkep. replace (ax * sin E - ay * cos E) with (ax * sin E + ay * - cos E) by ring.
  apply dot_le. pose proof (cs1 E). lra.
Qed.

(** mean value theorem, in any order of the end points *)
Lemma mvt f f' x y : (forall z, derivable_pt_lim f z (f' z)) ->
  exists c, f y - f x = f' c * (y - x) /\ Rabs (c - x) <= Rabs (y - x).
Proof.
  intros D. destruct (Rtotal_order x y) as [H|[->|H]].
  - destruct (MVT_cor2 f f' x y H) as (c & A & B). { intros; apply D. }
    exists c. split; [exact A|]. rewrite !Rabs_pos_eq; lra.
  - exists y. split; [ring|]. rewrite Rminus_diag_eq by reflexivity. lra.
  - destruct (MVT_cor2 f f' y x H) as (c & A & B). { intros; apply D. }
    exists c. split; [lra|]. rewrite !Rabs_left; lra.
Qed.

Lemma kep_expands x y : (1 - e) * Rabs (y - x) <= Rabs (kep y - kep x).
Proof.
  destruct (mvt kep dkep x y kep_deriv) as (c & -> & _). rewrite Rabs_mult.
  apply Rmult_le_compat_r; [apply Rabs_pos|]. pose proof (dkep_bounds c). rewrite Rabs_pos_eq; lra.
Qed.

Lemma kep_second x y : Rabs (kep y - kep x - dkep x * (y - x)) <= e * (Rabs (y - x) * Rabs (y - x)).
Proof.
  destruct (mvt kep dkep x y kep_deriv) as (c & -> & B).
  destruct (mvt dkep ddkep x c dkep_deriv) as (d & A & _).
  replace (dkep c * (y - x) - dkep x * (y - x)) with ((dkep c - dkep x) * (y - x)) by ring.
  rewrite A, !Rabs_mult. pose proof (ddkep_le d). pose proof (Rabs_pos (y - x)). pose proof (Rabs_pos (c - x)).
  pose proof (Rabs_pos (ddkep d)).
  rewrite Rmult_assoc. apply Rmult_le_compat; try assumption; [nra|]. nra.
Qed.

Lemma kep_cont : continuity kep.
Proof.
  apply derivable_continuous. intros x. exists (dkep x). apply kep_deriv.
Qed.

(** The equation has exactly one solution, within e of u. *)
Lemma kep_root : exists r, kep r = u /\ Rabs (u - r) <= e.
Proof.
  assert (B : forall E, Rabs (E - kep E) <= e).
  { intros E. unfold kep. replace (E - (E - ax * sin E + ay * cos E)) with (ax * sin E + ay * - cos E) by ring.
    apply dot_le. pose proof (cs1 E). lra. }
  destruct (IVT (fun E => kep E - u) (u - 1) (u + 1)) as (r & _ & Hr).
  - intros x. apply continuity_pt_minus; [apply kep_cont|]. apply continuity_pt_const. now intros a b.
  - lra.
  - pose proof (B (u - 1)) as H. apply Rabs_le_inv in H. lra.
  - pose proof (B (u + 1)) as H. apply Rabs_le_inv in H. lra.
  - exists r. assert (kep r = u) by lra. split; [assumption|]. pose proof (B r) as Q. rewrite H in Q.
    rewrite Rabs_minus_sym. exact Q.
Qed.
Lemma kep_inj x y : kep x = kep y -> x = y.
Proof.
  intros H. pose proof (kep_expands x y) as Q. rewrite H, (Rminus_diag_eq (kep y) (kep y) eq_refl), Rabs_R0 in Q.
  pose proof (Rabs_pos (y - x)). assert (Rabs (y - x) = 0) by nra.
  destruct (Req_dec (y - x) 0) as [Z|Z]; [lra|]. apply Rabs_no_R0 in Z. contradiction.
Qed.

Lemma newton_R E : newton ax ay u E = (u - kep E) / dkep E.
Proof. unfold newton, kep, dkep. rops. f_equal. ring. Qed.

Lemma limited_le c : Rabs (limited c) <= 95 / 100.
Proof.
  unfold limited. rops. case Rle_bool_spec; intros H; [|lra].
  case Rlt_bool_spec; intros _; [rewrite Rabs_pos_eq by lra; lra|rewrite Rabs_left by lra; lra].
Qed.
Lemma limited_id c : Rabs c < 95 / 100 -> limited c = c.
Proof. intros H. unfold limited. rops. now rewrite Rle_bool_false. Qed.
Lemma limited_small c : Rabs (limited c) < 95 / 100 -> limited c = c.
Proof.
  unfold limited. rops. case Rle_bool_spec; intros H; [|reflexivity].
  case Rlt_bool_spec; intros _; [rewrite Rabs_pos_eq by lra; lra|rewrite Rabs_left by lra; lra].
Qed.

(** The residual when the last correction is small. *)
Lemma small_residual E : large (limited (newton ax ay u E)) = false ->
  Rabs (u - kep E) <= / 1000000000000 * dkep E.
Proof.
  unfold large. rops. intros H. apply Rle_bool_iff_f in H.
  assert (Hl : limited (newton ax ay u E) = newton ax ay u E) by (apply limited_small; lra).
  rewrite Hl, newton_R in H. pose proof (dkep_bounds E) as B.
  assert (P : 0 < dkep E) by lra. unfold Rdiv in H. rewrite Rabs_mult, (Rabs_pos_eq (/ dkep E)) in H.
  2:{ apply Rlt_le, Rinv_0_lt_compat, P. }
  apply Rmult_le_reg_r with (/ dkep E); [apply Rinv_0_lt_compat, P|].
  rewrite Rmult_assoc, Rinv_r by lra. lra.
Qed.

(** ** Convergence for e <= 1/2 *)
Hypothesis Hhalf : e <= / 2.
Variable r : R.
Hypothesis Hr : kep r = u.
Hypothesis Hu : Rabs (u - r) <= e.

Lemma newton_error E d : Rabs (E - r) <= d -> Rabs (E + newton ax ay u E - r) <= d * d.
Proof.
  intros H. rewrite newton_R, <- Hr. pose proof (dkep_bounds E) as B.
  replace (E + (kep r - kep E) / dkep E - r) with ((kep r - kep E - dkep E * (r - E)) / dkep E) by (field; lra).
  unfold Rdiv. rewrite Rabs_mult, (Rabs_pos_eq (/ dkep E)). 2:{ apply Rlt_le, Rinv_0_lt_compat; lra. }
  apply Rmult_le_reg_r with (dkep E); [lra|]. rewrite Rmult_assoc, Rinv_l, Rmult_1_r by lra.
  pose proof (kep_second E r) as S. rewrite (Rabs_minus_sym r E) in S. pose proof (Rabs_pos (E - r)) as P.
  assert (Rabs (E - r) * Rabs (E - r) <= d * d) by (apply Rmult_le_compat; lra).
  assert (0 <= d * d) by nra. nra.
Qed.

Lemma step_error E d : d <= / 2 -> Rabs (E - r) <= d ->
  limited (newton ax ay u E) = newton ax ay u E /\ Rabs (newton ax ay u E) <= d + d * d /\
  Rabs (E + limited (newton ax ay u E) - r) <= d * d.
Proof.
  intros Hd H. pose proof (newton_error E d H) as N.
  assert (A : Rabs (newton ax ay u E) <= d + d * d).
  { replace (newton ax ay u E) with ((E + newton ax ay u E - r) + (r - E)) by ring.
    eapply Rle_trans; [apply Rabs_triang|]. rewrite (Rabs_minus_sym r E). lra. }
  pose proof (Rabs_pos (E - r)).
  assert (Lm : limited (newton ax ay u E) = newton ax ay u E) by (apply limited_id; nra).
  rewrite Lm. tauto.
Qed.

Fixpoint err (k : nat) : R := match k with O => / 2 | S j => err j * err j end.
Lemma err_pos k : 0 < err k <= / 2.
Proof. induction k as [|k IH]; cbn [err]; [lra|nra]. Qed.
Lemma guess_error k : Rabs (guess ax ay u k - r) <= err k.
Proof.
  induction k as [|k IH]; cbn [guess err]; [lra|].
  destruct (step_error _ _ (proj2 (err_pos k)) IH) as (_ & _ & H). rops. exact H.
Qed.
Lemma seventh_small : large (corr ax ay u 6) = false.
Proof.
  destruct (step_error _ _ (proj2 (err_pos 6)) (guess_error 6)) as (A & B & _).
  unfold large, corr. rops. apply Rle_bool_false. rewrite A. eapply Rle_lt_trans; [exact B|].
  cbn [err]. lra.
Qed.
End K.
