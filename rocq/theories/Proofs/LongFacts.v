(** * The longitude loops of eci_to_geodedic: exact arithmetic and binary64 *)
From Coq Require Import ZArith List Bool Reals Lra Lia Psatz.
From Flocq Require Import Core.Raux Core IEEE754.BinarySingleNaN.
From Verif.Model Require Import Float Constants Vec3 Transforms.
From Verif.Inst Require Import RInst RTac B64 B64Facts.
From Verif.Props Require Import C15 C45.
Local Open Scope R_scope.

(** ** Exact arithmetic *)
Lemma long_up_R n (l : R) : match long_up n l with
  | Done l' => exists k : nat, l' = l + 2 * PI * INR k /\ - PI <= l' /\ (k = O \/ l' < PI)
  | Panic => False
  | NoFuel => l < - PI - 2 * PI * INR n
  end.
Proof.
  revert l. pose proof PI_RGT_0 as P. induction n as [|n IH]; intros l; cbn [long_up]; unfold kPI; rops.
  - case Rlt_bool_spec; intros H; [cbn [INR]; lra|]. exists O. cbn [INR]. repeat split; [lra|lra|now left].
  - case Rlt_bool_spec; intros H; [|exists O; cbn [INR]; repeat split; [lra|lra|now left]].
    rewrite kTWO_PI_R. specialize (IH (l + 2 * PI)). rops_in IH. destruct (long_up n (l + 2 * PI)) as [l'| |].
    + destruct IH as (k & E & K1 & K2). exists (S k). rewrite S_INR. repeat split; [lra|lra|].
      right. destruct K2 as [-> |K2]; [cbn [INR] in E; lra|exact K2].
    + exact IH.
    + rewrite S_INR. lra.
Qed.
Lemma long_down_R n (l : R) : - PI <= l -> match long_down n l with
  | Done l' => exists k : nat, l' = l - 2 * PI * INR k /\ - PI <= l' <= PI
  | Panic => False
  | NoFuel => PI + 2 * PI * INR n < l
  end.
Proof.
  revert l. pose proof PI_RGT_0 as P. induction n as [|n IH]; intros l Hl; cbn [long_down]; unfold kPI; rops.
  - case Rlt_bool_spec; intros H; [cbn [INR]; lra|]. exists O. cbn [INR]. repeat split; lra.
  - case Rlt_bool_spec; intros H; [|exists O; cbn [INR]; repeat split; lra].
    rewrite kTWO_PI_R. specialize (IH (l - 2 * PI) ltac:(lra)). rops_in IH. destruct (long_down n (l - 2 * PI)) as [l'| |].
    + destruct IH as (k & E & K). exists (S k). rewrite S_INR. split; [lra|exact K].
    + exact IH.
    + rewrite S_INR. lra.
Qed.
Lemma normalize_R n (l : R) : match normalize_long n l with
  | Done l' => (exists k : Z, l' = l + 2 * PI * IZR k) /\ - PI <= l' <= PI
  | Panic => False
  | NoFuel => PI + 2 * PI * INR n < Rabs l
  end.
Proof.
  pose proof PI_RGT_0 as P. unfold normalize_long. pose proof (long_up_R n l) as U. destruct (long_up n l) as [a| |]; cbn [bindO].
  - destruct U as (k & E & K1 & K2). pose proof (long_down_R n a K1) as D. destruct (long_down n a) as [b| |].
    + destruct D as (j & E2 & D). split; [|exact D]. exists (Z.of_nat k - Z.of_nat j)%Z. rewrite minus_IZR, <- !INR_IZR_INZ. lra.
    + exact D.
    + destruct K2 as [-> |K2].
      * cbn [INR] in E. replace a with l in D by lra. pose proof (Rle_abs l). lra.
      * pose proof (pos_INR n). nra.
  - exact U.
  - rewrite Rabs_left; lra || (pose proof (pos_INR n); nra).
Qed.

(** ** Binary64 *)
Section B64.
Context (lm : libm).
Notation B := (B64Ops lm).
Notation two_pi := (@kTWO_PI b64 B).
Notation pi := (@kPI b64 B).
Lemma TPI_FULL : TPI = 2 * FULL_PI. Proof. unfold TPI, FULL_PI. lra. Qed.
Lemma neg_pi : fin (@fneg _ B pi) = true /\ B2R (@fneg _ B pi) = - FULL_PI.
Proof. destruct (pi_val lm) as [F E]. destruct (neg_fin lm pi) as [N1 N2]. rewrite N1, N2, F, E. now split. Qed.
Lemma lt_neg_pi l : fin l = true -> @flt _ B l (@fneg _ B pi) = Rlt_bool (B2R l) (- FULL_PI).
Proof. intros F. destruct neg_pi as [N1 N2]. now rewrite (lt_fin lm _ _ F N1), N2. Qed.
Lemma lt_pi l : fin l = true -> @flt _ B pi l = Rlt_bool FULL_PI (B2R l).
Proof. intros F. destruct (pi_val lm) as [N1 N2]. now rewrite (lt_fin lm _ _ N1 F), N2. Qed.
Lemma fmt_pi : fmt FULL_PI. Proof. destruct (pi_val lm) as [_ <-]. apply fmt_B2R. Qed.

(** one turn up from below -PI stays at most PI *)
Lemma up_step l : fin l = true -> B2R l < - FULL_PI ->
  fin (@fadd _ B l two_pi) = true /\ B2R (@fadd _ B l two_pi) = rnd (B2R l + TPI) /\ B2R (@fadd _ B l two_pi) <= FULL_PI.
Proof.
  intros F H. destruct (two_pi_fin lm) as [TF TR]. pose proof TPI_bounds as TB.
  pose proof (Bplus_correct prec emax _ _ mode_NE l two_pi F TF) as C.
  assert (LE : rnd (B2R l + B2R two_pi) <= FULL_PI).
  { apply rnd_le_fmt; [apply fmt_pi|]. rewrite TR, TPI_FULL. lra. }
  assert (GE : B2R l <= rnd (B2R l + B2R two_pi)) by (apply rnd_ge_fmt; [apply fmt_B2R|lra]).
  change (round radix2 (SpecFloat.fexp prec emax) (round_mode mode_NE) (B2R l + B2R two_pi)) with (rnd (B2R l + B2R two_pi)) in C.
  rewrite Rlt_bool_true in C.
  - destruct C as (C1 & C2 & _). split; [exact C2|]. change (@fadd _ B l two_pi) with (Bplus mode_NE l two_pi). rewrite C1.
    split; [now rewrite TR|exact LE].
  - pose proof (abs_B2R_lt_emax prec emax l) as A. apply Rabs_def2 in A. destruct A as [_ A].
    apply Rabs_def1; [|lra]. apply Rle_lt_trans with FULL_PI; [exact LE|].
    apply Rlt_le_trans with (bpow radix2 2); [unfold FULL_PI; cbn; lra|apply bpow_le; unfold emax; lia].
Qed.
Lemma down_step l : fin l = true -> FULL_PI < B2R l ->
  fin (@fsub _ B l two_pi) = true /\ B2R (@fsub _ B l two_pi) = rnd (B2R l - TPI) /\ - FULL_PI <= B2R (@fsub _ B l two_pi).
Proof.
  intros F H. destruct (two_pi_fin lm) as [TF TR]. pose proof TPI_bounds as TB.
  pose proof (Bminus_correct prec emax _ _ mode_NE l two_pi F TF) as C.
  assert (GE : - FULL_PI <= rnd (B2R l - B2R two_pi)).
  { apply rnd_ge_fmt; [apply generic_format_opp, fmt_pi|]. rewrite TR, TPI_FULL. lra. }
  assert (LE : rnd (B2R l - B2R two_pi) <= B2R l) by (apply rnd_le_fmt; [apply fmt_B2R|lra]).
  change (round radix2 (SpecFloat.fexp prec emax) (round_mode mode_NE) (B2R l - B2R two_pi)) with (rnd (B2R l - B2R two_pi)) in C.
  rewrite Rlt_bool_true in C.
  - destruct C as (C1 & C2 & _). split; [exact C2|]. change (@fsub _ B l two_pi) with (Bminus mode_NE l two_pi). rewrite C1.
    split; [now rewrite TR|exact GE].
  - pose proof (abs_B2R_lt_emax prec emax l) as A. apply Rabs_def2 in A. destruct A as [A _].
    apply Rabs_def1; [lra|]. apply Rlt_le_trans with (- FULL_PI); [|exact GE]. apply Ropp_lt_contravar.
    apply Rlt_le_trans with (bpow radix2 2); [unfold FULL_PI; cbn; lra|apply bpow_le; unfold emax; lia].
Qed.

Lemma nonfin_cases (x : b64) : fin x = false -> x = B754_nan \/ x = B754_infinity true \/ x = B754_infinity false.
Proof. destruct x as [| [] | |]; cbn; intros H; try discriminate H; auto. Qed.
Lemma inf_up : @fadd _ B (B754_infinity true) two_pi = B754_infinity true /\ @flt _ B (B754_infinity true) (@fneg _ B pi) = true.
Proof.
  assert (G : forall y : b64, fin y = true -> @fadd _ B (B754_infinity true) y = B754_infinity true) by (intros []; cbn; intros H; try discriminate H; reflexivity).
  split; [apply G, two_pi_fin|]. vm_compute. reflexivity.
Qed.
Lemma inf_down : @fsub _ B (B754_infinity false) two_pi = B754_infinity false /\ @flt _ B pi (B754_infinity false) = true.
Proof.
  assert (G : forall y : b64, fin y = true -> @fsub _ B (B754_infinity false) y = B754_infinity false) by (intros []; cbn; intros H; try discriminate H; reflexivity).
  split; [apply G, two_pi_fin|]. vm_compute. reflexivity.
Qed.

(** what the loops return when they return *)
Definition ge_mpi (x : b64) := x = B754_nan \/ (fin x = true /\ - FULL_PI <= B2R x) \/ x = B754_infinity false.
Lemma long_up_B n l : match @long_up _ B n l with Done l' => ge_mpi l' | Panic => False | NoFuel => True end.
Proof.
  revert l. induction n as [|n IH]; intros l; cbn [long_up].
  - destruct (@flt _ B l (@fneg _ B pi)) eqn:E; [exact I|]. destruct (fin l) eqn:F.
    + rewrite lt_neg_pi in E by exact F. apply Rlt_bool_iff_f in E. right; left. now split.
    + destruct (nonfin_cases l F) as [-> |[-> | ->]]; [now left| |right; now right]. rewrite (proj2 inf_up) in E. discriminate E.
  - destruct (@flt _ B l (@fneg _ B pi)) eqn:E; [apply IH|]. destruct (fin l) eqn:F.
    + rewrite lt_neg_pi in E by exact F. apply Rlt_bool_iff_f in E. right; left. now split.
    + destruct (nonfin_cases l F) as [-> |[-> | ->]]; [now left| |right; now right]. rewrite (proj2 inf_up) in E. discriminate E.
Qed.
Definition good_long (x : b64) := x = B754_nan \/ (fin x = true /\ - FULL_PI <= B2R x <= FULL_PI).
Lemma long_down_stop l : ge_mpi l -> @flt _ B pi l = false -> good_long l.
Proof.
  intros [-> |[[F G]| ->]] E; [now left| |].
  - rewrite lt_pi in E by exact F. apply Rlt_bool_iff_f in E. right. split; [exact F|lra].
  - rewrite (proj2 inf_down) in E. discriminate E.
Qed.
Lemma nan_down : @flt _ B pi B754_nan = false.
Proof. vm_compute. reflexivity. Qed.
Lemma long_down_B n l : ge_mpi l -> match @long_down _ B n l with Done l' => good_long l' | Panic => False | NoFuel => True end.
Proof.
  revert l. induction n as [|n IH]; intros l G; cbn [long_down].
  - destruct (@flt _ B pi l) eqn:E; [exact I|]. now apply long_down_stop.
  - destruct (@flt _ B pi l) eqn:E; [|now apply long_down_stop]. apply IH.
    destruct G as [-> |[[F G]| ->]].
    + rewrite nan_down in E. discriminate E.
    + rewrite lt_pi in E by exact F. apply Rlt_bool_iff in E. destruct (down_step l F E) as (D1 & D2 & D3). right; left. now split.
    + rewrite (proj1 inf_down). right. now right.
Qed.
Lemma normalize_B n l : match @normalize_long _ B n l with Done l' => good_long l' | Panic => False | NoFuel => True end.
Proof.
  unfold normalize_long. pose proof (long_up_B n l) as U. destruct (@long_up _ B n l) as [a| |]; cbn [bindO]; try exact U.
  now apply long_down_B.
Qed.

(** termination up to 2^50 radians *)
Lemma up_err x : Rabs x <= bpow radix2 50 -> Rabs (rnd x - x) <= / 16.
Proof. intros H. pose proof (rnd_err (-3) x ltac:(lia) H) as E. change (bpow radix2 (-3)) with (/ 8) in E. lra. Qed.
Lemma up_terminates n l : fin l = true -> - bpow radix2 50 <= B2R l -> - FULL_PI - 6 * INR n <= B2R l ->
  exists l', @long_up _ B n l = Done l' /\ fin l' = true /\ - FULL_PI <= B2R l' /\ (l' = l \/ B2R l' <= FULL_PI).
Proof.
  revert l. pose proof TPI_bounds as TB. assert (FP : 3 < FULL_PI < 4) by (unfold FULL_PI; lra).
  assert (B50 : 8 <= bpow radix2 50) by (apply Rle_trans with (bpow radix2 3); [cbn; lra|apply bpow_le; lia]).
  induction n as [|n IH]; intros l F L1 L2; cbn [long_up]; rewrite lt_neg_pi by exact F.
  - cbn [INR] in L2. rewrite Rlt_bool_false by lra. exists l. repeat split; auto; lra.
  - case Rlt_bool_spec; intros H; [|exists l; repeat split; auto; lra].
    destruct (up_step l F H) as (U1 & U2 & U3). rewrite S_INR in L2.
    assert (E : Rabs (rnd (B2R l + TPI) - (B2R l + TPI)) <= / 16) by (apply up_err, Rabs_le; lra).
    rewrite <- U2 in E. apply Rabs_le_inv in E. unfold TPI in E.
    destruct (IH (@fadd _ B l two_pi)) as (l' & E1 & E2 & E3 & E4); [exact U1|lra|lra|].
    exists l'. repeat split; auto. right. destruct E4 as [-> |E4]; [exact U3|exact E4].
Qed.
Lemma down_terminates n l : fin l = true -> B2R l <= bpow radix2 50 -> B2R l <= FULL_PI + 6 * INR n ->
  exists l', @long_down _ B n l = Done l'.
Proof.
  revert l. pose proof TPI_bounds as TB. assert (FP : 3 < FULL_PI < 4) by (unfold FULL_PI; lra).
  assert (B50 : 8 <= bpow radix2 50) by (apply Rle_trans with (bpow radix2 3); [cbn; lra|apply bpow_le; lia]).
  induction n as [|n IH]; intros l F L1 L2; cbn [long_down]; rewrite lt_pi by exact F.
  - cbn [INR] in L2. rewrite Rlt_bool_false by lra. now exists l.
  - case Rlt_bool_spec; intros H; [|now exists l].
    destruct (down_step l F H) as (U1 & U2 & U3). rewrite S_INR in L2.
    assert (E : Rabs (rnd (B2R l - TPI) - (B2R l - TPI)) <= / 16) by (apply up_err, Rabs_le; lra).
    rewrite <- U2 in E. apply Rabs_le_inv in E. unfold TPI in E. apply IH; [exact U1|lra|lra].
Qed.
Lemma normalize_terminates l : fin l = true -> Rabs (B2R l) <= bpow radix2 50 -> exists n l', @normalize_long _ B n l = Done l'.
Proof.
  intros F H. apply Rabs_le_inv in H. assert (FP : 3 < FULL_PI < 4) by (unfold FULL_PI; lra).
  assert (exists n, bpow radix2 50 < INR n) as [n N].
  { exists (Z.to_nat (up (bpow radix2 50))). destruct (archimed (bpow radix2 50)) as [A _]. pose proof (bpow_gt_0 radix2 50).
    rewrite INR_IZR_INZ, Z2Nat.id; [lra|]. apply le_IZR. lra. }
  exists n.
  assert (B50 : 8 <= bpow radix2 50) by (apply Rle_trans with (bpow radix2 3); [cbn; lra|apply bpow_le; lia]).
  destruct (up_terminates n l F) as (a & E1 & E2 & E3 & E4); [lra|lra|].
  assert (A : B2R a <= bpow radix2 50) by (destruct E4 as [-> |E4]; lra).
  destruct (down_terminates n a E2 A) as (b & D); [lra|]. exists b. unfold normalize_long. now rewrite E1.
Qed.

(** divergence from 2^57 radians *)
Lemma absorb x : fmt x -> bpow radix2 57 <= x -> rnd (x - TPI) = x.
Proof.
  intros Fx H. pose proof TPI_bounds as TB. pose proof (bpow_gt_0 radix2 57) as P0. apply Rle_antisym.
  - apply rnd_le_fmt; [exact Fx|lra].
  - apply round_N_ge_midp; [typeclasses eauto|exact Fx|].
    assert (V : Valid_exp (SpecFloat.fexp prec emax)) by typeclasses eauto.
    assert (PP : bpow radix2 56 <= pred radix2 (SpecFloat.fexp prec emax) x).
    { apply pred_ge_gt; [exact V|apply fmt_bpow; lia|exact Fx|]. apply Rlt_le_trans with (bpow radix2 57); [apply bpow_lt; lia|exact H]. }
    assert (U : 16 <= ulp radix2 (SpecFloat.fexp prec emax) (pred radix2 (SpecFloat.fexp prec emax) x)).
    { apply Rle_trans with (ulp radix2 (SpecFloat.fexp prec emax) (bpow radix2 56)).
      - rewrite ulp_bpow. replace (SpecFloat.fexp prec emax (56 + 1)) with 4%Z by reflexivity. cbn. lra.
      - apply ulp_le_pos; [exact V|typeclasses eauto|apply bpow_ge_0|exact PP]. }
    pose proof (pred_plus_ulp radix2 (SpecFloat.fexp prec emax) x ltac:(lra) Fx) as Q. lra.
Qed.
Lemma down_diverges n l : fin l = true -> bpow radix2 57 <= B2R l -> @long_down _ B n l = NoFuel.
Proof.
  revert l. induction n as [|n IH]; intros l F H; cbn [long_down]; rewrite lt_pi by exact F.
  - assert (G : FULL_PI < B2R l).
    { apply Rlt_le_trans with (bpow radix2 57); [|exact H]. apply Rlt_le_trans with (bpow radix2 2); [unfold FULL_PI; cbn; lra|apply bpow_le; lia]. }
    now rewrite Rlt_bool_true by exact G.
  - assert (G : FULL_PI < B2R l).
    { apply Rlt_le_trans with (bpow radix2 57); [|exact H]. apply Rlt_le_trans with (bpow radix2 2); [unfold FULL_PI; cbn; lra|apply bpow_le; lia]. }
    rewrite Rlt_bool_true by exact G. destruct (down_step l F G) as (D1 & D2 & _).
    rewrite absorb in D2 by (try exact H; apply fmt_B2R). apply IH; [exact D1|now rewrite D2].
Qed.
Lemma up_diverges n l : fin l = true -> B2R l <= - bpow radix2 57 -> @long_up _ B n l = NoFuel.
Proof.
  revert l. induction n as [|n IH]; intros l F H; cbn [long_up]; rewrite lt_neg_pi by exact F.
  - assert (G : B2R l < - FULL_PI).
    { apply Rle_lt_trans with (- bpow radix2 57); [exact H|]. apply Ropp_lt_contravar. apply Rlt_le_trans with (bpow radix2 2); [unfold FULL_PI; cbn; lra|apply bpow_le; lia]. }
    now rewrite Rlt_bool_true by exact G.
  - assert (G : B2R l < - FULL_PI).
    { apply Rle_lt_trans with (- bpow radix2 57); [exact H|]. apply Ropp_lt_contravar. apply Rlt_le_trans with (bpow radix2 2); [unfold FULL_PI; cbn; lra|apply bpow_le; lia]. }
    rewrite Rlt_bool_true by exact G. destruct (up_step l F G) as (D1 & D2 & _).
    assert (E : rnd (B2R l + TPI) = B2R l).
    { replace (B2R l + TPI) with (- (- B2R l - TPI)) by ring. rewrite rnd_opp, absorb; [ring|apply generic_format_opp, fmt_B2R|lra]. }
    rewrite E in D2. apply IH; [exact D1|now rewrite D2].
Qed.
Lemma inf_up_diverges n : @long_up _ B n (B754_infinity true) = NoFuel.
Proof. destruct inf_up as [E1 E2]. induction n as [|n IH]; cbn [long_up]; rewrite E2; [reflexivity|]. now rewrite E1. Qed.
Lemma inf_down_diverges n : @long_down _ B n (B754_infinity false) = NoFuel.
Proof. destruct inf_down as [E1 E2]. induction n as [|n IH]; cbn [long_down]; rewrite E2; [reflexivity|]. now rewrite E1. Qed.
Lemma up_id n l : @flt _ B l (@fneg _ B pi) = false -> @long_up _ B n l = Done l.
Proof. intros E. destruct n; cbn [long_up]; now rewrite E. Qed.
Lemma normalize_diverges n l : (fin l = true /\ bpow radix2 57 <= Rabs (B2R l)) \/ l = B754_infinity true \/ l = B754_infinity false ->
  @normalize_long _ B n l = NoFuel.
Proof.
  unfold normalize_long. intros [[F H]|[-> | ->]].
  - destruct (Rle_lt_dec 0 (B2R l)) as [S|S].
    + rewrite Rabs_pos_eq in H by exact S. rewrite up_id.
      * now apply down_diverges.
      * rewrite lt_neg_pi by exact F. apply Rlt_bool_false. unfold FULL_PI. lra.
    + rewrite Rabs_left in H by exact S. rewrite up_diverges; [reflexivity|exact F|lra].
  - now rewrite inf_up_diverges.
  - rewrite up_id; [now apply inf_down_diverges|]. vm_compute. reflexivity.
Qed.
End B64.
