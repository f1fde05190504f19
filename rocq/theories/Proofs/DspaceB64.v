(** * The resonance integrator in binary64 *)
From Coq Require Import ZArith List Bool Lia PeanoNat Reals Lra Psatz.
From Flocq Require Import Core IEEE754.BinarySingleNaN.
From Verif.Model Require Import Float Constants Dspace.
From Verif.Spec Require Import DspaceSpec.
From Verif.Inst Require Import RTac B64 B64Facts.
From Verif.Proofs Require Import DspaceLoop DspaceSession.
Import ListNotations.
Local Open Scope R_scope.

Section S.
Context (lm : libm).
Implicit Types t a d : b64.
Notation B := (B64Ops lm).
#[local] Hint Extern 0 (FloatOps _) => exact (B64Ops lm) : typeclass_instances.

(** times of practical size: finite, up to 2^52 minutes *)
Definition moderate (t : b64) : Prop := fin t = true /\ Rabs (B2R t) <= 4503599627370496.

Lemma bpow_1023_big x : x <= IZR (2 ^ 110) -> x <= bpow radix2 1023.
Proof.
  intros H. apply Rle_trans with (1 := H). change (IZR (2 ^ 110)) with (bpow radix2 110). apply bpow_le. lia.
Qed.
Ltac ovf := apply bpow_1023_big; change (2 ^ 110)%Z with 1298074214633706907132624082305024%Z.

Lemma zero_B : B2R (@L _ B 0 0) = 0 /\ fin (@L _ B 0 0) = true.
Proof. apply (lit_int_fin lm 0). lia. Qed.
Lemma STEPP_B : B2R (@dspace_STEPP _ B) = 720 /\ fin (@dspace_STEPP _ B) = true.
Proof. apply (lit_int_fin lm 720). lia. Qed.
Lemma STEPN_B : B2R (@dspace_STEPN _ B) = -720 /\ fin (@dspace_STEPN _ B) = true.
Proof.
  unfold dspace_STEPN. destruct (neg_fin lm (@L _ B 720 0)) as [A D]. destruct (lit_int_fin lm 720) as [E F]; [lia|].
  rewrite A, D, E, F. split; [lra|reflexivity].
Qed.

(** step of a time: +-720, by its sign *)
Definition side (t : b64) : R := if Rlt_bool 0 (B2R t) then 720 else -720.
Lemma delt_B (t : b64) : fin t = true -> B2R (@dspace_delt _ B t) = side t /\ fin (@dspace_delt _ B t) = true.
Proof.
  intros Ft. unfold dspace_delt, side. destruct zero_B as [Z1 Z2]. rewrite (lt_fin lm), Z1 by assumption.
  destruct (Rlt_bool 0 (B2R t)); [apply STEPP_B|apply STEPN_B].
Qed.
Lemma delt_eq (t t' : b64) : fin t = true -> fin t' = true -> side t = side t' -> @dspace_delt _ B t = @dspace_delt _ B t'.
Proof.
  intros Ft Ft'. unfold dspace_delt, side. destruct zero_B as [Z1 Z2]. rewrite !(lt_fin lm), Z1 by assumption.
  destruct (Rlt_bool 0 (B2R t)), (Rlt_bool 0 (B2R t')); intros; try reflexivity; exfalso; lra.
Qed.

Lemma more_B (t a : b64) : fin t = true -> fin a = true -> Rabs (B2R t) <= IZR (2 ^ 100) -> Rabs (B2R a) <= IZR (2 ^ 100) ->
  @dspace_more _ B t a = Rle_bool 720 (Rabs (rnd (B2R t - B2R a))).
Proof.
  intros Ft Fa Ht Ha. unfold dspace_more.
  destruct (sub_fin lm t a Ft Fa) as [A D].
  { ovf. change (2 ^ 100)%Z with 1267650600228229401496703205376%Z in *.
    eapply Rle_trans; [apply Rabs_triang|]. rewrite Rabs_Ropp. lra. }
  destruct (abs_fin lm (@fsub _ B t a)) as [A' D']. destruct STEPP_B as [P Q].
  rewrite (le_fin lm); [|assumption|congruence]. now rewrite P, A', A.
Qed.

(** ticks are exact multiples of 720 *)
Lemma tick_B (d : b64) k : fin d = true -> (B2R d = 720 \/ B2R d = -720) -> (720 * Z.of_nat k <= 2 ^ 53)%Z ->
  B2R (@tick _ B d k) = INR k * B2R d /\ fin (@tick _ B d k) = true.
Proof.
  intros Fd Hd. induction k as [|k IH]; intros Hk.
  - cbn [tick INR]. destruct zero_B as [Z1 Z2]. rewrite Z1. split; [ring|assumption].
  - destruct IH as [I1 I2]; [lia|]. cbn [tick].
    assert (E : B2R (tick d k) + B2R d = INR (S k) * B2R d) by (rewrite I1, S_INR; ring).
    assert (X : exists z, INR (S k) * B2R d = IZR z /\ (Z.abs z <= 2 ^ 53)%Z).
    { rewrite INR_IZR_INZ. destruct Hd as [-> | ->].
      - exists (Z.of_nat (S k) * 720)%Z. rewrite mult_IZR. split; [ring|lia].
      - exists (Z.of_nat (S k) * -720)%Z. rewrite mult_IZR. split; [ring|lia]. }
    destruct X as (z & Xz & Hz).
    destruct (add_fin lm (tick d k) d I2 Fd) as [A D].
    { rewrite E, Xz. ovf. rewrite <- abs_IZR. apply IZR_le. lia. }
    split; [|exact D]. rewrite A, E, Xz. apply rnd_id. now apply fmt_int.
Qed.

Lemma side_cases (t : b64) : (0 < B2R t /\ side t = 720) \/ (B2R t <= 0 /\ side t = -720).
Proof. unfold side. case Rlt_bool_spec; intros; [left|right]; split; auto. Qed.
Lemma side_or t : side t = 720 \/ side t = -720.
Proof. destruct (side_cases t) as [[_ ?]|[_ ?]]; auto. Qed.


Lemma side_abs (t : b64) (x : R) : Rabs (B2R t - x * side t) = Rabs (Rabs (B2R t) - 720 * x).
Proof.
  destruct (side_cases t) as [[A ->]|[A ->]].
  - rewrite (Rabs_right (B2R t)) by lra. f_equal. ring.
  - rewrite (Rabs_left1 (B2R t)) by lra. rewrite <- Rabs_Ropp. f_equal. ring.
Qed.
Lemma abs_side t : Rabs (side t) = 720.
Proof. destruct (side_or t) as [-> | ->]; [apply Rabs_right|rewrite Rabs_left]; lra. Qed.

Lemma far_719 x : 720 <= Rabs (rnd x) -> 719 < Rabs x.
Proof.
  intros H. apply Rnot_le_lt. intros C. apply (rnd_abs_le _ 719) in C; [lra|]. apply (fmt_int 719). lia.
Qed.
Lemma far_720 x : 720 <= Rabs x -> 720 <= Rabs (rnd x).
Proof. apply rnd_abs_ge. apply (fmt_int 720). lia. Qed.

Lemma moderate_100 t : moderate t -> Rabs (B2R t) <= IZR (2 ^ 100).
Proof. intros [_ H]. eapply Rle_trans; [exact H|]. apply IZR_le. lia. Qed.

(** if every tick before k was passed for t', then 720 k <= |t'| + 1 *)
Lemma passed_bound (t' : b64) k : moderate t' ->
  (forall i, (i < k)%nat -> @dspace_more _ B t' (tick (dspace_delt t') i) = true) ->
  IZR (720 * Z.of_nat k) <= Rabs (B2R t') + 1.
Proof.
  intros M. pose proof M as [Ft Ht]. destruct (delt_B t' Ft) as [D1 D2].
  induction k as [|k IH]; intros Hp; [pose proof (Rabs_pos (B2R t')); cbn; lra|].
  specialize (IH (fun i Hi => Hp i ltac:(lia))).
  assert (Hb : (720 * Z.of_nat k <= 2 ^ 53 - 720)%Z).
  { apply le_IZR. eapply Rle_trans; [apply IH|]. change (2 ^ 53 - 720)%Z with 9007199254740272%Z. lra. }
  destruct (tick_B (dspace_delt t') k D2) as [T1 T2]; [rewrite D1; apply side_or|lia|].
  specialize (Hp k ltac:(lia)).
  assert (Ht2 : Rabs (B2R (tick (dspace_delt t') k)) <= IZR (2 ^ 100)).
  { rewrite T1, D1, INR_IZR_INZ, Rabs_mult, <- abs_IZR, abs_side, <- mult_IZR. apply IZR_le. lia. }
  rewrite more_B in Hp; try assumption; [|now apply moderate_100].
  apply Rle_bool_iff in Hp. apply far_719 in Hp. rewrite T1, D1, side_abs, INR_IZR_INZ in Hp.
  rewrite mult_IZR in *. rewrite Nat2Z.inj_succ, succ_IZR.
  unfold Rabs at 1 in Hp. destruct (Rcase_abs _); lra.
Qed.

Lemma restarts_B_f (t a : b64) : fin t = true -> Rabs (B2R t) <= 4503599627370496 -> fin a = true -> @restarts _ B t a = false ->
  B2R a <> 0 /\ 0 < B2R t * B2R a /\ Rabs (B2R a) <= Rabs (B2R t).
Proof.
  intros Ft Ht Fa H. unfold restarts in H. rewrite !orb_false_iff in H. destruct H as [[H1 H2] H3].
  destruct zero_B as [Z1 Z2]. rewrite (eq_fin lm), Z1 in H1 by assumption.
  destruct (abs_fin lm t) as [A1 A2]. destruct (abs_fin lm a) as [A3 A4].
  rewrite (lt_fin lm), A1, A3 in H3 by congruence. apply Rlt_bool_iff_f in H3.
  destruct (mul_fin lm t a Ft Fa) as [P Q].
  { ovf. rewrite Rabs_mult. pose proof (Rabs_pos (B2R t)). pose proof (Rabs_pos (B2R a)).
    eapply Rle_trans; [apply Rmult_le_compat; try assumption; [exact Ht|eapply Rle_trans; [exact H3|exact Ht]]|]. lra. }
  rewrite (le_fin lm), Z1, P in H2 by assumption. apply Rle_bool_iff_f in H2.
  split; [|split]; [|apply Rnot_le_lt; intros C; apply (rnd_le_fmt _ 0) in C; [lra|apply (fmt_int 0); lia]|assumption].
  intros C. rewrite C, Req_bool_true in H1 by reflexivity. discriminate.
Qed.

Lemma keeps_B (t' t : b64) : moderate t' -> moderate t -> @keeps _ B t' t.
Proof.
  intros M' M k Hp Hr. pose proof M' as [Ft' Ht']. pose proof M as [Ft Ht].
  destruct (delt_B t' Ft') as [D1 D2].
  pose proof (passed_bound t' k M' Hp) as PB.
  assert (Hb : (720 * Z.of_nat k <= 2 ^ 53)%Z).
  { apply le_IZR. eapply Rle_trans; [apply PB|]. change (2 ^ 53)%Z with 9007199254740992%Z. lra. }
  assert (TK : forall i, (i <= k)%nat -> B2R (tick (@dspace_delt _ B t') i) = INR i * side t' /\ fin (tick (@dspace_delt _ B t') i) = true).
  { intros i Hi. rewrite <- D1. apply tick_B; [assumption|rewrite D1; apply side_or|lia]. }
  destruct (TK k ltac:(lia)) as [T1 T2].
  apply restarts_B_f in Hr; try assumption. destruct Hr as (_ & R1 & R2). rewrite T1 in *.
  assert (E : side t = side t').
  { pose proof (pos_INR k). destruct (side_cases t) as [[S1 S2]|[S1 S2]], (side_cases t') as [[S3 S4]|[S3 S4]]; rewrite S2, S4 in *; try reflexivity; nra. }
  split; [now apply delt_eq|].
  intros i Hi. destruct (TK i ltac:(lia)) as [I1 I2].
  rewrite Rabs_mult, abs_side, (Rabs_right (INR k)) in R2 by (apply Rle_ge, pos_INR).
  rewrite more_B; try assumption; [|now apply moderate_100|].
  - apply Rle_bool_iff. rewrite I1, <- E. apply far_720. rewrite side_abs.
    assert (K : INR i + 1 <= INR k) by (rewrite <- S_INR; apply le_INR; lia).
    rewrite Rabs_right; lra.
  - rewrite I1, INR_IZR_INZ, Rabs_mult, <- abs_IZR, abs_side, <- mult_IZR. apply IZR_le. lia.
Qed.

(** ** Termination *)
Lemma side_mul t x : side t * x = (if Rlt_bool 0 (B2R t) then x else - x) * 720.
Proof. unfold side. case Rlt_bool; ring. Qed.

Definition ahead (t a : R) : R := if Rlt_bool 0 t then a else - a.
Lemma ahead_self (t : R) : ahead t t = Rabs t.
Proof. unfold ahead. case Rlt_bool_spec; intros; [rewrite Rabs_right|rewrite Rabs_left1]; lra. Qed.
Lemma ahead_diff (t a : R) : Rabs (t - a) = Rabs (Rabs t - ahead t a).
Proof.
  unfold ahead. case Rlt_bool_spec; intros; [rewrite (Rabs_right t) by lra; reflexivity|].
  rewrite (Rabs_left1 t) by lra. rewrite <- Rabs_Ropp. f_equal. ring.
Qed.
Lemma ahead_abs (t a : R) : Rabs (ahead t a) = Rabs a.
Proof. unfold ahead. case Rlt_bool; [reflexivity|apply Rabs_Ropp]. Qed.

Lemma step_B (t a : b64) : moderate t -> fin a = true -> 0 <= ahead (B2R t) (B2R a) <= Rabs (B2R t) + 2 ->
  let a' := @fadd _ B a (dspace_delt t) in
  fin a' = true /\ Rabs (ahead (B2R t) (B2R a') - (ahead (B2R t) (B2R a) + 720)) <= 1 / 2.
Proof.
  intros [Ft Ht] Fa Ha. cbv zeta. destruct (delt_B t Ft) as [D1 D2].
  assert (Hs : Rabs (B2R a + side t) <= 9007199254740992).
  { eapply Rle_trans; [apply Rabs_triang|]. rewrite abs_side, <- (ahead_abs (B2R t)), Rabs_right; lra. }
  destruct (add_fin lm a (dspace_delt t) Fa D2) as [A D].
  { rewrite D1. ovf. lra. }
  split; [exact D|]. rewrite A, D1.
  pose proof (rnd_err 0 (B2R a + side t) ltac:(lia) Hs) as E. change (bpow radix2 0) with 1 in E.
  unfold ahead. unfold side in *. destruct (Rlt_bool 0 (B2R t)).
  - replace (_ - _) with (rnd (B2R a + 720) - (B2R a + 720)) by ring. exact E.
  - rewrite <- Rabs_Ropp. replace (- _) with (rnd (B2R a + -720) - (B2R a + -720)) by ring. exact E.
Qed.

Lemma loop_terminates_B n : forall (o : DspaceOptions b64) (g : Integ (F:=b64)), moderate (so_t o) -> fin (ig_atime g) = true ->
  0 <= ahead (B2R (so_t o)) (B2R (ig_atime g)) <= Rabs (B2R (so_t o)) + 2 ->
  Rabs (B2R (so_t o)) - ahead (B2R (so_t o)) (B2R (ig_atime g)) < 719 * (INR n + 1) ->
  exists x, @dspace_loop _ B n o (dspace_delt (so_t o)) g = Done x.
Proof.
  induction n as [|n IH]; intros o g M Fg HS HL; cbn [dspace_loop];
    destruct (dspace_more (so_t o) (ig_atime g)) eqn:E; try (eexists; reflexivity);
    (assert (E' : 719 < Rabs (B2R (so_t o)) - ahead (B2R (so_t o)) (B2R (ig_atime g)));
     [rewrite more_B in E; try assumption; [|apply M|now apply moderate_100|];
      [apply Rle_bool_iff, far_719 in E; rewrite ahead_diff in E; unfold Rabs at 1 in E; destruct (Rcase_abs _); lra
      |rewrite <- (ahead_abs (B2R (so_t o))), Rabs_right by lra; destruct M;
       change (2 ^ 100)%Z with 1267650600228229401496703205376%Z; lra]|]).
  - cbn [INR] in HL. lra.
  - destruct (step_B (so_t o) (ig_atime g) M Fg HS) as [F' E2].
    apply IH; try assumption; unfold dspace_step; cbn [ig_atime];
      apply Rabs_le_inv in E2; rewrite ?S_INR in HL; lra.
Qed.

Lemma not_fin_nan (a : b64) : fin a = false -> a = B754_nan \/ exists s, a = B754_infinity s.
Proof. destruct a; try discriminate; eauto. Qed.

Lemma dspace_terminates_B n (o : DspaceOptions b64) : moderate (so_t o) ->
  Rabs (B2R (so_t o)) < 719 * (INR n + 1) -> exists r, @dspace _ B n o = Done r.
Proof.
  intros M H. destruct (@feq _ B (so_irez o) (L 0 0)) eqn:Z.
  - unfold dspace. rewrite Z. eexists; reflexivity.
  - rewrite dspace_resonant by assumption.
    assert (X : exists x, @dspace_loop _ B n o (dspace_delt (so_t o)) (dspace_restart o) = Done x).
    { unfold dspace_restart. fold (@restarts _ B (so_t o) (so_atime o)).
      destruct (restarts (so_t o) (so_atime o)) eqn:E.
      - apply loop_terminates_B; cbn [ig_atime]; try assumption; destruct zero_B as [Z1 Z2]; [assumption|rewrite Z1..];
          pose proof (Rabs_pos (B2R (so_t o))); unfold ahead; case Rlt_bool; lra.
      - destruct (fin (so_atime o)) eqn:Fa.
        + apply restarts_B_f in E; try assumption; [|apply M..]. destruct E as (E1 & E2 & E3).
          assert (0 <= ahead (B2R (so_t o)) (B2R (so_atime o))).
          { unfold ahead. case Rlt_bool_spec; intros; nra. }
          rewrite <- (ahead_abs (B2R (so_t o))), Rabs_right in E3 by lra.
          apply loop_terminates_B; cbn [ig_atime]; try assumption; lra.
        + apply not_fin_nan in Fa. destruct Fa as [Fa | [s Fa]]; rewrite Fa in *.
          * assert (N : @dspace_more _ B (so_t o) B754_nan = false) by (unfold dspace_more; destruct (so_t o); reflexivity).
            destruct n; cbn [dspace_loop ig_atime]; rewrite N; eauto.
          * exfalso. unfold restarts in E. rewrite !orb_false_iff in E. destruct E as [_ E].
            destruct M as [Ft _]. destruct (so_t o), s; try discriminate Ft; vm_compute in E; discriminate E. }
    destruct X as [x ->]. eexists; reflexivity.
Qed.

(** ** Divergence *)
Lemma sum_bound x : Rabs x <= IZR (2 ^ 70) -> forall d : R, Rabs d <= 720 -> Rabs (rnd (x + d)) <= IZR (2 ^ 70).
Proof.
  intros Hx d Hd. change (IZR (2 ^ 70)) with (bpow radix2 70) in *.
  assert (P : forall y, y <= bpow radix2 70 + 720 -> rnd y <= bpow radix2 70).
  { intros y Hy. apply round_N_le_midp; [typeclasses eauto|apply fmt_bpow; lia|].
    rewrite succ_eq_pos by apply bpow_ge_0. rewrite ulp_bpow.
    assert (bpow radix2 18 <= bpow radix2 (fexp64 (70 + 1))) by (apply bpow_le; cbn; lia).
    change (bpow radix2 18) with 262144 in *. lra. }
  apply Rabs_le_inv in Hx, Hd. apply Rabs_le. split.
  - apply Ropp_le_cancel. rewrite Ropp_involutive, <- rnd_opp. apply P. lra.
  - apply P. lra.
Qed.

(** times so large that adding one step to the integrator clock no longer moves it *)
Definition enormous (t : b64) : Prop := t <> B754_nan /\ (fin t = true -> IZR (2 ^ 71) <= Rabs (B2R t)).

Lemma delt_enormous (t : b64) : enormous t -> fin (@dspace_delt _ B t) = true /\ Rabs (B2R (@dspace_delt _ B t)) <= 720.
Proof.
  intros _. unfold dspace_delt. destruct (flt _ _); [destruct STEPP_B as [-> ?]|destruct STEPN_B as [-> ?]];
    (split; [assumption|]); [rewrite Rabs_right|rewrite Rabs_left]; lra.
Qed.

Lemma more_enormous (t a : b64) : enormous t -> fin a = true -> Rabs (B2R a) <= IZR (2 ^ 70) ->
  (0 <= B2R t * B2R a) -> @dspace_more _ B t a = true.
Proof.
  intros [Nt Ht] Fa Ha Hs. destruct (fin t) eqn:Ft.
  - specialize (Ht eq_refl). unfold dspace_more.
    destruct (sub_fin_near lm t a Ft Fa) as [A D].
    { apply Rabs_le. change (2 ^ 71)%Z with 2361183241434822606848%Z in Ht. change (2 ^ 70)%Z with 1180591620717411303424%Z in Ha.
      revert Ht Ha. unfold Rabs. destruct (Rcase_abs (B2R t)), (Rcase_abs (B2R a)); intros; nra. }
    destruct (abs_fin lm (@fsub _ B t a)) as [A' D']. destruct STEPP_B as [P Q].
    rewrite (le_fin lm); [|assumption|congruence]. rewrite P, A', A.
    apply Rle_bool_iff, far_720.
    change (2 ^ 71)%Z with 2361183241434822606848%Z in Ht. change (2 ^ 70)%Z with 1180591620717411303424%Z in Ha.
    pose proof (Rabs_triang_inv (B2R t) (B2R a)). lra.
  - apply not_fin_nan in Ft. destruct Ft as [-> |[s ->]]; [congruence|].
    destruct a; try discriminate Fa; destruct s; reflexivity.
Qed.

Lemma step_enormous t a : enormous t -> fin a = true -> Rabs (B2R a) <= IZR (2 ^ 70) -> 0 <= B2R t * B2R a ->
  let a' := @fadd _ B a (dspace_delt t) in
  fin a' = true /\ Rabs (B2R a') <= IZR (2 ^ 70) /\ 0 <= B2R t * B2R a'.
Proof.
  intros Ht Fa Ha Hs. cbv zeta. destruct (delt_enormous t Ht) as [D1 D2].
  destruct (add_fin lm a (dspace_delt t) Fa D1) as [A D].
  { ovf. change (2 ^ 70)%Z with 1180591620717411303424%Z in Ha. eapply Rle_trans; [apply Rabs_triang|]. lra. }
  split; [exact D|]. rewrite A. split; [now apply sum_bound|].
  destruct (fin t) eqn:Ft; [|destruct t; try discriminate Ft; cbn; lra].
  destruct Ht as [_ Ht]. specialize (Ht Ft). change (2 ^ 71)%Z with 2361183241434822606848%Z in Ht.
  destruct (delt_B t Ft) as [E _]. rewrite E.
  destruct (side_cases t) as [[S1 ->]|[S1 ->]].
  - assert (0 <= rnd (B2R a + 720)); [|nra]. apply (rnd_ge_fmt 0); [apply (fmt_int 0); lia|]. nra.
  - rewrite Rabs_left1 in Ht by assumption.
    assert (rnd (B2R a + -720) <= 0); [|nra]. apply (rnd_le_fmt _ 0); [apply (fmt_int 0); lia|]. nra.
Qed.

Lemma loop_diverges n : forall (o : DspaceOptions b64) (g : Integ (F:=b64)), enormous (so_t o) -> fin (ig_atime g) = true ->
  Rabs (B2R (ig_atime g)) <= IZR (2 ^ 70) -> 0 <= B2R (so_t o) * B2R (ig_atime g) ->
  @dspace_loop _ B n o (dspace_delt (so_t o)) g = NoFuel.
Proof.
  induction n as [|n IH]; intros o g Ht Fg Hg Hs; cbn [dspace_loop]; rewrite more_enormous by assumption; [reflexivity|].
  destruct (step_enormous _ _ Ht Fg Hg Hs) as (A & C & D). apply IH; assumption.
Qed.

Lemma dspace_diverges n (o : DspaceOptions b64) : @feq _ B (so_irez o) (L 0 0) = false ->
  @feq _ B (so_atime o) (L 0 0) = true -> enormous (so_t o) -> @dspace _ B n o = NoFuel.
Proof.
  intros Z A Ht. rewrite dspace_resonant by assumption.
  rewrite loop_diverges; try assumption; [reflexivity|..]; unfold dspace_restart; rewrite A; cbn [orb ig_atime];
    destruct zero_B as [Z1 Z2]; [assumption|rewrite Z1..].
  - rewrite Rabs_R0. apply IZR_le. lia.
  - lra.
Qed.
End S.
