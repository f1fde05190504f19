(** * Facts about the binary64 instance *)
From Coq Require Import ZArith Reals Bool Lra Lia Psatz Floats.SpecFloat.
From Flocq Require Import Core IEEE754.BinarySingleNaN.
From Verif.Model Require Import Float.
From Verif.Inst Require Import B64.
Local Open Scope R_scope.

Notation B2R := (@B2R prec emax).
Notation fin := (@is_finite prec emax).
Notation fexp64 := (SpecFloat.fexp prec emax).
Notation rnd := (round radix2 fexp64 ZnearestE).
Notation fmt := (generic_format radix2 fexp64).

#[export] Instance fexp64_valid : Valid_exp fexp64 := fexp_correct prec emax Hprec.
#[export] Instance fexp64_mono : Monotone_exp fexp64 := fexp_monotone prec emax.
Lemma fexp64_FLT e : fexp64 e = FLT_exp (-1074) 53 e.
Proof. unfold SpecFloat.fexp, FLT_exp, SpecFloat.emin, prec, emax. lia. Qed.

Lemma fmt_FLT x : FLT_format radix2 (-1074) 53 x -> fmt x.
Proof. intros H. apply generic_format_FLT in H. exact H. Qed.
Lemma fmt_int z : (Z.abs z <= 2 ^ 53)%Z -> fmt (IZR z).
Proof.
  intros H. destruct (Z.eq_dec (Z.abs z) (2 ^ 53)) as [E|E].
  - destruct (Z.abs_eq_or_opp z) as [A|A]; rewrite A in E.
    + rewrite E. change (IZR (2 ^ 53)) with (bpow radix2 53). apply generic_format_bpow. rewrite fexp64_FLT. unfold FLT_exp; lia.
    + assert (Ez : z = (- 2 ^ 53)%Z) by lia. rewrite Ez, opp_IZR. apply generic_format_opp.
      change (IZR (2 ^ 53)) with (bpow radix2 53). apply generic_format_bpow. rewrite fexp64_FLT. unfold FLT_exp; lia.
  - apply fmt_FLT. exists (Float radix2 z 0); cbn; [unfold F2R; cbn; ring|lia|lia].
Qed.
Lemma fmt_bpow e : (-1074 <= e)%Z -> fmt (bpow radix2 e).
Proof. intros. apply generic_format_bpow. rewrite fexp64_FLT. unfold FLT_exp; lia. Qed.
Lemma fmt_B2R x : fmt (B2R x).
Proof. apply generic_format_B2R. Qed.

Lemma rnd_id x : fmt x -> rnd x = x.
Proof. apply round_generic; typeclasses eauto. Qed.
Lemma rnd_le x y : x <= y -> rnd x <= rnd y.
Proof. apply round_le; typeclasses eauto. Qed.
Lemma rnd_ge_fmt x y : fmt x -> x <= y -> x <= rnd y.
Proof. intros; apply round_ge_generic; try typeclasses eauto; assumption. Qed.
Lemma rnd_le_fmt x y : fmt y -> x <= y -> rnd x <= y.
Proof. intros; apply round_le_generic; try typeclasses eauto; assumption. Qed.
Lemma rnd_opp x : rnd (- x) = - rnd x.
Proof. apply round_NE_opp. Qed.
Lemma rnd_abs_le x y : fmt y -> Rabs x <= y -> Rabs (rnd x) <= y.
Proof. intros; apply abs_round_le_generic; try typeclasses eauto; assumption. Qed.
Lemma rnd_abs_ge x y : fmt x -> x <= Rabs y -> x <= Rabs (rnd y).
Proof. intros; apply abs_round_ge_generic; try typeclasses eauto; assumption. Qed.
Lemma rnd_0 : rnd 0 = 0.
Proof. apply round_0; typeclasses eauto. Qed.

(** absolute rounding error by magnitude *)
Lemma rnd_err e x : (-1074 <= e)%Z -> Rabs x <= bpow radix2 (e + 53) -> Rabs (rnd x - x) <= bpow radix2 e / 2.
Proof.
  intros He H. pose proof (bpow_gt_0 radix2 e) as P.
  destruct (Req_dec x 0) as [->|N].
  { rewrite rnd_0, Rminus_0_r, Rabs_R0. lra. }
  destruct (Rle_lt_or_eq_dec _ _ H) as [L|E].
  - eapply Rle_trans; [apply error_le_half_ulp; typeclasses eauto|].
    rewrite ulp_neq_0 by assumption. unfold cexp.
    assert (M : (mag radix2 x <= e + 53)%Z) by (apply mag_le_bpow; assumption).
    assert (B : bpow radix2 (fexp64 (mag radix2 x)) <= bpow radix2 e).
    { apply bpow_le. rewrite fexp64_FLT. unfold FLT_exp. lia. }
    lra.
  - rewrite rnd_id; [rewrite Rminus_eq_0, Rabs_R0; lra|].
    destruct (Rle_lt_dec 0 x).
    + rewrite Rabs_right in E by lra. rewrite E. apply fmt_bpow. lia.
    + rewrite Rabs_left in E by lra. replace x with (- bpow radix2 (e + 53)) by lra.
      apply generic_format_opp, fmt_bpow. lia.
Qed.
(** ** Operations on finite values without overflow *)
Lemma no_ovf x : Rabs x <= bpow radix2 1023 -> Rlt_bool (Rabs (rnd x)) (bpow radix2 emax) = true.
Proof.
  intros H. apply Rlt_bool_true. apply Rle_lt_trans with (bpow radix2 1023).
  - apply rnd_abs_le; [apply fmt_bpow; lia|exact H].
  - apply bpow_lt. reflexivity.
Qed.

Section Ops.
Context (lm : libm).
Notation B := (B64Ops lm).

Lemma add_fin x y : fin x = true -> fin y = true -> Rabs (B2R x + B2R y) <= bpow radix2 1023 ->
  B2R (@fadd _ B x y) = rnd (B2R x + B2R y) /\ fin (@fadd _ B x y) = true.
Proof.
  intros Fx Fy H. pose proof (Bplus_correct prec emax _ _ mode_NE x y Fx Fy) as C.
  cbv [round_mode] in C. rewrite (no_ovf _ H) in C. destruct C as (A & D & _). now split.
Qed.
Lemma sub_fin x y : fin x = true -> fin y = true -> Rabs (B2R x - B2R y) <= bpow radix2 1023 ->
  B2R (@fsub _ B x y) = rnd (B2R x - B2R y) /\ fin (@fsub _ B x y) = true.
Proof.
  intros Fx Fy H. pose proof (Bminus_correct prec emax _ _ mode_NE x y Fx Fy) as C.
  cbv [round_mode] in C. rewrite (no_ovf _ H) in C. destruct C as (A & D & _). now split.
Qed.
(** subtraction of a nearer value of the same sign never overflows *)
Lemma sub_fin_near x y : fin x = true -> fin y = true -> Rabs (B2R x - B2R y) <= Rabs (B2R x) ->
  B2R (@fsub _ B x y) = rnd (B2R x - B2R y) /\ fin (@fsub _ B x y) = true.
Proof.
  intros Fx Fy H. pose proof (Bminus_correct prec emax _ _ mode_NE x y Fx Fy) as C.
  cbv [round_mode] in C. rewrite Rlt_bool_true in C; [destruct C as (A & D & _); now split|].
  apply Rle_lt_trans with (Rabs (B2R x)); [|apply abs_B2R_lt_emax].
  apply rnd_abs_le; [|exact H]. apply generic_format_abs, fmt_B2R.
Qed.
Lemma mul_fin x y : fin x = true -> fin y = true -> Rabs (B2R x * B2R y) <= bpow radix2 1023 ->
  B2R (@fmul _ B x y) = rnd (B2R x * B2R y) /\ fin (@fmul _ B x y) = true.
Proof.
  intros Fx Fy H. pose proof (Bmult_correct prec emax _ _ mode_NE x y) as C.
  cbv [round_mode] in C. rewrite (no_ovf _ H) in C. destruct C as (A & D & _). split; [exact A|].
  cbn [fmul B64Ops]. rewrite D, Fx, Fy. reflexivity.
Qed.
Lemma div_fin x y : fin x = true -> B2R y <> 0 -> Rabs (B2R x / B2R y) <= bpow radix2 1023 ->
  B2R (@fdiv _ B x y) = rnd (B2R x / B2R y) /\ fin (@fdiv _ B x y) = true.
Proof.
  intros Fx Fy H. pose proof (Bdiv_correct prec emax _ _ mode_NE x y Fy) as C.
  cbv [round_mode] in C. rewrite (no_ovf _ H) in C. destruct C as (A & D & _). split; [exact A|].
  cbn [fdiv B64Ops]. now rewrite D, Fx.
Qed.
Lemma neg_fin x : B2R (@fneg _ B x) = - B2R x /\ fin (@fneg _ B x) = fin x.
Proof. split; [apply B2R_Bopp|apply is_finite_Bopp]. Qed.
Lemma abs_fin x : B2R (@fabs _ B x) = Rabs (B2R x) /\ fin (@fabs _ B x) = fin x.
Proof. split; [apply B2R_Babs|apply is_finite_Babs]. Qed.
Lemma floor_fin x : B2R (@ffloor _ B x) = IZR (Zfloor (B2R x)) /\ fin (@ffloor _ B x) = fin x.
Proof.
  destruct (Bnearbyint_correct prec emax _ mode_DN x) as (A & D & _). split; [|exact D].
  cbn [ffloor B64Ops]. rewrite A. cbv [round_mode]. unfold round, scaled_mantissa, cexp, FIX_exp, F2R. cbn [Fnum Fexp bpow Z.opp].
  now rewrite !Rmult_1_r.
Qed.
Lemma lt_fin x y : fin x = true -> fin y = true -> @flt _ B x y = Rlt_bool (B2R x) (B2R y).
Proof. apply Bltb_correct. Qed.
Lemma le_fin x y : fin x = true -> fin y = true -> @fle _ B x y = Rle_bool (B2R x) (B2R y).
Proof. apply Bleb_correct. Qed.
Lemma eq_fin x y : fin x = true -> fin y = true -> @feq _ B x y = Req_bool (B2R x) (B2R y).
Proof. apply Beqb_correct. Qed.

(** ** Integers and literals *)
Lemma norm_fin z : (Z.abs z <= 2 ^ 53)%Z -> B2R (b64_norm z 0) = IZR z /\ fin (b64_norm z 0) = true.
Proof.
  intros H. pose proof (binary_normalize_correct prec emax Hprec Hemax mode_NE z 0 false) as C. cbv zeta in C.
  assert (E : F2R (Float radix2 z 0) = IZR z) by (unfold F2R; cbn; ring).
  rewrite E in C. cbv [round_mode] in C.
  assert (A : Rabs (IZR z) <= bpow radix2 1023).
  { rewrite <- abs_IZR. apply Rle_trans with (IZR (2 ^ 53)); [now apply IZR_le|].
    change (IZR (2 ^ 53)) with (bpow radix2 53). apply bpow_le. lia. }
  rewrite (no_ovf _ A) in C. destruct C as (C1 & C2 & _). split; [|exact C2].
  unfold b64_norm. rewrite C1. apply rnd_id. now apply fmt_int.
Qed.
Lemma ofZ_fin z : (Z.abs z <= 2 ^ 53)%Z -> B2R (@fofZ _ B z) = IZR z /\ fin (@fofZ _ B z) = true.
Proof. apply norm_fin. Qed.
Lemma lit_int_fin z : (Z.abs z <= 2 ^ 53)%Z -> B2R (@L _ B z 0) = IZR z /\ fin (@L _ B z 0) = true.
Proof. apply norm_fin. Qed.

Lemma quot_fin m d : IZR (Zpos m) / IZR (Zpos d) <= bpow radix2 1023 ->
  B2R (b64_quot m d) = rnd (IZR (Zpos m) / IZR (Zpos d)) /\ fin (b64_quot m d) = true.
Proof.
  intros H. unfold b64_quot.
  pose proof (Bdiv_correct_aux prec emax Hprec Hemax mode_NE false m 0 false d 0) as C. cbv zeta in C.
  set (V := Bdiv_correct_aux prec emax Hprec Hemax mode_NE false m 0 false d 0) in *. clearbody V. cbv zeta in V.
  pose proof (proj2 V) as W. generalize (proj1 V). clear C V. intros V.
  assert (E : forall z, F2R (Float radix2 z 0) = IZR z) by (intros; unfold F2R; cbn; ring).
  cbn [SpecFloat.cond_Zopp] in W. rewrite !E in W. cbv [round_mode] in W.
  assert (A : Rabs (IZR (Zpos m) / IZR (Zpos d)) <= bpow radix2 1023).
  { rewrite Rabs_right; [exact H|]. apply Rle_ge, Rmult_le_pos; [apply IZR_le; lia|].
    apply Rlt_le, Rinv_0_lt_compat, IZR_lt. lia. }
  rewrite (no_ovf _ A) in W. destruct W as (W1 & W2 & _).
  rewrite <- W1. split.
  - now rewrite B2R_SF2B.
  - now rewrite is_finite_SF2B.
Qed.
(** decimal literal with k > 0 decimals *)
Lemma lit_dec_fin m k : IZR (Zpos m) / IZR (10 ^ Zpos k) <= bpow radix2 1023 ->
  B2R (@L _ B (Zpos m) (Zpos k)) = rnd (IZR (Zpos m) / IZR (10 ^ Zpos k)) /\ fin (@L _ B (Zpos m) (Zpos k)) = true.
Proof.
  intros H. change (@L _ B (Zpos m) (Zpos k)) with (b64_quot m (10 ^ k)).
  assert (E : (10 ^ Zpos k)%Z = Zpos (10 ^ k)) by (now rewrite Pos2Z.inj_pow).
  rewrite E in *. now apply quot_fin.
Qed.
End Ops.
