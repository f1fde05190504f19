(** * C47: the doppler factor *)
From Coq Require Import ZArith List Bool Reals Lra Lia Psatz.
From Flocq Require Import Core.Raux Core IEEE754.BinarySingleNaN.
From Verif.Model Require Import Float Constants Vec3 Doppler.
From Verif.Inst Require Import RInst RTac B64 B64Facts.
From Verif.Spec Require Import Vectors3.
From Verif.Proofs Require Import TransformFacts FrameR.
Local Open Scope R_scope.

(** speed of light, km/s *)
Definition c_light : R := 299792.458.

Lemma doppler_R (l p v : Vec3 R) :
  doppler_factor l p v = 1 + Rabs (norm (minus (plus p v) l) - norm (minus p l)) / c_light.
Proof.
  unfold doppler_factor. cbv zeta. rewrite !vrange_norm.
  replace (vadd p v) with (plus p v) by (unfold vadd, plus; rops; reflexivity).
  unfold sign, kC, c_light. rops.
  set (d := norm (minus (plus p v) l) - norm (minus p l)). case Rle_bool_spec; intros H.
  - rewrite Rabs_pos_eq by exact H. lra.
  - rewrite Rabs_left by exact H. lra.
Qed.

(** The factor is 1 + |change of range over one second| / c. *)
Theorem C47_formula :
  forall l p v : Vec3 R,
    doppler_factor l p v = 1 + Rabs (vrange (plus p v) l - vrange p l) / c_light.
Proof. intros. rewrite doppler_R, !vrange_norm. reflexivity. Qed.
Print Assumptions C47_formula.

(** It is between 1 and 1 + |v|/c. *)
Theorem C47_bounds :
  forall l p v : Vec3 R, 1 <= doppler_factor l p v <= 1 + norm v / c_light.
Proof.
  intros l p v. rewrite doppler_R. assert (C : 0 < c_light) by (unfold c_light; lra). split.
  - pose proof (Rabs_pos (norm (minus (plus p v) l) - norm (minus p l))).
    assert (0 <= Rabs (norm (minus (plus p v) l) - norm (minus p l)) / c_light) by (apply Rle_mult_inv_pos; assumption). lra.
  - apply Rplus_le_compat_l. unfold Rdiv. apply Rmult_le_compat_r; [left; now apply Rinv_0_lt_compat|].
    apply Rabs_le. split.
    + assert (E : minus p l = plus (minus (plus p v) l) (scale (-1) v)).
      { apply vec_eq; unfold minus, plus, scale; cbn [v_x v_y v_z]; ring. }
      pose proof (triangle (minus (plus p v) l) (scale (-1) v)) as T. rewrite <- E, norm_opp in T. lra.
    + assert (E : minus (plus p v) l = plus (minus p l) v).
      { apply vec_eq; unfold minus, plus, scale; cbn [v_x v_y v_z]; ring. }
      pose proof (triangle (minus p l) v) as T. rewrite <- E in T. lra.
Qed.
Print Assumptions C47_bounds.

(** It does not depend on the frame: translating both points, or applying any linear map that keeps
    dot products (a rotation or reflection), leaves it unchanged. *)
Theorem C47_frame :
  (forall l p v d : Vec3 R, doppler_factor (plus l d) (plus p d) v = doppler_factor l p v) /\
  (forall M : Vec3 R -> Vec3 R,
     (forall a b k, M (plus a (scale k b)) = plus (M a) (scale k (M b))) -> (forall a b, dot (M a) (M b) = dot a b) ->
     forall l p v, doppler_factor (M l) (M p) (M v) = doppler_factor l p v).
Proof.
  split.
  - intros l p v d. rewrite !doppler_R.
    replace (minus (plus (plus p d) v) (plus l d)) with (minus (plus p v) l) by (apply vec_eq; unfold minus, plus, scale; cbn [v_x v_y v_z]; ring).
    replace (minus (plus p d) (plus l d)) with (minus p l) by (apply vec_eq; unfold minus, plus, scale; cbn [v_x v_y v_z]; ring).
    reflexivity.
  - intros M HM HD l p v. rewrite !doppler_R.
    assert (S1 : forall a b, minus (M a) (M b) = M (minus a b)) by (intros a b; unfold minus; now rewrite HM).
    assert (P1 : forall a b, plus (M a) (M b) = M (plus a b)).
    { intros a b. replace b with (scale 1 b) at 2 by (apply vec_eq; unfold scale; cbn [v_x v_y v_z]; ring). rewrite HM.
      apply vec_eq; unfold plus, scale; cbn [v_x v_y v_z]; ring. }
    assert (N1 : forall a, norm (M a) = norm a) by (intros a; unfold norm; now rewrite HD).
    now rewrite P1, !S1, !N1.
Qed.
Print Assumptions C47_frame.

(** It cannot tell approach from recession: moving along the line of sight at speed k km/s gives
    1 + k/c both ways (k up to the current range), where the physical factor is below 1 for one of them. *)
Theorem C47_blind_to_sign :
  forall (l p : Vec3 R) (k : R),
    p <> l -> 0 <= k <= vrange p l ->
    let u := scale (1 / vrange p l) (minus p l) in
    norm u = 1 /\
    doppler_factor l p (scale k u) = 1 + k / c_light /\ doppler_factor l p (scale (- k) u) = 1 + k / c_light.
Proof.
  intros l p k N Hk u. rewrite vrange_norm in Hk. unfold u. rewrite vrange_norm. set (d := norm (minus p l)) in *.
  assert (D : 0 < d).
  { destruct (norm_nonneg (minus p l)) as [H|H]; [exact H|]. elim N. apply minus_zero, norm_zero. now symmetry. }
  assert (G : forall a, norm (minus (plus p (scale a (scale (1 / d) (minus p l)))) l) = Rabs (1 + a / d) * d).
  { intros a. replace (minus (plus p (scale a (scale (1 / d) (minus p l)))) l) with (scale (1 + a / d) (minus p l)).
    - apply norm_scale.
    - apply vec_eq; unfold minus, plus, scale; cbn [v_x v_y v_z]; field; lra. }
  assert (Q : 0 <= k / d <= 1).
  { split; [apply Rle_mult_inv_pos; lra|]. apply (Rmult_le_reg_r d); [lra|]. unfold Rdiv. rewrite Rmult_assoc, Rinv_l by lra. lra. }
  assert (K : k / d * d = k) by (field; lra).
  split; [|split].
  - rewrite norm_scale. fold d. rewrite Rabs_pos_eq; [field; lra|]. apply Rlt_le, Rdiv_lt_0_compat; lra.
  - rewrite doppler_R, G. fold d. rewrite (Rabs_pos_eq (1 + k / d)) by lra. f_equal. f_equal. rewrite Rabs_pos_eq; nra.
  - rewrite doppler_R, G. fold d. replace (- k / d) with (- (k / d)) by (field; lra). rewrite (Rabs_pos_eq (1 + - (k / d))) by lra.
    f_equal. f_equal. rewrite Rabs_left1; nra.
Qed.
Print Assumptions C47_blind_to_sign.

Section B64.
Context (lm : libm).
Notation B := (B64Ops lm).
Lemma kC_fin : fin (@kC _ B) = true /\ 2 <= B2R (@kC _ B).
Proof.
  assert (F : fin (@kC _ B) = true) by (vm_compute; reflexivity). split; [exact F|].
  destruct (lit_int_fin lm 2) as [E F2]; [lia|].
  pose proof (le_fin lm (@L _ B 2 0) (@kC _ B) F2 F) as Q. rewrite E in Q.
  assert (T : @fle _ B (@L _ B 2 0) (@kC _ B) = true) by (vm_compute; reflexivity).
  rewrite T in Q. symmetry in Q. now apply Rle_bool_iff in Q.
Qed.
Lemma sign_mul (r : b64) : fin r = true -> fin (@fmul _ B r (@sign _ B r)) = true /\ B2R (@fmul _ B r (@sign _ B r)) = Rabs (B2R r).
Proof.
  intros F. destruct (lit_int_fin lm 0) as [Z1 Z2]; [lia|]. destruct (lit_int_fin lm 1) as [O1 O2]; [lia|].
  unfold sign. rewrite (le_fin lm _ _ Z2 F), Z1.
  assert (T : forall s : b64, fin s = true -> Rabs (B2R r * B2R s) = Rabs (B2R r) ->
    fin (@fmul _ B r s) = true /\ B2R (@fmul _ B r s) = rnd (B2R r * B2R s)).
  { intros s Fs H. pose proof (Bmult_correct prec emax _ _ mode_NE r s) as C.
    assert (V : fmt (B2R r * B2R s)).
    { destruct (Rle_lt_dec 0 (B2R r * B2R s)) as [P|P].
      - rewrite <- (Rabs_pos_eq _ P), H. apply generic_format_abs, fmt_B2R.
      - replace (B2R r * B2R s) with (- Rabs (B2R r * B2R s)) by (rewrite Rabs_left by exact P; ring). rewrite H.
        apply generic_format_opp, generic_format_abs, fmt_B2R. }
    change (round radix2 (SpecFloat.fexp prec emax) (round_mode mode_NE) (B2R r * B2R s)) with (rnd (B2R r * B2R s)) in C.
    rewrite Rlt_bool_true in C.
    - destruct C as (C1 & C2 & _). split; [|exact C1]. change (@fmul _ B r s) with (Bmult mode_NE r s). rewrite C2, F, Fs. reflexivity.
    - rewrite (rnd_id _ V), H. apply abs_B2R_lt_emax. }
  case Rle_bool_spec; intros H.
  - destruct (T (@L _ B 1 0) O2) as [T1 T2]; [rewrite O1; f_equal; ring|]. split; [exact T1|]. rewrite T2, O1.
    replace (B2R r * 1) with (B2R r) by ring. rewrite rnd_id by apply fmt_B2R. now rewrite Rabs_pos_eq.
  - destruct (neg_fin lm (@L _ B 1 0)) as [N1 N2]. rewrite O1 in N1. rewrite O2 in N2.
    destruct (T (@fneg _ B (@L _ B 1 0)) N2) as [T1 T2].
    { rewrite N1. replace (B2R r * - (1)) with (- B2R r) by ring. apply Rabs_Ropp. }
    split; [exact T1|]. rewrite T2, N1. replace (B2R r * - (1)) with (- B2R r) by ring.
    rewrite rnd_opp, rnd_id by apply fmt_B2R. now rewrite Rabs_left.
Qed.
Lemma factor_ge (r : b64) :
  let q := @fadd _ B (@L _ B 1 0) (@fdiv _ B (@fmul _ B r (@sign _ B r)) (@kC _ B)) in
  @flt _ B q (@L _ B 1 0) = false /\ (fin r = true -> fin q = true).
Proof.
  cbv zeta. destruct (fin r) eqn:F.
  - destruct (sign_mul r F) as [M1 M2]. destruct kC_fin as (C1 & C3). destruct (lit_int_fin lm 1) as [O1 O2]; [lia|].
    set (m := @fmul _ B r (@sign _ B r)) in *. clearbody m.
    pose proof (abs_B2R_lt_emax prec emax r) as AE. rewrite <- M2 in AE.
    assert (M3 : 0 <= B2R m) by (rewrite M2; apply Rabs_pos).
    assert (E1 : bpow radix2 emax = 2 * bpow radix2 1023) by (change emax with (1 + 1023)%Z; rewrite bpow_plus; reflexivity).
    assert (Q0 : 0 <= B2R m / B2R (@kC _ B)) by (apply Rle_mult_inv_pos; lra).
    assert (Q1 : B2R m / B2R (@kC _ B) <= bpow radix2 1022).
    { assert (KC : 4 <= B2R (@kC _ B)).
      { destruct (lit_int_fin lm 4) as [E4 F4]; [lia|]. pose proof (le_fin lm (@L _ B 4 0) (@kC _ B) F4 C1) as Q. rewrite E4 in Q.
        assert (T : @fle _ B (@L _ B 4 0) (@kC _ B) = true) by (vm_compute; reflexivity).
        rewrite T in Q. symmetry in Q. now apply Rle_bool_iff in Q. }
      assert (E2 : bpow radix2 1023 = 2 * bpow radix2 1022) by (change 1023%Z with (1 + 1022)%Z; rewrite bpow_plus; reflexivity).
      pose proof (bpow_gt_0 radix2 1022).
      apply (Rmult_le_reg_r (B2R (@kC _ B))); [lra|]. unfold Rdiv. rewrite Rmult_assoc, Rinv_l by lra. nra. }
    assert (E2 : bpow radix2 1023 = 2 * bpow radix2 1022) by (change 1023%Z with (1 + 1022)%Z; rewrite bpow_plus; reflexivity).
    assert (B1 : 1 <= bpow radix2 1022) by (change 1 with (bpow radix2 0); apply bpow_le; lia).
    destruct (div_fin lm m (@kC _ B) M1) as [D1 D2]; [lra|rewrite Rabs_pos_eq by exact Q0; lra|].
    set (d := @fdiv _ B m (@kC _ B)) in *. clearbody d.
    assert (D0 : 0 <= B2R d) by (rewrite D1; apply rnd_ge_fmt; [apply generic_format_0|exact Q0]).
    assert (D3 : B2R d <= bpow radix2 1022) by (rewrite D1; apply rnd_le_fmt; [apply fmt_bpow; lia|exact Q1]).
    destruct (add_fin lm (@L _ B 1 0) d O2 D2) as [A1 A2]; [rewrite O1, Rabs_pos_eq; lra|].
    split; [|intros _; exact A2]. rewrite (lt_fin lm _ _ A2 O2), A1, O1. apply Rlt_bool_false.
    apply rnd_ge_fmt; [apply (fmt_int 1); lia|lra].
  - split; [|discriminate]. destruct r as [| [] | |]; try discriminate F; vm_compute; reflexivity.
Qed.
End B64.

(** Binary64, whatever libm's pow returns: the factor is never below 1 (it may be NaN or infinite). *)
Theorem C47_binary64 :
  forall (lm : libm) (l p v : Vec3 b64),
    @flt _ (B64Ops lm) (@doppler_factor _ (B64Ops lm) l p v) (@L _ (B64Ops lm) 1 0) = false.
Proof. intros lm l p v. unfold doppler_factor. cbv zeta. apply factor_ge. Qed.
Print Assumptions C47_binary64.

(** Non-vacuity: 7000 km away, approaching or receding at 7 km/s. *)
Example C47_example :
  doppler_factor (MkVec3 0 0 0) (MkVec3 7000 0 0) (MkVec3 7 0 0) = 1 + 7 / c_light /\
  doppler_factor (MkVec3 0 0 0) (MkVec3 7000 0 0) (MkVec3 (-7) 0 0) = 1 + 7 / c_light.
Proof.
  rewrite !doppler_R. unfold norm, dot, minus, plus, scale. cbn [v_x v_y v_z]. split.
  - match goal with |- context [sqrt ?a - sqrt ?b] => replace a with (7007 * 7007) by ring; replace b with (7000 * 7000) by ring end.
    rewrite !sqrt_square by lra. rewrite Rabs_pos_eq by lra. lra.
  - match goal with |- context [sqrt ?a - sqrt ?b] => replace a with (6993 * 6993) by ring; replace b with (7000 * 7000) by ring end.
    rewrite !sqrt_square by lra. rewrite Rabs_left by lra. lra.
Qed.
