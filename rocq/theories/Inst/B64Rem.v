(** * Remainder and magnitude bounds in binary64 *)
From Coq Require Import ZArith Reals Bool Lra Lia Psatz Floats.SpecFloat.
From Flocq Require Import Core IEEE754.BinarySingleNaN.
From Verif.Model Require Import Float.
From Verif.Inst Require Import B64 RInst B64Facts.
Local Open Scope R_scope.

(** ** The remainder is exact *)
Lemma F2R_scale m e f : (f <= e)%Z -> F2R (Float radix2 m e) = IZR (m * 2 ^ (e - f)) * bpow radix2 f.
Proof.
  intros H. unfold F2R. cbn [Fnum Fexp]. rewrite mult_IZR. change 2%Z with (radix_val radix2).
  rewrite IZR_Zpower by lia. rewrite Rmult_assoc, <- bpow_plus. do 2 f_equal. lia.
Qed.

Lemma Rrem_scale (sx sy : bool) X Y e : (0 <= X)%Z -> (0 < Y)%Z ->
  Rrem (IZR (cond_Zopp sx X) * bpow radix2 e) (IZR (cond_Zopp sy Y) * bpow radix2 e) =
  IZR (cond_Zopp sx (Z.rem X Y)) * bpow radix2 e.
Proof.
  intros HX HY. unfold Rrem.
  pose proof (bpow_gt_0 radix2 e) as P. set (b := bpow radix2 e) in *. clearbody b.
  assert (Q : IZR Y <> 0) by (apply IZR_neq; lia).
  assert (D : X = (Y * (X / Y) + Z.rem X Y)%Z). { rewrite Z.rem_mod_nonneg by lia. apply Z_div_mod_eq_full. }
  assert (T : Ztrunc (IZR X / IZR Y) = (X / Y)%Z).
  { rewrite Ztrunc_floor; [apply Zfloor_div; lia|]. apply Rmult_le_pos; [apply IZR_le; lia|].
    apply Rlt_le, Rinv_0_lt_compat, IZR_lt; lia. }
  assert (R : IZR (Z.rem X Y) = IZR X - IZR Y * IZR (X / Y)).
  { rewrite D at 2. rewrite plus_IZR, mult_IZR. ring. }
  destruct sx, sy; cbn [cond_Zopp]; rewrite ?opp_IZR.
  - replace (- IZR X * b / (- IZR Y * b)) with (IZR X / IZR Y) by (field; split; lra). rewrite T, R. ring.
  - replace (- IZR X * b / (IZR Y * b)) with (- (IZR X / IZR Y)) by (field; split; lra). rewrite Ztrunc_opp, opp_IZR, T, R. ring.
  - replace (IZR X * b / (- IZR Y * b)) with (- (IZR X / IZR Y)) by (field; split; lra). rewrite Ztrunc_opp, opp_IZR, T, R. ring.
  - replace (IZR X * b / (IZR Y * b)) with (IZR X / IZR Y) by (field; split; lra). rewrite T, R. ring.
Qed.

Lemma Rrem_lt x y : y <> 0 -> Rabs (Rrem x y) < Rabs y.
Proof.
  intros H. unfold Rrem.
  replace (x - y * IZR (Ztrunc (x / y))) with (y * (x / y - IZR (Ztrunc (x / y)))) by (field; exact H).
  rewrite Rabs_mult. rewrite <- (Rmult_1_r (Rabs y)) at 2. apply Rmult_lt_compat_l; [now apply Rabs_pos_lt|].
  destruct (Rle_lt_dec 0 (x / y)) as [P|P].
  - rewrite Ztrunc_floor by exact P. pose proof (Zfloor_lb (x / y)). pose proof (Zfloor_ub (x / y)).
    rewrite Rabs_pos_eq; lra.
  - rewrite Ztrunc_ceil by lra. pose proof (Zceil_ub (x / y)). unfold Zceil in *.
    pose proof (Zfloor_ub (- (x / y))). pose proof (Zfloor_lb (- (x / y))). rewrite opp_IZR in *.
    rewrite Rabs_left1; lra.
Qed.
Lemma Rrem_sign x y : y <> 0 -> (0 <= x -> 0 <= Rrem x y) /\ (x <= 0 -> Rrem x y <= 0).
Proof.
  intros H.
  assert (A : forall x, 0 <= x -> 0 <= Rrem x y).
  { clear x. intros x Hx. unfold Rrem. destruct (Rle_lt_dec 0 y) as [P|P].
    - assert (P2 : 0 < y) by lra. assert (Q : 0 <= x / y) by (apply Rmult_le_pos; [lra|apply Rlt_le, Rinv_0_lt_compat; lra]).
      rewrite Ztrunc_floor by exact Q. pose proof (Zfloor_lb (x / y)) as L.
      apply Rmult_le_compat_l with (r := y) in L; [|lra]. replace (y * (x / y)) with x in L by (field; lra). lra.
    - assert (Q : x / y <= 0). { replace (x / y) with (- (x * / - y)) by (field; lra).
        assert (0 <= x * / - y) by (apply Rmult_le_pos; [lra|apply Rlt_le, Rinv_0_lt_compat; lra]). lra. }
      rewrite Ztrunc_ceil by exact Q. pose proof (Zceil_ub (x / y)) as L.
      apply Rmult_le_compat_l with (r := - y) in L; [|lra]. replace (- y * (x / y)) with (- x) in L by (field; lra). lra. }
  split; [apply A|]. intros Hx.
  assert (O : Rrem (- x) y = - Rrem x y).
  { unfold Rrem. replace (- x / y) with (- (x / y)) by (field; exact H). rewrite Ztrunc_opp, opp_IZR. ring. }
  assert (0 <= Rrem (- x) y) by (apply A; lra). lra.
Qed.

Theorem rem_fin (x y : b64) : fin x = true -> fin y = true -> B2R y <> 0 ->
  B2R (b64_rem x y) = Rrem (B2R x) (B2R y) /\ fin (b64_rem x y) = true.
Proof.
  intros Fx Fy Ny.
  destruct x as [sx|sx| |sx mx ex Bx]; cbn [is_finite] in Fx; try discriminate;
  destruct y as [sy|sy| |sy my ey By]; cbn [is_finite] in Fy; try discriminate; try (exfalso; apply Ny; reflexivity).
  - cbn [b64_rem B2R]. split; [|reflexivity]. unfold Rrem. replace (0 / _) with 0 by (unfold Rdiv; ring).
    rewrite Ztrunc_IZR. cbn. ring.
  - unfold b64_rem. set (e := Z.min ex ey). set (X := (Zpos mx * 2 ^ (ex - e))%Z). set (Y := (Zpos my * 2 ^ (ey - e))%Z).
    assert (HX : (0 < X)%Z) by (apply Z.mul_pos_pos; [lia|apply Z.pow_pos_nonneg; lia]).
    assert (HY : (0 < Y)%Z) by (apply Z.mul_pos_pos; [lia|apply Z.pow_pos_nonneg; lia]).
    assert (EX : B2R (B754_finite sx mx ex Bx) = IZR (cond_Zopp sx X) * bpow radix2 e).
    { cbn [BinarySingleNaN.B2R]. rewrite (F2R_scale _ _ e) by lia. unfold X. f_equal. f_equal. destruct sx; cbn [cond_Zopp SpecFloat.cond_Zopp]; ring. }
    assert (EY : B2R (B754_finite sy my ey By) = IZR (cond_Zopp sy Y) * bpow radix2 e).
    { cbn [BinarySingleNaN.B2R]. rewrite (F2R_scale _ _ e) by lia. unfold Y. f_equal. f_equal. destruct sy; cbn [cond_Zopp SpecFloat.cond_Zopp]; ring. }
    pose proof (binary_normalize_correct prec emax Hprec Hemax mode_NE (cond_Zopp sx (Z.rem X Y)) e sx) as C. cbv zeta in C.
    cbv [round_mode] in C.
    assert (ER : F2R (Float radix2 (cond_Zopp sx (Z.rem X Y)) e) = Rrem (B2R (B754_finite sx mx ex Bx)) (B2R (B754_finite sy my ey By))).
    { rewrite EX, EY, Rrem_scale by lia. reflexivity. }
    assert (HR : (0 <= Z.rem X Y < Y)%Z) by (apply Z.rem_bound_pos; lia).
    assert (HR2 : (Z.rem X Y <= X)%Z). { rewrite Z.rem_mod_nonneg by lia. apply Z.mod_le; lia. }
    assert (Px : (Zpos mx < 2 ^ 53)%Z /\ (-1074 <= ex)%Z).
    { pose proof Bx as Bx'. unfold SpecFloat.bounded, SpecFloat.canonical_mantissa in Bx'.
      apply andb_prop in Bx'. destruct Bx' as [B1 _]. apply Zeq_bool_eq in B1.
      unfold SpecFloat.fexp, SpecFloat.emin, prec, emax in B1. rewrite Digits.Zpos_digits2_pos in B1.
      split; [|lia]. apply (Digits.Zpower_gt_Zdigits radix2 53 (Zpos mx)). lia. }
    assert (Py : (Zpos my < 2 ^ 53)%Z /\ (-1074 <= ey)%Z).
    { pose proof By as Bx'. unfold SpecFloat.bounded, SpecFloat.canonical_mantissa in Bx'.
      apply andb_prop in Bx'. destruct Bx' as [B1 _]. apply Zeq_bool_eq in B1.
      unfold SpecFloat.fexp, SpecFloat.emin, prec, emax in B1. rewrite Digits.Zpos_digits2_pos in B1.
      split; [|lia]. apply (Digits.Zpower_gt_Zdigits radix2 53 (Zpos my)). lia. }
    assert (Fm : fmt (F2R (Float radix2 (cond_Zopp sx (Z.rem X Y)) e))).
    { apply fmt_FLT. exists (Float radix2 (cond_Zopp sx (Z.rem X Y)) e); [reflexivity| |cbn [Fexp]; lia].
      cbn [Fnum]. rewrite abs_cond_Zopp.
      rewrite Z.abs_eq by lia. destruct (Z.min_spec ex ey) as [[_ M]|[_ M]]; fold e in M.
      - apply Z.le_lt_trans with X; [exact HR2|]. unfold X. rewrite M, Z.sub_diag, Z.pow_0_r. change (Zpower radix2 53) with (2 ^ 53)%Z. lia.
      - apply Z.lt_trans with Y; [lia|]. unfold Y. rewrite M, Z.sub_diag, Z.pow_0_r. change (Zpower radix2 53) with (2 ^ 53)%Z. lia. }
    assert (Ab : Rabs (F2R (Float radix2 (cond_Zopp sx (Z.rem X Y)) e)) < bpow radix2 emax).
    { rewrite ER. eapply Rlt_trans; [apply Rrem_lt, Ny|]. apply abs_B2R_lt_emax. }
    rewrite (rnd_id _ Fm), Rlt_bool_true in C by exact Ab. destruct C as (C1 & C2 & _).
    split; [now rewrite C1|exact C2].
Qed.

(** ** Magnitude bounds by powers of two *)
Definition bnd (x : b64) (k : Z) : Prop := fin x = true /\ Rabs (B2R x) <= bpow radix2 k.

Lemma bnd_weaken x k k' : bnd x k -> (k <= k')%Z -> bnd x k'.
Proof. intros [A B] H. split; [exact A|]. eapply Rle_trans; [exact B|]. now apply bpow_le. Qed.
Lemma bnd_const x k : (-1074 <= k <= 1000)%Z -> fin x = true -> Bleb (Babs x) (b64_norm 1 k) = true -> bnd x k.
Proof.
  intros Hk Fx H. split; [exact Fx|].
  pose proof (binary_normalize_correct prec emax Hprec Hemax mode_NE 1 k false) as C. cbv zeta in C.
  assert (E : F2R (Float radix2 1 k) = bpow radix2 k) by (unfold F2R; cbn [Fnum Fexp]; ring). rewrite E in C. cbv [round_mode] in C.
  rewrite no_ovf in C. 2:{ rewrite Rabs_pos_eq by apply bpow_ge_0. apply bpow_le. lia. }
  destruct C as (C1 & C2 & _). fold (b64_norm 1 k) in C1, C2. rewrite rnd_id in C1 by (apply fmt_bpow; lia).
  rewrite Bleb_correct in H; [|now rewrite is_finite_Babs|exact C2]. rewrite C1, B2R_Babs in H.
  revert H. case Rle_bool_spec; [auto|discriminate].
Qed.
Section O.
Context (lm : libm).
Notation B := (B64Ops lm).
Lemma bp1 k : bpow radix2 (k + 1) = 2 * bpow radix2 k.
Proof. rewrite bpow_plus. cbn. ring. Qed.
Lemma bnd_add x y k : bnd x k -> bnd y k -> (-1074 <= k + 1 <= 1000)%Z -> bnd (@fadd _ B x y) (k + 1).
Proof.
  intros [Fx Bx] [Fy By] Hk.
  assert (S : Rabs (B2R x + B2R y) <= bpow radix2 (k + 1)).
  { eapply Rle_trans; [apply Rabs_triang|]. rewrite bp1. lra. }
  destruct (add_fin lm x y Fx Fy) as [E F]. { eapply Rle_trans; [exact S|]. apply bpow_le. lia. }
  split; [exact F|]. rewrite E. apply rnd_abs_le; [apply fmt_bpow; lia|exact S].
Qed.
Lemma bnd_sub x y k : bnd x k -> bnd y k -> (-1074 <= k + 1 <= 1000)%Z -> bnd (@fsub _ B x y) (k + 1).
Proof.
  intros [Fx Bx] [Fy By] Hk.
  assert (S : Rabs (B2R x - B2R y) <= bpow radix2 (k + 1)).
  { unfold Rminus. eapply Rle_trans; [apply Rabs_triang|]. rewrite Rabs_Ropp, bp1. lra. }
  destruct (sub_fin lm x y Fx Fy) as [E F]. { eapply Rle_trans; [exact S|]. apply bpow_le. lia. }
  split; [exact F|]. rewrite E. apply rnd_abs_le; [apply fmt_bpow; lia|exact S].
Qed.
Lemma bnd_mul x y j k : bnd x j -> bnd y k -> (-1074 <= j + k <= 1000)%Z -> bnd (@fmul _ B x y) (j + k).
Proof.
  intros [Fx Bx] [Fy By] Hk.
  assert (S : Rabs (B2R x * B2R y) <= bpow radix2 (j + k)).
  { rewrite Rabs_mult, bpow_plus. apply Rmult_le_compat; auto using Rabs_pos. }
  destruct (mul_fin lm x y Fx Fy) as [E F]. { eapply Rle_trans; [exact S|]. apply bpow_le. lia. }
  split; [exact F|]. rewrite E. apply rnd_abs_le; [apply fmt_bpow; lia|exact S].
Qed.
(** division by something of magnitude >= 1 *)
Lemma bnd_div x y k : bnd x k -> 1 <= Rabs (B2R y) -> (-1074 <= k <= 1000)%Z -> bnd (@fdiv _ B x y) k.
Proof.
  intros [Fx Bx] Hy Hk.
  assert (Ny : B2R y <> 0) by (intros E; rewrite E, Rabs_R0 in Hy; lra).
  assert (S : Rabs (B2R x / B2R y) <= bpow radix2 k).
  { unfold Rdiv. rewrite Rabs_mult, Rabs_inv. apply Rle_trans with (Rabs (B2R x) * 1); [|lra].
    apply Rmult_le_compat_l; [apply Rabs_pos|]. rewrite <- Rinv_1. apply Rinv_le; lra. }
  destruct (div_fin lm x y Fx Ny) as [E F]. { eapply Rle_trans; [exact S|]. apply bpow_le. lia. }
  split; [exact F|]. rewrite E. apply rnd_abs_le; [apply fmt_bpow; lia|exact S].
Qed.
Lemma bnd_floor x k : bnd x k -> (0 <= k <= 1000)%Z -> bnd (@ffloor _ B x) k.
Proof.
  intros [Fx Bx] Hk. destruct (floor_fin lm x) as [E F]. split; [now rewrite F|]. rewrite E.
  rewrite <- (IZR_Zpower radix2 k) in * by lia. apply Rabs_le_inv in Bx. apply Rabs_le. rewrite <- opp_IZR in *.
  split; apply IZR_le; [apply Zfloor_lub, Bx|]. apply le_IZR.
  eapply Rle_trans; [apply Zfloor_lb|]. apply Bx.
Qed.
End O.
