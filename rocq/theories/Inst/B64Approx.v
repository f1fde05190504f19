(** * Reasoning about binary64 results: exact values and error bounds *)
From Coq Require Import ZArith Reals Bool Lra Lia Psatz.
From Flocq Require Import Core IEEE754.BinarySingleNaN.
From Verif.Model Require Import Float.
From Verif.Inst Require Import B64 B64Facts.
Local Open Scope R_scope.

(** [x] is finite and has exactly the value [r]; or a value within [e] of [r]. *)
Definition is (x : b64) (r : R) : Prop := fin x = true /\ B2R x = r.
Definition near (x : b64) (r e : R) : Prop := fin x = true /\ Rabs (B2R x - r) <= e.

Lemma is_near x r : is x r -> near x r 0.
Proof. intros [F <-]. split; [exact F|]. rewrite Rminus_eq_0, Rabs_R0. lra. Qed.
Lemma near_weaken x r e e' : near x r e -> e <= e' -> near x r e'.
Proof. intros [F H] L. split; [exact F|lra]. Qed.
Lemma near_bounds x r e : near x r e -> r - e <= B2R x <= r + e.
Proof. intros [_ H]. apply Rabs_le_inv in H. lra. Qed.
Lemma near_eq x r r' e : near x r e -> r = r' -> near x r' e.
Proof. intros H <-. exact H. Qed.
Lemma is_eq x r r' : is x r -> r = r' -> is x r'.
Proof. intros H <-. exact H. Qed.

Lemma bpow_le_1023 k : (k <= 1023)%Z -> bpow radix2 k <= bpow radix2 1023.
Proof. apply bpow_le. Qed.

(** quotient of integers, rounded, then floored *)
Lemma Zfloor_rnd_div a b : (0 < b <= 1024)%Z -> (Z.abs a <= 1073741824)%Z -> Zfloor (rnd (IZR a / IZR b)) = (a / b)%Z.
Proof.
  intros Hb Ha. assert (Pb : 0 < IZR b) by (apply IZR_lt; lia).
  pose proof (Z.div_mod a b ltac:(lia)) as DM. pose proof (Z.mod_pos_bound a b ltac:(lia)) as MB.
  set (q := (a / b)%Z) in *. set (r := (a mod b)%Z) in *. clearbody q r.
  assert (E : IZR a / IZR b = IZR q + IZR r / IZR b) by (rewrite DM, plus_IZR, mult_IZR; field; lra).
  assert (Hq : (Z.abs q <= 1073741824)%Z) by nia.
  assert (R1 : 0 <= IZR r / IZR b) by (apply Rmult_le_pos; [apply IZR_le; lia|left; apply Rinv_0_lt_compat; lra]).
  assert (R2 : IZR r / IZR b <= 1 - / 1024).
  { apply Rmult_le_reg_r with (IZR b); [lra|]. unfold Rdiv. rewrite Rmult_assoc, Rinv_l, Rmult_1_r by lra.
    assert (IZR r <= IZR b - 1) by (rewrite <- minus_IZR; apply IZR_le; lia). assert (IZR b <= 1024) by (apply IZR_le; lia). lra. }
  apply Zfloor_imp. split.
  - apply rnd_ge_fmt; [apply fmt_int; lia|]. lra.
  - rewrite plus_IZR. assert (Q : Rabs (rnd (IZR a / IZR b) - IZR a / IZR b) <= bpow radix2 (-20) / 2).
    { apply rnd_err; [lia|]. rewrite E. change (bpow radix2 (-20 + 53)) with 8589934592. apply Rabs_le.
      assert (IZR (-1073741824) <= IZR q <= IZR 1073741824) by (split; apply IZR_le; lia). lra. }
    apply Rabs_le_inv in Q. rewrite E in *. change (bpow radix2 (-20)) with (/ 1048576) in Q. lra.
Qed.

Section S.
Context (lm : libm).
Notation B := (B64Ops lm).

Lemma is_ofZ z : (Z.abs z <= 2 ^ 53)%Z -> is (@fofZ _ B z) (IZR z).
Proof. intros H. destruct (ofZ_fin lm z H). now split. Qed.
Lemma is_lit z : (Z.abs z <= 2 ^ 53)%Z -> is (@L _ B z 0) (IZR z).
Proof. intros H. destruct (lit_int_fin lm z H). now split. Qed.
(** a decimal literal that is a dyadic fraction *)
Lemma is_dec m k : IZR (Zpos m) / IZR (10 ^ Zpos k) <= bpow radix2 1023 -> fmt (IZR (Zpos m) / IZR (10 ^ Zpos k)) ->
  is (@L _ B (Zpos m) (Zpos k)) (IZR (Zpos m) / IZR (10 ^ Zpos k)).
Proof. intros H G. destruct (lit_dec_fin lm m k H) as [A D]. split; [exact D|]. rewrite A. now apply rnd_id. Qed.

Lemma is_add x y a b : is x a -> is y b -> fmt (a + b) -> Rabs (a + b) <= bpow radix2 1000 -> is (@fadd _ B x y) (a + b).
Proof.
  intros [Fx <-] [Fy <-] G H. destruct (add_fin lm x y Fx Fy) as [A D].
  - eapply Rle_trans; [exact H|apply bpow_le; lia].
  - split; [exact D|]. rewrite A. now apply rnd_id.
Qed.
Lemma is_sub x y a b : is x a -> is y b -> fmt (a - b) -> Rabs (a - b) <= bpow radix2 1000 -> is (@fsub _ B x y) (a - b).
Proof.
  intros [Fx <-] [Fy <-] G H. destruct (sub_fin lm x y Fx Fy) as [A D].
  - eapply Rle_trans; [exact H|apply bpow_le; lia].
  - split; [exact D|]. rewrite A. now apply rnd_id.
Qed.
Lemma is_mul x y a b : is x a -> is y b -> fmt (a * b) -> Rabs (a * b) <= bpow radix2 1000 -> is (@fmul _ B x y) (a * b).
Proof.
  intros [Fx <-] [Fy <-] G H. destruct (mul_fin lm x y Fx Fy) as [A D].
  - eapply Rle_trans; [exact H|apply bpow_le; lia].
  - split; [exact D|]. rewrite A. now apply rnd_id.
Qed.
Lemma int_small z : (Z.abs z <= 2 ^ 53)%Z -> Rabs (IZR z) <= bpow radix2 1000.
Proof.
  intros H. rewrite <- abs_IZR. apply Rle_trans with (IZR (2 ^ 53)); [now apply IZR_le|].
  change (IZR (2 ^ 53)) with (bpow radix2 53). apply bpow_le. lia.
Qed.
Lemma is_addZ x y a b : is x (IZR a) -> is y (IZR b) -> (Z.abs (a + b) <= 2 ^ 53)%Z -> is (@fadd _ B x y) (IZR (a + b)).
Proof. intros Hx Hy H. rewrite plus_IZR. apply is_add; try assumption; rewrite <- plus_IZR; [now apply fmt_int|now apply int_small]. Qed.
Lemma is_subZ x y a b : is x (IZR a) -> is y (IZR b) -> (Z.abs (a - b) <= 2 ^ 53)%Z -> is (@fsub _ B x y) (IZR (a - b)).
Proof. intros Hx Hy H. rewrite minus_IZR. apply is_sub; try assumption; rewrite <- minus_IZR; [now apply fmt_int|now apply int_small]. Qed.
Lemma is_mulZ x y a b : is x (IZR a) -> is y (IZR b) -> (Z.abs (a * b) <= 2 ^ 53)%Z -> is (@fmul _ B x y) (IZR (a * b)).
Proof. intros Hx Hy H. rewrite mult_IZR. apply is_mul; try assumption; rewrite <- mult_IZR; [now apply fmt_int|now apply int_small]. Qed.
Lemma is_floor x r : is x r -> is (@ffloor _ B x) (IZR (Zfloor r)).
Proof. intros [Fx <-]. destruct (floor_fin lm x) as [A D]. split; [now rewrite D|exact A]. Qed.
(** floor of a rounded quotient of integers *)
Lemma is_floor_div x y a b : is x (IZR a) -> is y (IZR b) -> (0 < b <= 1024)%Z -> (Z.abs a <= 1073741824)%Z ->
  is (@ffloor _ B (@fdiv _ B x y)) (IZR (a / b)).
Proof.
  intros [Fx Ex] [Fy Ey] Hb Ha. assert (Pb : 1 <= IZR b) by (apply IZR_le; lia).
  destruct (div_fin lm x y Fx) as [A D].
  - rewrite Ey. lra.
  - rewrite Ex, Ey. unfold Rdiv. rewrite Rabs_mult, <- abs_IZR, Rabs_inv, (Rabs_right (IZR b)) by lra.
    apply Rle_trans with (IZR (2 ^ 53)).
    + apply Rle_trans with (IZR (Z.abs a)); [|apply IZR_le; lia].
      rewrite <- (Rmult_1_r (IZR (Z.abs a))) at 2. apply Rmult_le_compat_l; [apply IZR_le; lia|].
      rewrite <- Rinv_1. apply Rinv_le; lra.
    + change (IZR (2 ^ 53)) with (bpow radix2 53). apply bpow_le; lia.
  - destruct (floor_fin lm (@fdiv _ B x y)) as [A' D']. split; [congruence|]. rewrite A', A, Ex, Ey. f_equal.
    now apply Zfloor_rnd_div.
Qed.

(** ** Error bounds: [k] is the binade of the result *)
Lemma near_rnd r s e k : (-1074 <= k)%Z -> Rabs (r - s) <= e -> Rabs s + e <= bpow radix2 (k + 53) ->
  Rabs (rnd r - s) <= e + bpow radix2 k / 2.
Proof.
  intros Hk H M. assert (Q : Rabs (rnd r - r) <= bpow radix2 k / 2).
  { apply rnd_err; [exact Hk|]. apply Rle_trans with (2 := M). replace r with (s + (r - s)) by ring.
    eapply Rle_trans; [apply Rabs_triang|]. lra. }
  replace (rnd r - s) with ((rnd r - r) + (r - s)) by ring. eapply Rle_trans; [apply Rabs_triang|]. lra.
Qed.
Lemma big_ok s r e k : (k <= 900)%Z -> Rabs (r - s) <= e -> Rabs s + e <= bpow radix2 (k + 53) -> Rabs r <= bpow radix2 1023.
Proof.
  intros Hk H M. apply Rle_trans with (bpow radix2 (k + 53)); [|apply bpow_le; lia].
  apply Rle_trans with (2 := M). replace r with (s + (r - s)) by ring. eapply Rle_trans; [apply Rabs_triang|]. lra.
Qed.
Lemma near_add k x y a b ea eb : (-1074 <= k <= 900)%Z -> near x a ea -> near y b eb ->
  Rabs (a + b) + (ea + eb) <= bpow radix2 (k + 53) -> near (@fadd _ B x y) (a + b) (ea + eb + bpow radix2 k / 2).
Proof.
  intros Hk [Fx Hx] [Fy Hy] M.
  assert (Q : Rabs (B2R x + B2R y - (a + b)) <= ea + eb).
  { replace (B2R x + B2R y - (a + b)) with ((B2R x - a) + (B2R y - b)) by ring. eapply Rle_trans; [apply Rabs_triang|]. lra. }
  destruct (add_fin lm x y Fx Fy) as [A D]; [eapply big_ok; [|exact Q|exact M]; lia|].
  split; [exact D|]. rewrite A. apply near_rnd; [lia|assumption..].
Qed.
Lemma near_sub k x y a b ea eb : (-1074 <= k <= 900)%Z -> near x a ea -> near y b eb ->
  Rabs (a - b) + (ea + eb) <= bpow radix2 (k + 53) -> near (@fsub _ B x y) (a - b) (ea + eb + bpow radix2 k / 2).
Proof.
  intros Hk [Fx Hx] [Fy Hy] M.
  assert (Q : Rabs (B2R x - B2R y - (a - b)) <= ea + eb).
  { replace (B2R x - B2R y - (a - b)) with ((B2R x - a) + - (B2R y - b)) by ring. eapply Rle_trans; [apply Rabs_triang|].
    rewrite Rabs_Ropp. lra. }
  destruct (sub_fin lm x y Fx Fy) as [A D]; [eapply big_ok; [|exact Q|exact M]; lia|].
  split; [exact D|]. rewrite A. apply near_rnd; [lia|assumption..].
Qed.
(** by an exactly represented factor / divisor *)
Lemma near_mul k x y a b ea : (-1074 <= k <= 900)%Z -> near x a ea -> is y b ->
  Rabs (a * b) + ea * Rabs b <= bpow radix2 (k + 53) -> near (@fmul _ B x y) (a * b) (ea * Rabs b + bpow radix2 k / 2).
Proof.
  intros Hk [Fx Hx] [Fy <-] M.
  assert (Q : Rabs (B2R x * B2R y - a * B2R y) <= ea * Rabs (B2R y)).
  { rewrite <- Rmult_minus_distr_r, Rabs_mult. apply Rmult_le_compat_r; [apply Rabs_pos|exact Hx]. }
  destruct (mul_fin lm x y Fx Fy) as [A D]; [eapply big_ok; [|exact Q|exact M]; lia|].
  split; [exact D|]. rewrite A. apply near_rnd; [lia|assumption..].
Qed.
Lemma near_div k x y a b ea : (-1074 <= k <= 900)%Z -> near x a ea -> is y b -> 0 < b ->
  Rabs (a / b) + ea / b <= bpow radix2 (k + 53) -> near (@fdiv _ B x y) (a / b) (ea / b + bpow radix2 k / 2).
Proof.
  intros Hk [Fx Hx] [Fy <-] Pb M.
  assert (Q : Rabs (B2R x / B2R y - a / B2R y) <= ea / B2R y).
  { unfold Rdiv. rewrite <- Rmult_minus_distr_r, Rabs_mult, (Rabs_right (/ B2R y)) by (left; now apply Rinv_0_lt_compat).
    apply Rmult_le_compat_r; [left; now apply Rinv_0_lt_compat|exact Hx]. }
  destruct (div_fin lm x y Fx) as [A D]; [lra|eapply big_ok; [|exact Q|exact M]; lia|].
  split; [exact D|]. rewrite A. apply near_rnd; [lia|assumption..].
Qed.
End S.
