(** * Running error analysis, continued: real powers, and the tactics *)
From Coq Require Import ZArith QArith Reals Qreals Bool Lra Lia Psatz.
From Flocq Require Import Core IEEE754.BinarySingleNaN.
From Verif.Model Require Import Float Constants.
From Verif.Spec Require Import LibmAccuracy.
From Verif.Inst Require Import RInst RTac B64 B64Facts B64Calc.
From Verif.Proofs Require Import CalcFun.
Local Open Scope R_scope.

Lemma ln_le_sub x : 0 < x -> ln x <= x - 1.
Proof. intros H. pose proof (exp_ineq1_le (ln x)) as E. rewrite exp_ln in E by exact H. lra. Qed.
Lemma ln_lip m x a : 0 < m -> m <= x -> m <= a -> Rabs (ln x - ln a) <= Rabs (x - a) / m.
Proof.
  intros Hm.
  assert (G : forall u v, m <= u -> u <= v -> 0 <= ln v - ln u <= (v - u) / m).
  { intros u v Hu Hv. split.
    - destruct Hv as [Hv|<-]; [|lra]. pose proof (ln_increasing u v ltac:(lra) Hv). lra.
    - replace (ln v - ln u) with (ln (v / u)) by (unfold Rdiv; rewrite ln_mult, ln_Rinv; [ring|lra|lra|apply Rinv_0_lt_compat; lra]). eapply Rle_trans; [apply ln_le_sub; apply Rdiv_lt_0_compat; lra|].
      apply Rle_trans with ((v - u) / u); [right; field; lra|]. unfold Rdiv. apply Rmult_le_compat_l; [lra|]. apply Rinv_le_contravar; lra. }
  intros Hx Ha. destruct (Rle_lt_dec x a).
  - destruct (G x a Hx r) as [G1 G2]. rewrite Rabs_left1 by lra. rewrite Rabs_left1 by lra. lra.
  - destruct (G a x Ha ltac:(lra)) as [G1 G2]. rewrite Rabs_pos_eq by lra. rewrite Rabs_pos_eq by lra. lra.
Qed.
Lemma ln_abs m x : 0 < m -> m <= x -> Rabs (ln x) <= x + / m.
Proof.
  intros Hm Hx. pose proof (ln_le_sub x ltac:(lra)) as U. pose proof (ln_le_sub (/ x) ltac:(apply Rinv_0_lt_compat; lra)) as V. rewrite ln_Rinv in V by lra.
  assert (/ x <= / m) by (apply Rinv_le_contravar; lra). assert (0 < / m) by (apply Rinv_0_lt_compat; lra). apply Rabs_le. lra.
Qed.
Lemma exp_m1 t : Rabs t <= / 2 -> Rabs (exp t - 1) <= 2 * Rabs t.
Proof.
  intros H. apply Rabs_le_inv in H. pose proof (exp_ineq1_le t) as L. pose proof (exp_ineq1_le (- t)) as N. rewrite exp_Ropp in N. pose proof (exp_pos t) as P.
  assert (U : exp t * (1 - t) <= 1) by (apply (Rmult_le_compat_l (exp t)) in N; [|lra]; rewrite Rinv_r in N by lra; lra).
  destruct (Rle_lt_dec 0 t).
  - rewrite (Rabs_pos_eq t) by lra. rewrite Rabs_pos_eq by lra. nra.
  - rewrite (Rabs_left t) by lra. assert (exp t < 1) by nra. rewrite Rabs_left by lra. lra.
Qed.

(** n/d-th powers of rationals, by bisection, checked *)
Fixpoint bis (k : nat) (c : Z) (test : Z -> bool) : Z :=
  match k with
  | O => c
  | S k' => let c' := (c + 2 ^ Z.of_nat k')%Z in bis k' (if test c' then c' else c) test
  end.
Definition root_dn (q : Q) (n d : nat) : Q :=
  let t := qpow q n in
  let c := bis 36 0 (fun z => Qle_bool (qpow (z # (2 ^ 30)) d) t) # (2 ^ 30) in
  if Qle_bool (qpow c d) t && Qle_bool 0 c then c else 0%Q.
Definition root_up (q : Q) (n d : nat) : option Q :=
  let t := qpow q n in
  let c := (bis 36 0 (fun z => Qle_bool (qpow (z # (2 ^ 30)) d) t) + 1) # (2 ^ 30) in
  if Qle_bool t (qpow c d) && Qle_bool 0 c then Some c else None.
Lemma Rpower_root x n d : 0 < x -> (0 < d)%nat -> Rpower x (INR n / INR d) ^ d = x ^ n.
Proof.
  intros H D. rewrite <- Rpower_pow by (unfold Rpower; apply exp_pos). rewrite Rpower_mult. replace (INR n / INR d * INR d) with (INR n).
  - now apply Rpower_pow.
  - field. apply not_0_INR. lia.
Qed.
Lemma pow_le_rev x y d : 0 <= x -> 0 <= y -> (0 < d)%nat -> x ^ d <= y ^ d -> x <= y.
Proof.
  intros Hx Hy D H. destruct (Rle_lt_dec x y); [assumption|]. exfalso.
  assert (L : forall j, y ^ (S j) < x ^ (S j)).
  { intros j. induction j; [cbn; lra|]. change (y ^ S (S j)) with (y * y ^ S j). change (x ^ S (S j)) with (x * x ^ S j).
    pose proof (pow_le y (S j) Hy). nra. }
  destruct d as [|d]; [lia|]. specialize (L d). lra.
Qed.
Lemma root_dn_R q n d x : 0 < Q2R q <= x -> (0 < d)%nat -> 0 <= Q2R (root_dn q n d) <= Rpower x (INR n / INR d).
Proof.
  intros H D. assert (P : 0 < Rpower x (INR n / INR d)) by (unfold Rpower; apply exp_pos). unfold root_dn. cbv zeta.
  match goal with |- context [if ?b && ?c then ?e else _] => destruct b eqn:E1; destruct c eqn:E2; set (v := e) in * end; cbn [andb]; rewrite ?Q2R_0; try lra.
  apply qle_true in E1, E2. rewrite !qpow_R in E1. rewrite Q2R_0 in E2. split; [exact E2|]. apply pow_le_rev with d; [exact E2|lra|exact D|].
  rewrite Rpower_root by (lra || exact D). eapply Rle_trans; [exact E1|]. apply pow_incr. lra.
Qed.
Lemma root_up_R q n d x u : 0 < x <= Q2R q -> (0 < d)%nat -> root_up q n d = Some u -> Rpower x (INR n / INR d) <= Q2R u.
Proof.
  intros H D. assert (P : 0 < Rpower x (INR n / INR d)) by (unfold Rpower; apply exp_pos). unfold root_up. cbv zeta.
  generalize ((bis 36 0 (fun z => Qle_bool (qpow (z # (2 ^ 30)) d) (qpow q n)) + 1)%Z # (2 ^ 30)). intros c.
  destruct (Qle_bool (qpow q n) (qpow c d)) eqn:E1; [|intros K; discriminate K]. destruct (Qle_bool 0 c) eqn:E2; [|intros K; discriminate K].
  cbn [andb]. intros K. injection K as <-.
  apply qle_true in E1, E2. rewrite !qpow_R in E1. rewrite Q2R_0 in E2. apply pow_le_rev with d; [lra|exact E2|exact D|].
  rewrite Rpower_root by (lra || exact D). eapply Rle_trans; [|exact E1]. apply pow_incr. lra.
Qed.
Definition powfb (X Y : bd) (n d : nat) : option bd :=
  let m := (lo X - er X)%Q in
  if Qle_bool m 0 then None else
  match root_up (hi X) n d with
  | None => None
  | Some h =>
      let dl := upq (er X / m * (Z.of_nat n # 1) + er Y * (hi X + er X + / m)) in
      if Qle_bool dl (1 # 2) then lib_b (root_dn (lo X) n d) h (upq (h * (2 * dl))) else None
  end.
Lemma rel_pow lm (ACC : accurate lm) x y a p X Y (n d : nat) C : rel x a X -> rel y p Y -> p = INR n / INR d -> (0 < d)%nat ->
  powfb X Y n d = Some C -> rel (@fpow _ (B64Ops lm) x y) (@fpow _ ROps a p) C.
Proof.
  intros H1 H2 HP D HC. pose proof (er_pos _ _ _ H1) as P1. pose proof (er_pos _ _ _ H2) as P2. destruct H1 as (F1 & I1 & E1). destruct H2 as (F2 & I2 & E2).
  unfold powfb in HC. cbv zeta in HC. set (m := (lo X - er X)%Q) in *. destruct (Qle_bool m 0) eqn:EM; [discriminate|]. apply qle_false in EM. rewrite Q2R_0 in EM.
  destruct (root_up (hi X) n d) as [h|] eqn:EH; [|discriminate]. set (dl := upq _) in *. destruct (Qle_bool dl (1 # 2)) eqn:ED; [|discriminate]. apply qle_true in ED.
  replace (Q2R (1 # 2)) with (/ 2) in ED by (unfold Q2R; cbn; lra).
  assert (MR : Q2R m = Q2R (lo X) - Q2R (er X)) by (unfold m; apply Q2R_minus). pose proof (Rabs_le_inv _ _ E1) as E1'.
  assert (XP : Q2R m <= B2R x) by lra. assert (AP : Q2R m <= a) by lra.
  assert (IN : 0 <= INR n) by apply pos_INR. assert (ID : 1 <= INR d) by (apply (le_INR 1); lia).
  assert (PP : 0 <= p <= INR n).
  { rewrite HP. split; [apply Rmult_le_pos; [exact IN|left; apply Rinv_0_lt_compat; lra]|]. apply (Rmult_le_reg_r (INR d)); [lra|]. unfold Rdiv. rewrite Rmult_assoc, Rinv_l by lra. nra. }
  assert (EA : @fpow _ ROps a p = Rpower a p) by (cbn [fpow ROps]; unfold Rpow; now rewrite Rlt_bool_true by lra). rewrite EA.
  set (t := B2R y * ln (B2R x) - p * ln a).
  assert (TB : Rabs t <= Q2R dl).
  { unfold t. replace (B2R y * ln (B2R x) - p * ln a) with (p * (ln (B2R x) - ln a) + (B2R y - p) * ln (B2R x)) by ring.
    eapply Rle_trans; [apply Rabs_triang|]. rewrite !Rabs_mult. unfold dl. eapply Rle_trans; [|apply upq_ge].
    rewrite Q2R_plus, !Q2R_mult, !Q2R_plus. unfold Qdiv. rewrite Q2R_mult. rewrite !Q2R_inv by (intros Q; apply Qeq_eqR in Q; rewrite Q2R_0 in Q; lra).
    replace (Q2R (Z.of_nat n # 1)) with (INR n) by (rewrite INR_IZR_INZ; unfold Q2R; cbn; lra). rewrite (Rabs_pos_eq p) by lra.
    pose proof (ln_lip _ _ _ EM XP AP) as L1. pose proof (ln_abs _ _ EM XP) as L2. apply Rplus_le_compat.
    - rewrite Rmult_comm. apply Rmult_le_compat; [apply Rabs_pos|lra| |lra]. eapply Rle_trans; [exact L1|]. apply Rmult_le_compat_r; [left; now apply Rinv_0_lt_compat|exact E1].
    - apply Rmult_le_compat; try apply Rabs_pos; [exact E2|]. lra. }
  assert (VE : Rpower (B2R x) (B2R y) = Rpower a p * exp t).
  { unfold Rpower. rewrite <- exp_plus. f_equal. unfold t. ring. }
  pose proof (exp_m1 t ltac:(lra)) as EX. assert (PW : 0 < Rpower a p) by (unfold Rpower; apply exp_pos).
  assert (UP : Rpower a p <= Q2R h) by (rewrite HP; apply (root_up_R (hi X)); [lra|exact D|exact EH]).
  apply (lib_finish _ (Rpower (B2R x) (B2R y)) _ _ _ _ _) with (4 := HC).
  - split; [rewrite HP; apply (root_dn_R (lo X)); [lra|exact D]|exact UP].
  - eapply Rle_trans; [|apply upq_ge]. rewrite !Q2R_mult. replace (Q2R 2) with 2 by (unfold Q2R; cbn; lra). rewrite VE.
    replace (Rpower a p * exp t - Rpower a p) with (Rpower a p * (exp t - 1)) by ring. rewrite Rabs_mult, (Rabs_pos_eq (Rpower a p)) by lra.
    apply Rmult_le_compat; [lra|apply Rabs_pos|exact UP|lra].
  - intros HB. pose proof (acc_pow lm ACC x y F1 F2) as A. unfold Rpow in A. rewrite Rlt_bool_true in A by lra. destruct A as [A1 A2]; [left; lra|exact HB|].
    split; [exact A1|]. eapply Rle_trans; [exact A2|]. apply Rplus_le_compat_r. unfold Rdiv. apply Rmult_le_compat_l; [apply Rabs_pos|]. apply Rinv_le_contravar; [apply pow_lt; lra|apply Rle_pow; [lra|lia]].
Qed.

(** ** Tactics *)
Lemma let_step {S T : Type} (P : S -> T -> Prop) (e : b64) (e' : R) (f : b64 -> S) (g : R -> T) (A : bd) :
  rel e e' A -> (forall x y, rel x y A -> P (f x) (g y)) -> P (let x := e in f x) (let y := e' in g y).
Proof. intros H K. exact (K _ _ H). Qed.

Ltac ccomp :=
  lazymatch goal with
  | |- ?x = Some ?C =>
      let v := eval vm_compute in x in
      lazymatch v with
      | Some ?c => unify C c; vm_cast_no_check (@eq_refl _ (Some c))
      | None => fail 100 "bound not derivable:" x
      end
  end.
Ltac crel :=
  lazymatch goal with
  | |- rel (fadd _ _) _ _ => eapply rel_add; [crel|crel|ccomp]
  | |- rel (fsub _ _) _ _ => eapply rel_sub; [crel|crel|ccomp]
  | |- rel (fmul _ _) _ _ => eapply rel_mul; [crel|crel|ccomp]
  | |- rel (fdiv _ _) _ _ => eapply rel_div; [crel|crel|ccomp]
  | |- rel (fneg _) _ _ => eapply rel_neg; [crel|ccomp]
  | |- rel (fabs _) _ _ => eapply rel_abs; [crel|ccomp]
  | |- rel (fsqrt _) _ _ => eapply rel_sqrt; [crel|ccomp]
  | |- rel (fsin _) _ _ => eapply rel_sin; [eassumption|crel|ccomp]
  | |- rel (fcos _) _ _ => eapply rel_cos; [eassumption|crel|ccomp]
  | |- rel (fpowi _ _) _ _ => eapply rel_powi; [eassumption|crel|ccomp]
  | |- rel (fpow _ kX2O3) _ _ => eapply (fun H => rel_pow _ H _ _ _ _ _ _ 2 3); [eassumption|crel|crel|unfold kX2O3; rops; cbn; lra|lia|ccomp]
  | |- rel (fpow _ (L 15 1)) _ _ => eapply (fun H => rel_pow _ H _ _ _ _ _ _ 3 2); [eassumption|crel|crel|rops; cbn; lra|lia|ccomp]
  | |- rel (fpow _ (L 35 1)) _ _ => eapply (fun H => rel_pow _ H _ _ _ _ _ _ 7 2); [eassumption|crel|crel|rops; cbn; lra|lia|ccomp]
  | |- rel (fpow _ (L 2 0)) _ _ => eapply rel_pow2; [eassumption|crel|ccomp]
  | |- rel (L _ _) _ _ => eapply rel_lit; ccomp
  | |- rel kPI _ _ => apply rel_pi
  | |- rel kTWO_PI _ _ => apply rel_two_pi
  | |- rel ?x _ _ => tryif is_var x then eassumption else (let h := head x in unfold h; crel)
  end
with head x := lazymatch x with ?f _ => head f | _ => x end.
Ltac cstep_with P e e' f g :=
  lazymatch type of e with
  | b64 => tryif is_var e then (change (P (f e) (g e')); cbv beta)
           else (eapply (let_step P e e' f g); [crel|];
                 let a := fresh "x" in let b := fresh "r" in let H := fresh "H" in intros a b H; cbv beta)
  | _ => change (P (f e) (g e')); cbv beta
  end.
Ltac cstep :=
  lazymatch goal with
  | |- rel (let x := ?e in @?f x) (let y := ?e' in @?g y) ?C => cstep_with (fun u v => rel u v C) e e' f g
  | |- ?P (let x := ?e in @?f x) (let y := ?e' in @?g y) => cstep_with P e e' f g
  end.
(** replace both sides of a known relation by variables *)
Ltac genrel H :=
  match type of H with
  | rel ?x ?a _ =>
      (tryif is_var x then idtac else (let n := fresh "x" in set (n := x) in *; clearbody n));
      (tryif is_var a then idtac else (let n := fresh "r" in set (n := a) in *; clearbody n))
  end.
(** a bound computed by [crel], widened to the one asked for *)
Ltac cwide := eapply rel_weaken; [crel|vm_compute; reflexivity..].
