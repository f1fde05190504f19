(** * Running error analysis with relative errors, continued: library functions and tactics *)
From Coq Require Import ZArith QArith Reals Qreals Bool Lra Lia Psatz.
From Flocq Require Import Core IEEE754.BinarySingleNaN.
From Verif.Model Require Import Float Constants.
From Verif.Spec Require Import LibmAccuracy.
From Verif.Inst Require Import RInst RTac B64 B64Facts B64Calc ApxCalc.
From Verif.Proofs Require Import CalcFun CalcPow.
Local Open Scope R_scope.

(** a library call: relative error 2^-50 *)
Definition lib_e (l h g : Q) : option eb :=
  if Qle_bool (qmax (qabs l) (qabs h) * (1 + g)) bigq && Qle_bool 0 g then Some (norm (Eb (dn0 l) (up0 h) (upq (g + (1 + g) * u50)) tq)) else None.
Lemma lib_efinish (z : b64) (v a : R) l h g C : Q2R l <= a <= Q2R h -> Rabs (v - a) <= Q2R g * Rabs a ->
  (Rabs v <= 2 ^ 1000 -> fin z = true /\ Rabs (B2R z - v) <= Rabs v / 2 ^ 50 + / 2 ^ 200) -> lib_e l h g = Some C -> apx z a C.
Proof.
  intros Ha He Hz HC. unfold lib_e in HC. destruct (Qle_bool _ bigq) eqn:EM; [|discriminate]. destruct (Qle_bool 0 g) eqn:Eg; [|discriminate]. cbn [andb] in HC. injection HC as <-.
  apply qle_true in EM, Eg. rewrite Q2R_0 in Eg. rewrite big_R in EM. rewrite Q2R_mult, Q2R_plus, Q1 in EM. pose proof (mag_ge (Bd l h 0) a Ha) as MA. unfold mag in MA. cbn [lo hi] in MA.
  assert (Va : Rabs v <= Rabs a * (1 + Q2R g)).
  { replace v with (a + (v - a)) by ring. eapply Rle_trans; [apply Rabs_triang|]. lra. }
  assert (VM : Rabs a * (1 + Q2R g) <= Q2R (qmax (qabs l) (qabs h)) * (1 + Q2R g)) by (apply Rmult_le_compat_r; lra).
  destruct Hz as [Z1 Z2]; [lra|]. apply apx_norm. split; [exact Z1|]. cbn [el eh rr ab]. pose proof (dn0_le l). pose proof (up0_ge h). split; [lra|].
  pose proof (upq_ge (g + (1 + g) * u50)) as U. rewrite Q2R_plus, Q2R_mult, Q2R_plus, Q1, u50_R in U. pose proof t200 as T. pose proof tq_pos.
  assert (I50 : 0 < / 2 ^ 50) by (apply Rinv_0_lt_compat, pow_lt; lra). set (i := / 2 ^ 50) in *. assert (0 <= Q2R g * i) by (apply Rmult_le_pos; lra).
  split; [split; lra|]. pose proof (Rabs_pos a) as PA.
  replace (B2R z - a) with ((B2R z - v) + (v - a)) by ring. eapply Rle_trans; [apply Rabs_triang|].
  assert (Rabs v / 2 ^ 50 <= Rabs a * (1 + Q2R g) * i) by (unfold Rdiv; fold i; apply Rmult_le_compat_r; lra).
  assert ((Q2R g + (1 + Q2R g) * i) * Rabs a <= Q2R (upq (g + (1 + g) * u50)) * Rabs a) by (apply Rmult_le_compat_r; assumption). lra.
Qed.
Lemma pow_rel a x q n : 0 <= q -> Rabs (x - a) <= q * Rabs a -> Rabs (x ^ n - a ^ n) <= ((1 + q) ^ n - 1) * Rabs (a ^ n).
Proof.
  intros Hq H. induction n as [|n IH]; [cbn; rewrite Rminus_eq_0, Rabs_R0; lra|].
  change (x ^ S n) with (x * x ^ n). change (a ^ S n) with (a * a ^ n). change ((1 + q) ^ S n) with ((1 + q) * (1 + q) ^ n). rewrite Rabs_mult.
  replace (x * x ^ n - a * a ^ n) with (x * (x ^ n - a ^ n) + (x - a) * a ^ n) by ring. eapply Rle_trans; [apply Rabs_triang|]. rewrite !Rabs_mult.
  assert (X : Rabs x <= (1 + q) * Rabs a) by (replace x with (a + (x - a)) by ring; eapply Rle_trans; [apply Rabs_triang|]; lra).
  pose proof (Rabs_pos (a ^ n)) as P. pose proof (Rabs_pos a). pose proof (pow_R1_Rle (1 + q) n ltac:(lra)).
  apply Rle_trans with ((1 + q) * Rabs a * (((1 + q) ^ n - 1) * Rabs (a ^ n)) + q * Rabs a * Rabs (a ^ n)).
  - apply Rplus_le_compat; [apply Rmult_le_compat; try apply Rabs_pos; assumption|]. apply Rmult_le_compat_r; assumption.
  - right. ring.
Qed.
Definition erel (X : eb) : Q := (rr X + ab X / el X)%Q.
Lemma erel_R x a X : apx x a X -> 0 < Q2R (el X) -> 0 <= Q2R (erel X) /\ Rabs (B2R x - a) <= Q2R (erel X) * Rabs a.
Proof.
  intros (F & I & (P1 & P2) & E) L. unfold erel. rewrite Q2R_plus, Q2R_div by exact L. assert (0 <= Q2R (ab X) / Q2R (el X)) by (apply Rle_mult_inv_pos; assumption). split; [lra|].
  eapply Rle_trans; [exact E|]. rewrite Rmult_plus_distr_r. apply Rplus_le_compat_l. rewrite Rabs_pos_eq by lra. apply Rle_trans with (Q2R (ab X) / Q2R (el X) * Q2R (el X)); [right; field; lra|].
  apply Rmult_le_compat_l; lra.
Qed.
Section F.
Context (lm : libm) (ACC : accurate lm).
Notation B := (B64Ops lm).
Definition powiE (X : eb) (z : Z) : option eb :=
  let n := Z.to_nat z in
  if Z.leb 1 z && Z.leb z 8 && negb (Qle_bool (el X) 0) then lib_e (qpow (el X) n) (qpow (eh X) n) (up0 (qpow (1 + erel X) n - 1)) else None.
Lemma apx_powi x a X z C : apx x a X -> powiE X z = Some C -> apx (@fpowi _ B x z) (@fpowi _ ROps a z) C.
Proof.
  intros H HC. unfold powiE in HC. cbv zeta in HC. destruct (Z.leb_spec 1 z); [|discriminate]. destruct (Z.leb_spec z 8); [|discriminate]. destruct (Qle_bool (el X) 0) eqn:EL; [discriminate|]. cbn [andb negb] in HC.
  apply qle_false in EL. rewrite Q2R_0 in EL. pose proof (erel_R _ _ _ H EL) as (Q0 & D). destruct H as (F & I & (P1 & P2) & E).
  assert (ZE : z = Z.of_nat (Z.to_nat z)) by lia. cbn [fpowi ROps B64Ops]. rewrite ZE. set (n := Z.to_nat z) in *. rewrite <- pow_powerRZ.
  apply (lib_efinish _ (B2R x ^ n) _ _ _ _ _) with (4 := HC).
  - rewrite !qpow_R. split; apply pow_incr; lra.
  - eapply Rle_trans; [apply (pow_rel a (B2R x) (Q2R (erel X)) n Q0 D)|]. apply Rmult_le_compat_r; [apply Rabs_pos|]. eapply Rle_trans; [|apply up0_ge]. rewrite Q2R_minus, qpow_R, Q2R_plus, Q1. lra.
  - intros HB. apply (acc_powi lm ACC); [exact F|lia|exact HB].
Qed.
Lemma exp_m1_tight t d : Rabs t <= d -> d < 1 -> Rabs (exp t - 1) <= d / (1 - d).
Proof.
  intros H D. apply Rabs_le_inv in H. pose proof (exp_ineq1_le t) as Lo. pose proof (exp_ineq1_le (- t)) as N. rewrite exp_Ropp in N. pose proof (exp_pos t) as P.
  assert (U : exp t * (1 - t) <= 1) by (apply (Rmult_le_compat_l (exp t)) in N; [|lra]; rewrite Rinv_r in N by lra; lra).
  assert (DD : d <= d / (1 - d)).
  { apply (Rmult_le_reg_r (1 - d)); [lra|]. unfold Rdiv. rewrite Rmult_assoc, Rinv_l by lra. nra. }
  apply Rabs_le. split; [lra|]. apply (Rmult_le_reg_r (1 - d)); [lra|]. unfold Rdiv. rewrite Rmult_assoc, Rinv_l by lra.
  assert (exp t * (1 - d) <= exp t * (1 - t)) by (apply Rmult_le_compat_l; lra). lra.
Qed.
Definition powE (X Y : eb) (n d : nat) : option eb :=
  if Qle_bool (el X) 0 then None else
  let q := erel X in
  let k := (1 - q)%Q in
  if Qle_bool k 0 then None else
  match root_up (eh X) n d with
  | None => None
  | Some h =>
      let dl := up0 (q / k * (Z.of_nat n # Pos.of_nat d) + eer Y * ((1 + q) * eh X + / (k * el X))) in
      if Qle_bool dl (1 # 2) then lib_e (root_dn (el X) n d) h (up0 (dl / (1 - dl))) else None
  end.
Lemma apx_pow x y a p X Y (n d : nat) C : apx x a X -> apx y p Y -> p = INR n / INR d -> (0 < d)%nat ->
  powE X Y n d = Some C -> apx (@fpow _ B x y) (@fpow _ ROps a p) C.
Proof.
  intros H1 H2 HP D HC. pose proof (apx_rel _ _ _ H2) as (F2 & I2 & E2). cbn [lo hi er] in I2, E2.
  unfold powE in HC. cbv zeta in HC. destruct (Qle_bool (el X) 0) eqn:EL; [discriminate|]. apply qle_false in EL. rewrite Q2R_0 in EL.
  pose proof (erel_R _ _ _ H1 EL) as (Q0 & DX). destruct H1 as (F1 & I1 & _). set (q := erel X) in *.
  destruct (Qle_bool (1 - q) 0) eqn:EK; [discriminate|]. apply qle_false in EK. rewrite Q2R_0 in EK.
  destruct (root_up (eh X) n d) as [h|] eqn:EH; [|discriminate]. set (dl := up0 _) in *. destruct (Qle_bool dl (1 # 2)) eqn:ED; [|discriminate]. apply qle_true in ED.
  replace (Q2R (1 # 2)) with (/ 2) in ED by (unfold Q2R; cbn; lra).
  assert (KR : Q2R (1 - q) = 1 - Q2R q) by (rewrite Q2R_minus, Q1; reflexivity).
  assert (AP : 0 < a) by lra. rewrite (Rabs_pos_eq a) in DX by lra. pose proof (Rabs_le_inv _ _ DX) as DX'.
  assert (KA : 0 < (1 - Q2R q) * a) by (apply Rmult_lt_0_compat; lra).
  assert (XP : (1 - Q2R q) * a <= B2R x) by lra. assert (AK : (1 - Q2R q) * a <= a) by nra.
  assert (KL : 0 < (1 - Q2R q) * Q2R (el X)) by (apply Rmult_lt_0_compat; lra).
  assert (XL : (1 - Q2R q) * Q2R (el X) <= B2R x) by (eapply Rle_trans; [|exact XP]; apply Rmult_le_compat_l; lra).
  assert (IN : 0 <= INR n) by apply pos_INR. assert (ID : 1 <= INR d) by (apply (le_INR 1); lia).
  assert (PP : 0 <= p) by (rewrite HP; apply Rmult_le_pos; [exact IN|left; apply Rinv_0_lt_compat; lra]).
  assert (QP : Q2R (Z.of_nat n # Pos.of_nat d) = p).
  { rewrite HP. unfold Q2R. cbn [Qnum Qden]. rewrite <- INR_IZR_INZ. unfold Rdiv. do 2 f_equal. rewrite <- (Nat2Pos.id d) at 2 by lia. rewrite INR_IZR_INZ, positive_nat_Z. reflexivity. }
  assert (EA : @fpow _ ROps a p = Rpower a p) by (cbn [fpow ROps]; unfold Rpow; now rewrite Rlt_bool_true by lra). rewrite EA.
  set (t := B2R y * ln (B2R x) - p * ln a).
  assert (TB : Rabs t <= Q2R dl).
  { unfold t. replace (B2R y * ln (B2R x) - p * ln a) with (p * (ln (B2R x) - ln a) + (B2R y - p) * ln (B2R x)) by ring.
    eapply Rle_trans; [apply Rabs_triang|]. rewrite !Rabs_mult. unfold dl. eapply Rle_trans; [|apply up0_ge].
    rewrite Q2R_plus, !Q2R_mult, QP, Q2R_div, KR by (rewrite KR; lra). rewrite Q2R_plus, Q2R_mult, Q2R_plus, Q1. rewrite Q2R_inv by (intros Q; apply Qeq_eqR in Q; rewrite Q2R_0, Q2R_mult, KR in Q; lra). rewrite Q2R_mult, KR.
    rewrite (Rabs_pos_eq p) by lra.
    pose proof (ln_lip _ _ _ KA XP AK) as L1. pose proof (ln_abs _ _ KL XL) as L2. apply Rplus_le_compat.
    - rewrite Rmult_comm. apply Rmult_le_compat_r; [exact PP|]. eapply Rle_trans; [exact L1|]. apply Rle_trans with (Q2R q * a / ((1 - Q2R q) * a)); [|right; field; lra].
      apply Rmult_le_compat_r; [left; now apply Rinv_0_lt_compat|exact DX].
    - apply Rmult_le_compat; try apply Rabs_pos; [exact E2|]. eapply Rle_trans; [exact L2|]. apply Rplus_le_compat_r. assert ((1 + Q2R q) * a <= (1 + Q2R q) * Q2R (eh X)) by (apply Rmult_le_compat_l; lra). lra. }
  assert (VE : Rpower (B2R x) (B2R y) = Rpower a p * exp t).
  { unfold Rpower. rewrite <- exp_plus. f_equal. unfold t. ring. }
  pose proof (exp_m1_tight t _ TB ltac:(lra)) as EX. assert (PW : 0 < Rpower a p) by (unfold Rpower; apply exp_pos).
  apply (lib_efinish _ (Rpower (B2R x) (B2R y)) _ _ _ _ _) with (4 := HC).
  - split; rewrite HP; [apply (root_dn_R (el X)); [lra|exact D]|apply (root_up_R (eh X)); [lra|exact D|exact EH]].
  - rewrite VE. replace (Rpower a p * exp t - Rpower a p) with ((exp t - 1) * Rpower a p) by ring. rewrite Rabs_mult. apply Rmult_le_compat_r; [apply Rabs_pos|].
    eapply Rle_trans; [exact EX|]. eapply Rle_trans; [|apply up0_ge]. rewrite Q2R_div, Q2R_minus, Q1 by (rewrite Q2R_minus, Q1; lra). lra.
  - intros HB. pose proof (acc_pow lm ACC x y F1 F2) as A. unfold Rpow in A. rewrite Rlt_bool_true in A by lra. destruct A as [A1 A2]; [left; lra|exact HB|].
    split; [exact A1|]. eapply Rle_trans; [exact A2|]. apply Rplus_le_compat_r. unfold Rdiv. apply Rmult_le_compat_l; [apply Rabs_pos|]. apply Rinv_le_contravar; [apply pow_lt; lra|apply Rle_pow; [lra|lia]].
Qed.
Definition trigE (X : eb) : option eb := Some (Eb (-1) 1 0 (upq (eer X + u52))).
Lemma apx_trig z a X C : rel z a (Bd (-1) 1 (upq (eer X + u52))) -> trigE X = Some C -> apx z a C.
Proof. intros H HC. injection HC as <-. pose proof (er_pos _ _ _ H). destruct H as (F & I & E). split; [exact F|]. split; [exact I|]. cbn [rr ab]. rewrite Q2R_0. split; [split; [lra|assumption]|]. cbn [er] in E. lra. Qed.
Lemma apx_sin x a X C : apx x a X -> trigE X = Some C -> apx (@fsin _ B x) (@fsin _ ROps a) C.
Proof. intros H HC. apply (apx_trig _ _ X); [|exact HC]. apply (rel_sin lm ACC x a _ _ (apx_rel _ _ _ H)). reflexivity. Qed.
Lemma apx_cos x a X C : apx x a X -> trigE X = Some C -> apx (@fcos _ B x) (@fcos _ ROps a) C.
Proof. intros H HC. apply (apx_trig _ _ X); [|exact HC]. apply (rel_cos lm ACC x a _ _ (apx_rel _ _ _ H)). reflexivity. Qed.
End F.

Lemma apx_pow_nd (n d : nat) lm x y a p X Y C : accurate lm -> apx x a X -> apx y p Y -> p = INR n / INR d -> (0 < d)%nat ->
  powE X Y n d = Some C -> apx (@fpow _ (B64Ops lm) x y) (@fpow _ ROps a p) C.
Proof. intros. now apply apx_pow with (X := X) (Y := Y) (n := n) (d := d). Qed.

(** ** Comparisons *)
Definition to_bd (A : eb) : bd := Bd (el A) (eh A) (eer A).
Lemma apx_lt_true lm x y a b X Y : apx x a X -> apx y b Y -> lt_yes (to_bd X) (to_bd Y) = true -> @flt _ (B64Ops lm) x y = true /\ @flt _ ROps a b = true.
Proof. intros H1 H2. apply rel_lt_true; now apply apx_rel. Qed.
Lemma apx_lt_false lm x y a b X Y : apx x a X -> apx y b Y -> lt_yes (to_bd Y) (to_bd X) = true -> @flt _ (B64Ops lm) x y = false /\ @flt _ ROps a b = false.
Proof. intros H1 H2. apply rel_lt_false; now apply apx_rel. Qed.
Lemma apx_le_true lm x y a b X Y : apx x a X -> apx y b Y -> lt_yes (to_bd X) (to_bd Y) = true -> @fle _ (B64Ops lm) x y = true /\ @fle _ ROps a b = true.
Proof. intros H1 H2. apply rel_le_true; now apply apx_rel. Qed.
Lemma apx_le_false lm x y a b X Y : apx x a X -> apx y b Y -> lt_yes (to_bd Y) (to_bd X) = true -> @fle _ (B64Ops lm) x y = false /\ @fle _ ROps a b = false.
Proof. intros H1 H2. apply rel_le_false; now apply apx_rel. Qed.
Lemma if_true {S T : Type} (P : S -> T -> Prop) (c c' : bool) e1 e2 e1' e2' : c = true /\ c' = true -> P e1 e1' -> P (if c then e1 else e2) (if c' then e1' else e2').
Proof. intros [-> ->]. trivial. Qed.
Lemma if_false {S T : Type} (P : S -> T -> Prop) (c c' : bool) e1 e2 e1' e2' : c = false /\ c' = false -> P e2 e2' -> P (if c then e1 else e2) (if c' then e1' else e2').
Proof. intros [-> ->]. trivial. Qed.

(** ** Tactics; the exact value's definition is kept as an equation *)
Lemma let_apx {S T : Type} (P : S -> T -> Prop) (e : b64) (e' : R) (f : b64 -> S) (g : R -> T) (A : eb) :
  apx e e' A -> (forall x y, apx x y A -> y = e' -> P (f x) (g y)) -> P (let x := e in f x) (let y := e' in g y).
Proof. intros H K. exact (K _ _ H eq_refl). Qed.
Ltac arel :=
  lazymatch goal with
  | |- apx ?x ?a _ =>
      lazymatch goal with
      | H : apx x a _ |- _ => exact H
      | |- _ => arel_s
      end
  end
with arel_s :=
  lazymatch goal with
  | |- apx (fadd _ _) _ _ => eapply apx_add; [arel|arel|ccomp]
  | |- apx (fsub _ _) _ _ => eapply apx_sub; [arel|arel|ccomp]
  | |- apx (fmul _ _) _ _ => eapply apx_mul; [arel|arel|ccomp]
  | |- apx (fdiv _ _) _ _ => eapply apx_div; [arel|arel|ccomp]
  | |- apx (fneg _) _ _ => eapply apx_neg; [arel|ccomp]
  | |- apx (fabs _) _ _ => eapply apx_abs; [arel|ccomp]
  | |- apx (fsqrt _) _ _ => eapply apx_sqrt; [arel|ccomp]
  | |- apx (fsin _) _ _ => eapply apx_sin; [eassumption|arel|ccomp]
  | |- apx (fcos _) _ _ => eapply apx_cos; [eassumption|arel|ccomp]
  | |- apx (fpowi _ _) _ _ => eapply apx_powi; [eassumption|arel|ccomp]
  | |- apx (fpow _ kX2O3) _ _ => eapply (apx_pow_nd 2 3); [eassumption|arel|arel|unfold kX2O3; rops; cbn; lra|lia|ccomp]
  | |- apx (fpow _ (L 15 1)) _ _ => eapply (apx_pow_nd 3 2); [eassumption|arel|arel|rops; cbn; lra|lia|ccomp]
  | |- apx (fpow _ (L 35 1)) _ _ => eapply (apx_pow_nd 7 2); [eassumption|arel|arel|rops; cbn; lra|lia|ccomp]
  | |- apx (L _ _) _ _ => eapply apx_lit; ccomp
  | |- apx (if flt ?x ?y then ?e1 else ?e2) (if flt ?a ?b then ?e1' else ?e2') ?C =>
      first [ apply (if_true (fun u v => apx u v C)); [eapply apx_lt_true; [arel|arel|vm_compute; reflexivity]|]
            | apply (if_false (fun u v => apx u v C)); [eapply apx_lt_false; [arel|arel|vm_compute; reflexivity]|] ]; arel
  | |- apx ?x _ _ => tryif is_var x then fail 100 "no relation for" x else (let h := head x in unfold h; arel)
  end.
Ltac astep_with P e e' f g :=
  lazymatch type of e with
  | b64 => first [ lazymatch goal with H : apx e e' _ |- _ => change (P (f e) (g e')); cbv beta end
         | is_var e; change (P (f e) (g e')); cbv beta
         | eapply (let_apx P e e' f g); [arel|];
                 let a := fresh "x" in let b := fresh "r" in let H := fresh "H" in let E := fresh "E" in intros a b H E; cbv beta ]
  | _ => change (P (f e) (g e')); cbv beta
  end.
Ltac astep :=
  lazymatch goal with
  | |- apx (let x := ?e in @?f x) (let y := ?e' in @?g y) ?C => astep_with (fun u v => apx u v C) e e' f g
  | |- ?P (let x := ?e in @?f x) (let y := ?e' in @?g y) => astep_with P e e' f g
  end.
(** a [let] whose value is not followed *)
Ltac askip :=
  lazymatch goal with
  | |- ?P (let x := ?e in @?f x) (let y := ?e' in @?g y) => change (P (f e) (g e')); cbv beta
  end.
Ltac awide := eapply apx_weaken; [arel|vm_compute; reflexivity..].

(** the same with a name: [lets x] introduces [x], [x'], [Hx : apx x x' _] and [Ex : x' = _] *)
Ltac lets_with P e e' f g n :=
  eapply (let_apx P e e' f g); [arel|];
  let a := fresh n in let b := fresh n "'" in let H := fresh "H" n in let E := fresh "E" n in intros a b H E; cbv beta.
Tactic Notation "lets" ident(n) :=
  lazymatch goal with
  | |- ?P (let x := ?e in @?f x) (let y := ?e' in @?g y) => lets_with P e e' f g n
  end.
Ltac qr := unfold Q2R; cbn [Qnum Qden]; try lra.
(** use a better enclosure of the exact value *)
Ltac ashrink H l h :=
  apply (apx_shrink _ _ _ l h) in H;
  [ lazymatch type of H with apx ?x ?a ?A => let A' := eval vm_compute in A in change (apx x a A') in H end | split; qr ].
(** the bounds of the constants, once *)
Ltac aconst c :=
  let H := fresh "Hc" in
  match goal with ACC : accurate ?lm |- _ => eassert (H : apx (c b64 (B64Ops lm)) (c R ROps) _) by arel end.
(** print a bound *)
Ltac apr H :=
  lazymatch type of H with
  | apx ?x _ ?A => let v := eval vm_compute in (Qnum (el A), Zpos (Qden (el A)), (Qnum (eh A), Zpos (Qden (eh A))), (Qnum (rr A), Zpos (Qden (rr A))), (Qnum (ab A), Zpos (Qden (ab A)))) in idtac "APR" x v
  end.
Ltac asplit := lazymatch goal with |- apx _ _ _ => awide | |- apx _ _ _ /\ _ => split; [awide|asplit] | |- _ => idtac end.
