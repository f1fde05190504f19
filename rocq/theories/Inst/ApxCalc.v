(** * Running error analysis with relative errors

    [apx x a A]: the binary64 number [x] is finite, the exact value [a] lies in [el A, eh A] and [x] is
    within [rr A * |a| + ab A] of it.  Like [rel] of [B64Calc], but products and quotients keep their relative error. *)
From Coq Require Import ZArith QArith Reals Qreals Bool Lra Lia Psatz.
From Flocq Require Import Core IEEE754.BinarySingleNaN.
From Verif.Model Require Import Float.
From Verif.Inst Require Import RInst B64 B64Facts B64Calc.
Local Open Scope R_scope.

Record eb := Eb { el : Q; eh : Q; rr : Q; ab : Q }.
Definition apx (x : b64) (a : R) (A : eb) : Prop :=
  fin x = true /\ Q2R (el A) <= a <= Q2R (eh A) /\ (0 <= Q2R (rr A) /\ 0 <= Q2R (ab A)) /\
  Rabs (B2R x - a) <= Q2R (rr A) * Rabs a + Q2R (ab A).

Definition isz (q : Q) : bool := match Qnum q with Z0 => true | _ => false end.
Definition up0 (q : Q) : Q := if isz q then 0%Q else upq q.
Definition dn0 (q : Q) : Q := if isz q then 0%Q else dnq q.
Definition itv (A : eb) : bd := Bd (el A) (eh A) 0.
Definition emag (A : eb) : Q := mag (itv A).
Definition emig (A : eb) : Q := if Qle_bool 0 (el A) then el A else (- eh A)%Q.
Definition eer (A : eb) : Q := up0 (rr A * emag A + ab A).

Lemma isz_R q : isz q = true -> Q2R q = 0.
Proof. unfold isz, Q2R. destruct q as [[|n|n] d]; cbn [Qnum]; intros H; try discriminate. cbn. lra. Qed.
Lemma up0_ge q : Q2R q <= Q2R (up0 q).
Proof. unfold up0. destruct (isz q) eqn:E; [rewrite (isz_R q E), Q2R_0; lra|apply upq_ge]. Qed.
Lemma dn0_le q : Q2R (dn0 q) <= Q2R q.
Proof. unfold dn0. destruct (isz q) eqn:E; [rewrite (isz_R q E), Q2R_0; lra|apply dnq_le]. Qed.
Lemma emag_ge A a : Q2R (el A) <= a <= Q2R (eh A) -> Rabs a <= Q2R (emag A).
Proof. intros H. apply (mag_ge (itv A) a). exact H. Qed.
Lemma emig_le A a : Q2R (el A) <= a <= Q2R (eh A) -> Q2R (emig A) <= Rabs a.
Proof.
  intros H. unfold emig. destruct (Qle_bool 0 (el A)) eqn:E.
  - apply qle_true in E. rewrite Q2R_0 in E. rewrite Rabs_pos_eq; lra.
  - rewrite Q2R_opp. pose proof (Rle_abs (- a)). rewrite Rabs_Ropp in *. lra.
Qed.
Lemma Q2R_div a b : 0 < Q2R b -> Q2R (a / b) = Q2R a / Q2R b.
Proof.
  intros H. unfold Qdiv. rewrite Q2R_mult, Q2R_inv; [reflexivity|]. intros E. apply Qeq_eqR in E. rewrite Q2R_0 in E. lra.
Qed.
Lemma eer_ge A a : 0 <= Q2R (rr A) -> Q2R (el A) <= a <= Q2R (eh A) -> Q2R (rr A) * Rabs a + Q2R (ab A) <= Q2R (eer A).
Proof.
  intros P H. eapply Rle_trans; [|apply up0_ge]. rewrite Q2R_plus, Q2R_mult. pose proof (emag_ge A a H). apply Rplus_le_compat_r. now apply Rmult_le_compat_l.
Qed.
Lemma apx_rel x a A : apx x a A -> rel x a (Bd (el A) (eh A) (eer A)).
Proof.
  intros (F & I & (P1 & P2) & E). split; [exact F|]. split; [exact I|]. cbn [er]. eapply Rle_trans; [exact E|]. now apply eer_ge.
Qed.

(** absolute error turned into relative error where the value stays away from 0 *)
Definition norm (A : eb) : eb :=
  let m := emig A in
  if Qle_bool m 0 then A else if Qle_bool (emag A) (32 * m) then Eb (el A) (eh A) (up0 (rr A + ab A / m)) 0 else A.
Lemma apx_norm x a A : apx x a A -> apx x a (norm A).
Proof.
  intros H. unfold norm. cbv zeta. destruct (Qle_bool (emig A) 0) eqn:E1; [exact H|]. destruct (Qle_bool (emag A) (32 * emig A)); [|exact H].
  apply qle_false in E1. rewrite Q2R_0 in E1. destruct H as (F & I & (P1 & P2) & E). split; [exact F|]. split; [exact I|]. cbn [rr ab].
  pose proof (up0_ge (rr A + ab A / emig A)) as U. rewrite Q2R_plus, Q2R_div in U by exact E1. pose proof (emig_le A a I) as M.
  assert (D : 0 <= Q2R (ab A) / Q2R (emig A)) by (apply Rle_mult_inv_pos; assumption).
  split; [rewrite Q2R_0; lra|]. rewrite Q2R_0, Rplus_0_r. eapply Rle_trans; [exact E|].
  apply Rle_trans with ((Q2R (rr A) + Q2R (ab A) / Q2R (emig A)) * Rabs a); [|apply Rmult_le_compat_r; [apply Rabs_pos|exact U]].
  rewrite Rmult_plus_distr_r. apply Rplus_le_compat_l. apply (Rmult_le_reg_r (Q2R (emig A))); [exact E1|].
  replace (Q2R (ab A) / Q2R (emig A) * Rabs a * Q2R (emig A)) with (Q2R (ab A) * Rabs a) by (field; lra). now apply Rmult_le_compat_l.
Qed.
Lemma rel_apx x a A : rel x a A -> apx x a (norm (Eb (lo A) (hi A) 0 (er A))).
Proof.
  intros H. pose proof (er_pos _ _ _ H) as P. destruct H as (F & I & E). apply apx_norm. split; [exact F|]. split; [exact I|]. cbn [rr ab]. rewrite Q2R_0, Rmult_0_l, Rplus_0_l. split; [lra|exact E].
Qed.
Lemma apx_shrink x a A l h : apx x a A -> Q2R l <= a <= Q2R h -> apx x a (norm (Eb l h (rr A) (ab A))).
Proof. intros (F & I & P & E) H. apply apx_norm. split; [exact F|]. split; [exact H|]. split; [exact P|exact E]. Qed.
Lemma apx_weaken x a A B : apx x a A -> Qle_bool (el B) (el A) = true -> Qle_bool (eh A) (eh B) = true ->
  Qle_bool (rr A) (rr B) = true -> Qle_bool (ab A) (ab B) = true -> apx x a B.
Proof.
  intros (F & I & (P1 & P2) & E) H1 H2 H3 H4. apply qle_true in H1, H2, H3, H4. split; [exact F|]. split; [lra|]. split; [lra|].
  eapply Rle_trans; [exact E|]. apply Rplus_le_compat; [|exact H4]. apply Rmult_le_compat_r; [apply Rabs_pos|exact H3].
Qed.
Lemma apx_exact x l h : fin x = true -> Q2R l <= B2R x <= Q2R h -> apx x (B2R x) (Eb l h 0 0).
Proof. intros F H. split; [exact F|]. split; [exact H|]. cbn [rr ab]. rewrite Q2R_0. split; [lra|]. unfold Rminus. rewrite Rplus_opp_r, Rabs_R0. lra. Qed.

(** ** One rounding *)
Definition fin_e (l h r b : Q) : option eb :=
  let M := (qmax (qabs l) (qabs h) * (1 + r) + b)%Q in
  if Qle_bool M bigq && Qle_bool 0 r && Qle_bool 0 b then Some (norm (Eb (dn0 l) (up0 h) (upq (r + (1 + r) * uq)) (upq (b * (1 + uq) + tq)))) else None.
Lemma uq_pos : 0 < Q2R uq. Proof. rewrite uq_R. apply bpow_gt_0. Qed.
Lemma tq_pos : 0 < Q2R tq. Proof. eapply Rlt_le_trans; [|apply tq_R]. apply bpow_gt_0. Qed.
Lemma Q1 : Q2R 1 = 1. Proof. unfold Q2R. cbn. lra. Qed.
Lemma efinish (z : b64) (v a : R) l h r b C : Q2R l <= a <= Q2R h -> Rabs (v - a) <= Q2R r * Rabs a + Q2R b ->
  (Rabs v <= bpow radix2 1023 -> B2R z = rnd v /\ fin z = true) -> fin_e l h r b = Some C -> apx z a C.
Proof.
  intros Ha He Hz HC. unfold fin_e in HC. cbv zeta in HC. set (M := (qmax (qabs l) (qabs h) * (1 + r) + b)%Q) in *.
  destruct (Qle_bool M bigq) eqn:EM; [|discriminate]. destruct (Qle_bool 0 r) eqn:Er; [|discriminate]. destruct (Qle_bool 0 b) eqn:Eb_; [|discriminate]. cbn [andb] in HC. injection HC as <-.
  apply qle_true in EM, Er, Eb_. rewrite Q2R_0 in Er, Eb_. pose proof bigq_R as BR. pose proof (mag_ge (Bd l h 0) a Ha) as MA. unfold mag in MA. cbn [lo hi] in MA.
  assert (Va : Rabs v <= (1 + Q2R r) * Rabs a + Q2R b).
  { replace v with (a + (v - a)) by ring. eapply Rle_trans; [apply Rabs_triang|]. lra. }
  assert (VM : (1 + Q2R r) * Rabs a + Q2R b <= Q2R M).
  { unfold M. rewrite Q2R_plus, Q2R_mult, Q2R_plus, Q1. rewrite (Rmult_comm (Q2R _)). apply Rplus_le_compat_r, Rmult_le_compat_l; lra. }
  destruct Hz as [Z1 Z2]; [lra|]. apply apx_norm. split; [exact Z2|]. cbn [el eh rr ab]. pose proof (dn0_le l). pose proof (up0_ge h). split; [lra|].
  pose proof (upq_ge (r + (1 + r) * uq)) as U1. pose proof (upq_ge (b * (1 + uq) + tq)) as U2. rewrite !Q2R_plus, !Q2R_mult, !Q2R_plus, Q1 in U1, U2.
  pose proof uq_pos as UP. pose proof tq_pos as TP. assert (0 <= Q2R r * Q2R uq) by (apply Rmult_le_pos; lra). assert (0 <= Q2R b * Q2R uq) by (apply Rmult_le_pos; lra).
  split; [split; lra|]. rewrite Z1. pose proof (rnd_rel v) as R.
  replace (rnd v - a) with ((rnd v - v) + (v - a)) by ring. eapply Rle_trans; [apply Rabs_triang|].
  assert (Rabs v * Q2R uq <= ((1 + Q2R r) * Rabs a + Q2R b) * Q2R uq) by (apply Rmult_le_compat_r; lra).
  pose proof (Rabs_pos a) as PA. assert ((Q2R r + (1 + Q2R r) * Q2R uq) * Rabs a <= Q2R (upq (r + (1 + r) * uq)) * Rabs a) by (apply Rmult_le_compat_r; [exact PA|exact U1]). lra.
Qed.

Section Rules.
Context (lm : libm).
Notation B := (B64Ops lm).

Definition negE (X : eb) : eb := Eb (- eh X) (- el X) (rr X) (ab X).
Definition addE (X Y : eb) : option eb :=
  if (Qle_bool 0 (el X) && Qle_bool 0 (el Y)) || (Qle_bool (eh X) 0 && Qle_bool (eh Y) 0)
  then fin_e (el X + el Y) (eh X + eh Y) (qmax (rr X) (rr Y)) (ab X + ab Y)
  else if Qle_bool (8 * emag Y) (emig X) then fin_e (el X + el Y) (eh X + eh Y) (rr X) (ab X + rr X * emag Y + eer Y)
  else if Qle_bool (8 * emag X) (emig Y) then fin_e (el X + el Y) (eh X + eh Y) (rr Y) (ab Y + rr Y * emag X + eer X)
  else fin_e (el X + el Y) (eh X + eh Y) 0 (eer X + eer Y).
Lemma apx_sum (z : b64) (x y a b : R) X Y C : Q2R (el X) <= a <= Q2R (eh X) -> Q2R (el Y) <= b <= Q2R (eh Y) ->
  0 <= Q2R (rr X) /\ 0 <= Q2R (ab X) -> 0 <= Q2R (rr Y) /\ 0 <= Q2R (ab Y) ->
  Rabs (x - a) <= Q2R (rr X) * Rabs a + Q2R (ab X) -> Rabs (y - b) <= Q2R (rr Y) * Rabs b + Q2R (ab Y) ->
  (Rabs (x + y) <= bpow radix2 1023 -> B2R z = rnd (x + y) /\ fin z = true) -> addE X Y = Some C -> apx z (a + b) C.
Proof.
  intros I1 I2 P1 P2 E1 E2 HZ HC. unfold addE in HC.
  assert (D : Rabs (x + y - (a + b)) <= Q2R (rr X) * Rabs a + Q2R (ab X) + (Q2R (rr Y) * Rabs b + Q2R (ab Y))).
  { replace (x + y - (a + b)) with ((x - a) + (y - b)) by ring. eapply Rle_trans; [apply Rabs_triang|]. lra. }
  destruct (_ || _) eqn:S.
  - apply (efinish z (x + y)) with (4 := HC); [rewrite !Q2R_plus; lra| |exact HZ]. eapply Rle_trans; [exact D|]. rewrite Q2R_plus.
    destruct (qmax_ge (rr X) (rr Y)) as [M1 M2]. set (m := Q2R (qmax (rr X) (rr Y))) in *.
    assert (SG : Rabs (a + b) = Rabs a + Rabs b).
    { apply orb_prop in S. destruct S as [S|S]; apply andb_prop in S; destruct S as [S1 S2]; apply qle_true in S1, S2; rewrite Q2R_0 in S1, S2.
      - rewrite !Rabs_pos_eq; lra.
      - rewrite !Rabs_left1; lra. }
    rewrite SG. pose proof (Rabs_pos a). pose proof (Rabs_pos b). assert (Q2R (rr X) * Rabs a <= m * Rabs a) by (apply Rmult_le_compat_r; lra). assert (Q2R (rr Y) * Rabs b <= m * Rabs b) by (apply Rmult_le_compat_r; lra). lra.
  - pose proof (eer_ge X a (proj1 P1) I1) as G1. pose proof (eer_ge Y b (proj1 P2) I2) as G2. pose proof (emag_ge X a I1) as M1. pose proof (emag_ge Y b I2) as M2.
    assert (A1 : Rabs a <= Rabs (a + b) + Rabs b) by (replace a with ((a + b) - b) at 1 by ring; eapply Rle_trans; [apply Rabs_triang|]; rewrite Rabs_Ropp; lra).
    assert (A2 : Rabs b <= Rabs (a + b) + Rabs a) by (replace b with ((a + b) - a) at 1 by ring; eapply Rle_trans; [apply Rabs_triang|]; rewrite Rabs_Ropp; lra).
    destruct (Qle_bool (8 * emag Y) (emig X)); [|destruct (Qle_bool (8 * emag X) (emig Y))];
      (apply (efinish z (x + y)) with (4 := HC); [rewrite !Q2R_plus; lra| |exact HZ]).
    + rewrite !Q2R_plus, Q2R_mult. assert (Q2R (rr X) * Rabs a <= Q2R (rr X) * (Rabs (a + b) + Q2R (emag Y))) by (apply Rmult_le_compat_l; lra). lra.
    + rewrite !Q2R_plus, Q2R_mult. assert (Q2R (rr Y) * Rabs b <= Q2R (rr Y) * (Rabs (a + b) + Q2R (emag X))) by (apply Rmult_le_compat_l; lra). lra.
    + rewrite Q2R_0, Rmult_0_l, Rplus_0_l, Q2R_plus. lra.
Qed.
Lemma apx_add x y a b X Y C : apx x a X -> apx y b Y -> addE X Y = Some C -> apx (@fadd _ B x y) (@fadd _ ROps a b) C.
Proof.
  intros (F1 & I1 & P1 & E1) (F2 & I2 & P2 & E2) HC. cbn [fadd ROps]. apply (apx_sum _ (B2R x) (B2R y) a b X Y C); auto. now apply add_fin.
Qed.
Definition subE (X Y : eb) : option eb := addE X (negE Y).
Lemma apx_sub x y a b X Y C : apx x a X -> apx y b Y -> subE X Y = Some C -> apx (@fsub _ B x y) (@fsub _ ROps a b) C.
Proof.
  intros (F1 & I1 & P1 & E1) (F2 & I2 & P2 & E2) HC. cbn [fsub ROps]. unfold Rminus. apply (apx_sum _ (B2R x) (- B2R y) a (- b) X (negE Y) C); auto; unfold negE; cbn [el eh rr ab].
  - rewrite !Q2R_opp. lra.
  - replace (- B2R y - - b) with (- (B2R y - b)) by ring. now rewrite !Rabs_Ropp.
  - intros H. now apply sub_fin.
Qed.
Definition negE_ (X : eb) : option eb := Some (negE X).
Lemma apx_neg x a X C : apx x a X -> negE_ X = Some C -> apx (@fneg _ B x) (@fneg _ ROps a) C.
Proof.
  intros (F1 & I1 & P1 & E1) HC. injection HC as <-. destruct (neg_fin lm x) as [V F]. split; [now rewrite F|]. unfold negE. cbn [el eh rr ab fneg ROps]. rewrite V, !Q2R_opp.
  split; [lra|]. split; [exact P1|]. replace (- B2R x - - a) with (- (B2R x - a)) by ring. now rewrite !Rabs_Ropp.
Qed.
Definition absE (X : eb) : option eb :=
  Some (if Qle_bool 0 (el X) then X else if Qle_bool (eh X) 0 then negE X else Eb 0 (emag X) (rr X) (ab X)).
Lemma apx_abs x a X C : apx x a X -> absE X = Some C -> apx (@fabs _ B x) (@fabs _ ROps a) C.
Proof.
  intros (F1 & I1 & P1 & E1) HC. injection HC as <-. destruct (abs_fin lm x) as [V F].
  assert (D : Rabs (Rabs (B2R x) - Rabs a) <= Q2R (rr X) * Rabs (Rabs a) + Q2R (ab X)) by (rewrite Rabs_Rabsolu; eapply Rle_trans; [apply Rabs_triang_inv2|exact E1]).
  cbn [fabs ROps]. destruct (Qle_bool 0 (el X)) eqn:L; [|destruct (Qle_bool (eh X) 0) eqn:H]; (split; [now rewrite F|]); rewrite V.
  - apply qle_true in L. rewrite Q2R_0 in L. split; [rewrite Rabs_pos_eq; lra|]. split; [exact P1|exact D].
  - apply qle_true in H. rewrite Q2R_0 in H. unfold negE. cbn [el eh rr ab]. rewrite !Q2R_opp. split; [rewrite Rabs_left1; lra|]. split; [exact P1|exact D].
  - pose proof (emag_ge X a I1). pose proof (Rabs_pos a). cbn [el eh rr ab]. rewrite Q2R_0. split; [lra|]. split; [exact P1|exact D].
Qed.
Definition mulE (X Y : eb) : option eb :=
  fin_e (prod_lo (itv X) (itv Y)) (prod_hi (itv X) (itv Y)) (rr X + rr Y + rr X * rr Y)
        (up0 (ab X * emag Y * (1 + rr Y) + ab Y * emag X * (1 + rr X) + ab X * ab Y)).
Lemma apx_mul x y a b X Y C : apx x a X -> apx y b Y -> mulE X Y = Some C -> apx (@fmul _ B x y) (@fmul _ ROps a b) C.
Proof.
  intros (F1 & I1 & (P1 & P1') & E1) (F2 & I2 & (P2 & P2') & E2) HC. cbn [fmul ROps].
  apply (efinish _ (B2R x * B2R y)) with (4 := HC); [now apply (prod_in a b (itv X) (itv Y))| |now apply mul_fin].
  pose proof (up0_ge (ab X * emag Y * (1 + rr Y) + ab Y * emag X * (1 + rr X) + ab X * ab Y)) as U. rewrite !Q2R_plus, !Q2R_mult, !Q2R_plus, Q1 in U.
  rewrite !Q2R_plus, Q2R_mult, Rabs_mult. pose proof (emag_ge X a I1) as M1. pose proof (emag_ge Y b I2) as M2.
  replace (B2R x * B2R y - a * b) with ((B2R x - a) * b + (B2R y - b) * a + (B2R x - a) * (B2R y - b)) by ring.
  eapply Rle_trans; [apply Rabs_triang|]. eapply Rle_trans; [apply Rplus_le_compat_r, Rabs_triang|]. rewrite !Rabs_mult.
  pose proof (Rabs_pos a) as A0. pose proof (Rabs_pos b) as B0. pose proof (Rabs_pos (B2R x - a)) as X0. pose proof (Rabs_pos (B2R y - b)) as Y0.
  set (A := Rabs a) in *. set (Bb := Rabs b) in *. set (dx := Rabs (B2R x - a)) in *. set (dy := Rabs (B2R y - b)) in *. clearbody A Bb dx dy.
  set (r1 := Q2R (rr X)) in *. set (r2 := Q2R (rr Y)) in *. set (a1 := Q2R (ab X)) in *. set (a2 := Q2R (ab Y)) in *. set (m1 := Q2R (emag X)) in *. set (m2 := Q2R (emag Y)) in *.
  assert (T1 : dx * Bb <= (r1 * A + a1) * Bb) by (apply Rmult_le_compat_r; lra). assert (T2 : dy * A <= (r2 * Bb + a2) * A) by (apply Rmult_le_compat_r; lra).
  assert (T3 : dx * dy <= (r1 * A + a1) * (r2 * Bb + a2)) by (apply Rmult_le_compat; lra).
  assert (S1 : a1 * Bb * (1 + r2) <= a1 * m2 * (1 + r2)) by (apply Rmult_le_compat_r; [lra|]; apply Rmult_le_compat_l; lra).
  assert (S2 : a2 * A * (1 + r1) <= a2 * m1 * (1 + r1)) by (apply Rmult_le_compat_r; [lra|]; apply Rmult_le_compat_l; lra).
  lra.
Qed.
Definition divE (X Y : eb) : option eb :=
  let m := emig Y in
  if Qle_bool m 0 then None else
  let q := (rr Y + ab Y / m)%Q in
  let k := (1 - q)%Q in
  if Qle_bool k 0 then None else
  let I := inv_bd (itv Y) in
  fin_e (prod_lo (itv X) I) (prod_hi (itv X) I) (up0 ((rr X + q) / k)) (up0 (ab X / (m * k))).
Lemma apx_div x y a b X Y C : apx x a X -> apx y b Y -> divE X Y = Some C -> apx (@fdiv _ B x y) (@fdiv _ ROps a b) C.
Proof.
  intros (F1 & I1 & (P1 & P1') & E1) (F2 & I2 & (P2 & P2') & E2) HC. unfold divE in HC. cbv zeta in HC.
  destruct (Qle_bool (emig Y) 0) eqn:EM; [discriminate|]. destruct (Qle_bool (1 - _) 0) eqn:EK; [discriminate|]. apply qle_false in EM, EK.
  set (q := (rr Y + ab Y / emig Y)%Q) in *. rewrite Q2R_0 in *. rewrite Q2R_minus, Q1 in EK.
  assert (QR : Q2R q = Q2R (rr Y) + Q2R (ab Y) / Q2R (emig Y)) by (unfold q; rewrite Q2R_plus, Q2R_div by exact EM; reflexivity).
  destruct (den_min_R (itv Y) b I2) as [DB IB]; [exact EM|]. change (den_min (itv Y)) with (emig Y) in DB. set (m := Q2R (emig Y)) in *.
  set (r2 := Q2R (rr Y)) in *. set (a2 := Q2R (ab Y)) in *. assert (AM : 0 <= a2 / m) by (apply Rle_mult_inv_pos; assumption).
  assert (DY : Rabs (B2R y - b) <= Q2R q * Rabs b).
  { eapply Rle_trans; [exact E2|]. rewrite QR. rewrite Rmult_plus_distr_r. apply Rplus_le_compat_l. apply (Rmult_le_reg_r m); [exact EM|]. replace (a2 / m * Rabs b * m) with (a2 * Rabs b) by (field; lra). now apply Rmult_le_compat_l. }
  assert (NB : b <> 0) by (intros ->; rewrite Rabs_R0 in DB; lra).
  assert (YB : (1 - Q2R q) * Rabs b <= Rabs (B2R y)).
  { pose proof (Rabs_triang_inv b (b - B2R y)) as T. replace (b - (b - B2R y)) with (B2R y) in T by ring. rewrite (Rabs_minus_sym b) in T. lra. }
  assert (B0 : 0 < Rabs b) by lra. assert (KB : 0 < (1 - Q2R q) * Rabs b) by (apply Rmult_lt_0_compat; lra).
  assert (NY : B2R y <> 0) by (intros E; rewrite E, Rabs_R0 in YB; lra).
  cbn [fdiv ROps]. apply (efinish _ (B2R x / B2R y)) with (4 := HC); [now apply (prod_in a (/ b) (itv X) (inv_bd (itv Y)))| |intros HO; now apply div_fin].
  pose proof (up0_ge ((rr X + q) / (1 - q))) as U1. pose proof (up0_ge (ab X / (emig Y * (1 - q)))) as U2.
  rewrite Q2R_div, Q2R_plus, Q2R_minus, Q1 in U1 by (rewrite Q2R_minus, Q1; lra).
  assert (MK : 0 < m * (1 - Q2R q)) by (apply Rmult_lt_0_compat; lra). rewrite Q2R_div, Q2R_mult, Q2R_minus, Q1 in U2 by (rewrite Q2R_mult, Q2R_minus, Q1; exact MK). fold m in U2.
  replace (B2R x / B2R y - a / b) with (((B2R x - a) - (a / b) * (B2R y - b)) * / B2R y) by (field; split; assumption). rewrite Rabs_mult, Rabs_inv.
  set (g := Rabs (a / b)). assert (G0 : 0 <= g) by apply Rabs_pos. assert (AG : Rabs a = g * Rabs b) by (unfold g, Rdiv; rewrite Rabs_mult, Rabs_inv; field; lra).
  apply Rle_trans with (((Q2R (rr X) + Q2R q) * g * Rabs b + Q2R (ab X)) * / ((1 - Q2R q) * Rabs b)).
  - apply Rmult_le_compat; [apply Rabs_pos|left; apply Rinv_0_lt_compat, Rabs_pos_lt; exact NY| |apply Rinv_le_contravar; assumption].
    unfold Rminus at 1. eapply Rle_trans; [apply Rabs_triang|]. rewrite Rabs_Ropp, Rabs_mult. fold g.
    assert (g * Rabs (B2R y - b) <= g * (Q2R q * Rabs b)) by (apply Rmult_le_compat_l; assumption). rewrite AG in E1. lra.
  - assert (T1 : (Q2R (rr X) + Q2R q) / (1 - Q2R q) * g <= Q2R (up0 ((rr X + q) / (1 - q))) * g) by (apply Rmult_le_compat_r; assumption).
    assert (T2 : Q2R (ab X) / ((1 - Q2R q) * Rabs b) <= Q2R (ab X) / (m * (1 - Q2R q))).
    { unfold Rdiv. apply Rmult_le_compat_l; [exact P1'|]. apply Rinv_le_contravar; [exact MK|]. rewrite (Rmult_comm m). apply Rmult_le_compat_l; lra. }
    replace (((Q2R (rr X) + Q2R q) * g * Rabs b + Q2R (ab X)) * / ((1 - Q2R q) * Rabs b)) with ((Q2R (rr X) + Q2R q) / (1 - Q2R q) * g + Q2R (ab X) / ((1 - Q2R q) * Rabs b)) by (field; lra). lra.
Qed.
Definition sqrtE (X : eb) : option eb :=
  let s := sqrt_dn (el X) in
  if Qle_bool (eer X) (el X) && negb (Qle_bool s 0) then fin_e s (sqrt_up (eh X)) (rr X) (up0 (ab X / s)) else None.
Lemma apx_sqrt x a X C : apx x a X -> sqrtE X = Some C -> apx (@fsqrt _ B x) (@fsqrt _ ROps a) C.
Proof.
  intros H HC. pose proof (apx_rel _ _ _ H) as (_ & _ & E'). cbn [er] in E'. destruct H as (F & I & (P1 & P2) & E). unfold sqrtE in HC. cbv zeta in HC.
  destruct (Qle_bool (eer X) (el X)) eqn:E1; [|discriminate]. destruct (Qle_bool (sqrt_dn (el X)) 0) eqn:E2; [discriminate|]. cbn [andb negb] in HC.
  apply qle_true in E1. apply qle_false in E2. rewrite Q2R_0 in E2. apply Rabs_le_inv in E'. assert (XP : 0 <= B2R x) by lra.
  assert (EP : 0 <= Q2R (el X)). { eapply Rle_trans; [|exact E1]. pose proof (up0_ge (rr X * emag X + ab X)) as U. rewrite Q2R_plus, Q2R_mult in U. pose proof (emag_ge X a I). pose proof (Rabs_pos a). fold (eer X) in U. assert (0 <= Q2R (rr X) * Q2R (emag X)) by (apply Rmult_le_pos; lra). lra. }
  destruct (sqrt_dn_R (el X)) as [S1 S2]; [exact EP|]. set (s := sqrt_dn (el X)) in *.
  assert (SA : Q2R s <= sqrt a) by (eapply Rle_trans; [exact S2|apply sqrt_le_1_alt; lra]).
  cbn [fsqrt ROps]. apply (efinish _ (sqrt (B2R x))) with (4 := HC).
  - split; [exact SA|]. eapply Rle_trans; [apply sqrt_le_1_alt|apply sqrt_up_R]; lra.
  - pose proof (up0_ge (ab X / s)) as U. rewrite Q2R_div in U by exact E2.
    pose proof (sqrt_pos (B2R x)) as SP. pose proof (sqrt_sqrt (B2R x) XP) as SX. pose proof (sqrt_sqrt a ltac:(lra)) as SS. rewrite (Rabs_pos_eq (sqrt a)) by lra.
    apply Rle_trans with (Q2R (rr X) * sqrt a + Q2R (ab X) / Q2R s); [|lra].
    apply (Rmult_le_reg_r (sqrt a)); [lra|]. apply Rle_trans with (Rabs (B2R x - a)).
    + replace (B2R x - a) with ((sqrt (B2R x) - sqrt a) * (sqrt (B2R x) + sqrt a)) by (rewrite <- SX, <- SS at 3; ring).
      rewrite Rabs_mult. apply Rmult_le_compat_l; [apply Rabs_pos|]. rewrite Rabs_pos_eq; lra.
    + eapply Rle_trans; [exact E|]. rewrite (Rabs_pos_eq a) by lra. rewrite Rmult_plus_distr_r, Rmult_assoc, SS. apply Rplus_le_compat_l.
      apply Rle_trans with (Q2R (ab X) / Q2R s * Q2R s); [right; field; lra|]. apply Rmult_le_compat_l; [apply Rle_mult_inv_pos; assumption|exact SA].
  - intros _. pose proof (Bsqrt_correct prec emax _ _ mode_NE x) as (A & D & _). split; [exact A|].
    cbn [fsqrt B64Ops]. rewrite D. destruct x as [| | |sx mx ex Bx]; try reflexivity; try discriminate F. destruct sx; [|reflexivity].
    exfalso. assert (B2R (B754_finite true mx ex Bx : b64) < 0); [|lra]. unfold B2R. apply F2R_lt_0. reflexivity.
Qed.
Definition litE (m k : Z) : option eb := match litb m k with Some C => Some (norm (Eb (lo C) (hi C) 0 (er C))) | None => None end.
Lemma apx_lit m k C : litE m k = Some C -> apx (@L _ B m k) (@L _ ROps m k) C.
Proof. unfold litE. destruct (litb m k) as [D|] eqn:E; [|discriminate]. intros H. injection H as <-. apply rel_apx. now apply rel_lit. Qed.
End Rules.
