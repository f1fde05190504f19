(** * Binary64 accuracy of the inverse geodetic transform *)
From Coq Require Import ZArith QArith Reals Qreals Bool Lra Lia Psatz.
From Flocq Require Import Core IEEE754.BinarySingleNaN.
From Verif.Model Require Import Float Constants Vec3 Transforms.
From Verif.Spec Require Import LibmAccuracy.
From Verif.Inst Require Import RInst RTac B64 B64Facts B64Calc B64Rem Atan2.
From Verif.Props Require Import C15 C45.
From Verif.Proofs Require Import GeodeticError CalcFun CalcPow CalcAngle LongFacts.
Local Open Scope R_scope.

Lemma atan2_right y x y' x' d : let rho := sqrt (x * x + y * y) in 0 < x -> 0 < x' -> 0 <= d -> 2 * d < rho ->
  (x' - x) * (x' - x) + (y' - y) * (y' - y) <= d * d -> Rabs (Ratan2 y' x' - Ratan2 y x) <= d / (rho - d).
Proof.
  intros rho Hx Hx' D0 D2 H. destruct (atan2_close y x y' x' d) as [k K]; [fold rho; lra|exact H|exact D0|]. fold rho in K.
  assert (Q : d / (rho - d) <= 1) by (apply (Rmult_le_reg_r (rho - d)); [lra|]; unfold Rdiv; rewrite Rmult_assoc, Rinv_l by lra; lra).
  assert (A : forall v u, 0 < u -> - (PI / 2) < Ratan2 v u < PI / 2).
  { intros v u Hu. unfold Ratan2. rewrite Rlt_bool_true by exact Hu. pose proof (atan_bound (v / u)); lra. }
  pose proof (A y x Hx) as A1. pose proof (A y' x' Hx') as A2. pose proof pi_num as P. pose proof (Rabs_le_inv _ _ K) as K'.
  assert (B : -1 < IZR k < 1) by (split; nra). destruct B as [B1 B2]. apply lt_IZR in B1, B2. assert (k = 0%Z) by lia. subst k.
  replace (Ratan2 y' x' - Ratan2 y x - 2 * PI * 0) with (Ratan2 y' x' - Ratan2 y x) in K by ring. exact K.
Qed.

Section G.
Context (lm : libm) (ACC : accurate lm).
Notation B := (B64Ops lm).
Notation fin := (@is_finite prec emax).

(** ** Lengths in the plane *)
Lemma sqrt_rap (S : b64) m : fin S = true -> 1 / 1000000 <= m -> Rabs (B2R S - m) <= m * / 2 ^ 49 ->
  fin (@fsqrt _ B S) = true /\ Rabs (B2R (@fsqrt _ B S) - sqrt m) <= sqrt m / 2 ^ 48.
Proof.
  intros FS Hm ES'. set (r := @fsqrt _ B S). set (n := sqrt m). assert (NN : n * n = m) by (apply sqrt_sqrt; lra). assert (N0 : 0 <= n) by apply sqrt_pos. clearbody n.
  assert (Hn : 1 / 1000 <= n) by nra.
  assert (SP : 0 <= B2R S) by (apply Rabs_le_inv in ES'; cbn -[IZR] in ES'; lra).
  pose proof (Bsqrt_correct prec emax _ _ mode_NE S) as (V & FV & _). change (Bsqrt mode_NE S) with r in *.
  assert (FR : fin r = true). { rewrite FV. destruct S as [s|s| |s mm ee he]; try discriminate; try reflexivity. destruct s; [|reflexivity]. exfalso. revert SP. cbn. unfold F2R. cbn. intros SP. assert (IZR (Z.neg mm) * bpow radix2 ee < 0); [|lra]. pose proof (bpow_gt_0 radix2 ee). assert (IZR (Z.neg mm) < 0) by (apply IZR_lt; lia). nra. }
  split; [exact FR|]. rewrite V. change (round radix2 (SpecFloat.fexp prec emax) (round_mode mode_NE) (sqrt (B2R S))) with (rnd (sqrt (B2R S))).
  pose proof (rnd_fine (sqrt (B2R S))) as RF. assert (U : bpow radix2 (-53) = / 2 ^ 53) by (rewrite pow_IZR; reflexivity). rewrite U in RF.
  pose proof (sqrt_pos (B2R S)) as SQ. pose proof (sqrt_sqrt (B2R S) SP) as SS. set (q := sqrt (B2R S)) in *. rewrite (Rabs_pos_eq q) in RF by exact SQ.
  assert (Q1 : Rabs (q - n) <= n * / 2 ^ 49).
  { apply (Rmult_le_reg_r (q + n)); [lra|]. rewrite <- (Rabs_pos_eq (q + n)) at 1 by lra. rewrite <- Rabs_mult. replace ((q - n) * (q + n)) with (B2R S - m) by (rewrite <- NN, <- SS; ring).
    eapply Rle_trans; [exact ES'|]. rewrite <- NN. assert (0 < / 2 ^ 49) by (cbn -[IZR]; lra). nra. }
  assert (TN : bpow radix2 (-1074) <= / 2 ^ 70). { replace (/ 2 ^ 70) with (bpow radix2 (-70)) by (rewrite pow_IZR; reflexivity). apply bpow_le. lia. }
  set (b := bpow radix2 (-1074)) in *. clearbody b q.
  replace (rnd q - n) with ((rnd q - q) + (q - n)) by ring. eapply Rle_trans; [apply Rabs_triang|]. apply Rabs_le_inv in Q1. assert (Q2 := Rabs_le _ _ Q1).
  assert (b <= n * / 2 ^ 60) by (cbn -[IZR] in *; lra). unfold Rdiv. cbn -[IZR] in *. lra.
Qed.
Lemma rap_mul x : fin x = true -> Rabs (B2R x) <= 2 ^ 300 -> rap (@fmul _ B x x) (B2R x * B2R x) (/ 2 ^ 50) (/ 2 ^ 200).
Proof.
  intros F H. pose proof (Rabs_pos (B2R x)) as P. assert (Q : 0 <= B2R x * B2R x <= 2 ^ 800).
  { split; [nra|]. rewrite <- (Rabs_pos_eq (B2R x * B2R x)), Rabs_mult by nra. replace (2 ^ 800) with (2 ^ 300 * 2 ^ 500) by (rewrite <- pow_add; reflexivity).
    assert (2 ^ 300 <= 2 ^ 500) by (apply Rle_pow; [lra|lia]). apply Rmult_le_compat; lra. }
  destruct (mul_fin lm x x F F) as [V FV].
  { rewrite Rabs_pos_eq by lra. eapply Rle_trans; [apply Q|]. eapply Rle_trans; [apply (pow_big 800); lia|]. apply bpow_le. lia. }
  split; [exact FV|]. split; [exact Q|]. rewrite V. pose proof (rnd_fine (B2R x * B2R x)) as RF. rewrite (Rabs_pos_eq (B2R x * B2R x)) in RF by lra. pose proof tiny as TN.
  assert (U : bpow radix2 (-53) <= / 2 ^ 50). { replace (/ 2 ^ 50) with (bpow radix2 (-50)) by (rewrite pow_IZR; reflexivity). apply bpow_le. lia. }
  assert (B2R x * B2R x * bpow radix2 (-53) <= B2R x * B2R x * / 2 ^ 50) by (apply Rmult_le_compat_l; lra). lra.
Qed.
Lemma norm2 sx sy a b : rap sx a (/ 2 ^ 50) (/ 2 ^ 200) -> rap sy b (/ 2 ^ 50) (/ 2 ^ 200) -> 1 <= a + b -> a + b <= 2 ^ 800 ->
  let r := @fsqrt _ B (@fadd _ B sx sy) in fin r = true /\ Rabs (B2R r - sqrt (a + b)) <= sqrt (a + b) / 2 ^ 48.
Proof.
  intros R1 R2 H1 H2 r.
  assert (T0 : 0 < / 2 ^ 200 <= / 2 ^ 100). { split; [apply Rinv_0_lt_compat, pow_lt; lra|]. apply Rinv_le_contravar; [apply pow_lt; lra|apply Rle_pow; [lra|lia]]. }
  assert (T1 : / 2 ^ 100 <= / 2 ^ 70) by (cbn -[IZR]; lra).
  destruct (rap_add lm _ _ _ _ _ _ R1 R2) as (FS & AS & ES); [cbn -[IZR]; lra|cbn -[IZR] in *; lra|exact H2|].
  apply sqrt_rap; [exact FS|lra|]. eapply Rle_trans; [exact ES|]. set (t := / 2 ^ 200) in *. set (w := / 2 ^ 100) in *. clearbody t w.
  assert (K : 4 * t <= (a + b) * / 2 ^ 60) by (cbn -[IZR] in *; lra). cbn -[IZR] in K |- *. lra.
Qed.

(** ** One step of the latitude loop *)
Definition LB : bd := Bd (-16 # 10) (16 # 10) (1 # 100000000000000).
Lemma rel_c lat lat' : rel lat lat' LB -> rel (@lat_c _ B lat) (@lat_c _ ROps lat') (Bd 0 (10068 # 10000) (2 # 1000000000000000)).
Proof. intros H. eapply rel_weaken; [unfold lat_c, geo_E2, geo_F, geo_A, geo_B; crel|vm_compute; reflexivity..]. Qed.
Lemma rel_t lat lat' : rel lat lat' LB -> rel (@fmul _ B (@fmul _ B (@fmul _ B (@geo_A _ B) (@lat_c _ B lat)) (@geo_E2 _ B)) (@fsin _ B lat))
  (@fmul _ ROps (@fmul _ ROps (@fmul _ ROps (@geo_A _ ROps) (@lat_c _ ROps lat')) (@geo_E2 _ ROps)) (@fsin _ ROps lat')) (Bd (-43) 43 (5 # 1000000000000)).
Proof.
  intros H. pose proof (rel_c _ _ H) as C. genrel C. eapply rel_weaken; [unfold geo_E2, geo_F, geo_A, geo_B; crel|vm_compute; reflexivity..]. Qed.

Section P.
Context (z : b64) (rho : R).
Notation Z := (B2R z).
Let Rr := sqrt (rho * rho + Z * Z).
Context (Fz : fin z = true) (R0 : 0 < rho) (R1 : 6000 <= Rr <= 100000) (R2 : Rr <= 1000 * rho).

Lemma Rr_sq : Rr * Rr = rho * rho + Z * Z. Proof. apply sqrt_sqrt. nra. Qed.
Lemma rho_le : rho <= Rr. Proof. pose proof Rr_sq. nra. Qed.
Lemma z_le : Rabs Z <= Rr.
Proof. pose proof Rr_sq. pose proof (Rabs_pos Z). assert (Rabs Z * Rabs Z = Z * Z) by (rewrite <- Rabs_mult; apply Rabs_pos_eq; nra). nra. Qed.
Lemma rho_y t : Rabs t <= 43 -> Rr - 43 <= sqrt (rho * rho + (Z + t) * (Z + t)) <= Rr + 43.
Proof.
  intros Ht. pose proof Rr_sq as S. pose proof z_le as ZL. assert (T : Rabs t * Rabs t = t * t) by (rewrite <- Rabs_mult; apply Rabs_pos_eq; nra).
  assert (ZT : Rabs (Z * t) <= Rr * Rabs t) by (rewrite Rabs_mult; apply Rmult_le_compat_r; [apply Rabs_pos|exact ZL]). apply Rabs_le_inv in ZT. pose proof (Rabs_pos t) as P.
  set (u := Rabs t) in *. split.
  - apply Rle_trans with (Rr - u); [lra|]. rewrite <- (sqrt_square (Rr - u)) by lra. apply sqrt_le_1_alt. nra.
  - apply Rle_trans with (Rr + u); [|lra]. rewrite <- (sqrt_square (Rr + u)) by lra. apply sqrt_le_1_alt. nra.
Qed.
Definition shape (l : R) : Prop := exists t, Rabs t <= 43 /\ l = Ratan2 (Z + t) rho.
Lemma half_acc y t r : fin y = true -> fin r = true -> Rabs t <= 43 -> Rabs (B2R y - (Z + t)) <= 2 / 10 ^ 11 -> Rabs (B2R r - rho) <= rho / 2 ^ 48 ->
  rel (@fatan2 _ B y r) (Ratan2 (Z + t) rho) LB.
Proof.
  intros Fy Fr Ht Hy Hr. pose proof (rho_y t Ht) as RY. pose proof rho_le as RL.
  assert (C48 : / 2 ^ 48 <= 36 / 10 ^ 16) by (cbn -[IZR]; lra). assert (C50 : / 2 ^ 50 <= 9 / 10 ^ 16) by (cbn -[IZR]; lra).
  assert (C48' : 3 / 10 ^ 15 <= / 2 ^ 48) by (cbn -[IZR]; lra).
  set (w := / 2 ^ 48) in *. unfold Rdiv in Hr. fold w in Hr.
  assert (HR : Rabs (B2R r - rho) <= Rr * w). { eapply Rle_trans; [exact Hr|]. apply Rmult_le_compat_r; [lra|exact RL]. }
  assert (PR : 0 < B2R r). { apply Rabs_le_inv in Hr. assert (rho * w <= rho * (1 / 2)) by (apply Rmult_le_compat_l; lra). lra. }
  destruct (acc_atan2 lm ACC y r Fy Fr) as [A1 A2]; [right; lra|]. split; [exact A1|]. cbn [lo hi er LB].
  assert (A3 : Rabs (B2R (@fatan2 _ B y r) - Ratan2 (B2R y) (B2R r)) <= / 2 ^ 50) by (destruct A2 as [A2|(_ & A2 & _)]; [exact A2|lra]). clear A2.
  assert (BD : - (PI / 2) < Ratan2 (Z + t) rho < PI / 2). { unfold Ratan2. rewrite Rlt_bool_true by exact R0. pose proof (atan_bound ((Z + t) / rho)). lra. }
  pose proof pi_num as P. split; [unfold Q2R; cbn -[IZR PI]; lra|].
  set (d := Rr * w + 2 / 10 ^ 11). assert (D0 : 0 <= d) by (unfold d; assert (0 <= Rr * w) by (apply Rmult_le_pos; lra); lra).
  assert (DR : Rr * w <= Rr * (36 / 10 ^ 16)) by (apply Rmult_le_compat_l; lra).
  pose proof (atan2_right (Z + t) rho (B2R y) (B2R r) d) as K. cbv zeta in K. set (ry := sqrt (rho * rho + (Z + t) * (Z + t))) in *.
  assert (DS : d <= 1 / 10 ^ 9) by (unfold d; cbn -[IZR]; cbn -[IZR] in DR; lra).
  assert (DK : d / (ry - d) <= 8 / 10 ^ 15).
  { apply (Rmult_le_reg_r (ry - d)); [cbn -[IZR] in DS; lra|]. unfold Rdiv at 1. rewrite Rmult_assoc, Rinv_l by (cbn -[IZR] in DS; lra). unfold d at 1. cbn -[IZR] in *. lra. }
  assert (K' : Rabs (Ratan2 (B2R y) (B2R r) - Ratan2 (Z + t) rho) <= 8 / 10 ^ 15).
  { eapply Rle_trans; [apply K|exact DK]; [exact R0|exact PR|exact D0|cbn -[IZR] in DS; lra|].
    apply Rabs_le_inv in HR. apply Rabs_le_inv in Hy. set (a := Rr * w) in *. set (b := 2 / 10 ^ 11) in *.
    assert (0 <= a) by (apply Rmult_le_pos; lra). assert (0 <= b) by (unfold b; cbn -[IZR]; lra).
    assert ((B2R r - rho) * (B2R r - rho) <= a * a) by nra. assert ((B2R y - (Z + t)) * (B2R y - (Z + t)) <= b * b) by nra. unfold d. nra. }
  replace (B2R (@fatan2 _ B y r) - Ratan2 (Z + t) rho) with ((B2R (@fatan2 _ B y r) - Ratan2 (B2R y) (B2R r)) + (Ratan2 (B2R y) (B2R r) - Ratan2 (Z + t) rho)) by ring.
  eapply Rle_trans; [apply Rabs_triang|]. unfold Q2R. cbn -[IZR] in *. lra.
Qed.
Lemma step_acc lat lat' r : rel lat lat' LB -> fin r = true -> Rabs (B2R r - rho) <= rho / 2 ^ 48 ->
  rel (@lat_step _ B z r lat) (@lat_step _ ROps Z rho lat') LB /\ shape (@lat_step _ ROps Z rho lat').
Proof.
  intros H Fr Hr. unfold lat_step. cbv zeta. pose proof (rel_t _ _ H) as T.
  set (T64 := @fmul _ B _ (@fsin _ B lat)) in *. set (TR := @fmul _ ROps _ (@fsin _ ROps lat')) in *. clearbody T64 TR.
  assert (HZ : rel z Z (Bd (-100000) 100000 0)). { apply rel_exact; [exact Fz|]. pose proof z_le as K. apply Rabs_le_inv in K. unfold Q2R; cbn -[IZR]; lra. }
  assert (Y : rel (@fadd _ B z T64) (@fadd _ ROps Z TR) (Bd (-100044) 100044 (2 # 100000000000))) by (eapply rel_weaken; [crel|vm_compute; reflexivity..]).
  destruct T as (_ & TB & _). cbn [lo hi er] in TB. assert (HT : Rabs TR <= 43) by (apply Rabs_le; unfold Q2R in TB; cbn -[IZR] in TB; lra).
  destruct Y as (FY & _ & EY). cbn [er] in EY. change (@fadd _ ROps Z TR) with (Z + TR) in *. change (@fatan2 _ ROps (Z + TR) rho) with (Ratan2 (Z + TR) rho).
  split; [|now exists TR]. apply half_acc; [exact FY|exact Fr|exact HT| |exact Hr]. eapply Rle_trans; [exact EY|]. unfold Q2R; cbn -[IZR]; lra.
Qed.
Definition CB : bd := Bd 0 (10068 # 10000) (2 # 1000000000000000).
Lemma loop_acc n : forall lat lat' c c' r, rel lat lat' LB -> shape lat' -> rel c c' CB -> fin r = true -> Rabs (B2R r - rho) <= rho / 2 ^ 48 ->
  rel (fst (@lat_loop _ B n z r lat c)) (fst (@lat_loop _ ROps n Z rho lat' c')) LB /\ shape (fst (@lat_loop _ ROps n Z rho lat' c')) /\
  rel (snd (@lat_loop _ B n z r lat c)) (snd (@lat_loop _ ROps n Z rho lat' c')) CB.
Proof.
  induction n as [|n IH]; intros lat lat' c c' r H S C Fr Hr; cbn [lat_loop]; [cbn [fst snd]; auto|].
  destruct (step_acc lat lat' r H Fr Hr) as [K1 K2]. apply IH; [exact K1|exact K2|apply rel_c; exact H|exact Fr|exact Hr].
Qed.

(** ** Height *)
Lemma height_acc lat lat' c c' r : rel lat lat' LB -> shape lat' -> rel c c' CB -> fin r = true -> Rabs (B2R r - rho) <= rho / 2 ^ 48 ->
  let h := @fsub _ B (@fdiv _ B r (@fcos _ B lat)) (@fmul _ B (@geo_A _ B) c) in
  let h' := @fsub _ ROps (@fdiv _ ROps rho (@fcos _ ROps lat')) (@fmul _ ROps (@geo_A _ ROps) c') in
  fin h = true /\ Rabs (B2R h - h') <= 2 / 10 ^ 14 * (Rr * Rr / rho).
Proof.
  intros H (t & Ht & El) C Fr Hr h h'. pose proof (rho_y t Ht) as RY. pose proof rho_le as RL.
  set (ry := sqrt (rho * rho + (Z + t) * (Z + t))) in *.
  assert (CO : cos lat' = rho / ry).
  { destruct (Ratan2_polar (Z + t) rho) as [P1 _]. fold ry in P1. rewrite <- El in P1. rewrite P1. field. lra. }
  assert (K : rel (@fcos _ B lat) (@fcos _ ROps lat') (Bd (-1) 1 (103 # 10000000000000000))) by (eapply rel_weaken; [crel|vm_compute; reflexivity..]).
  assert (AC : rel (@fmul _ B (@geo_A _ B) c) (@fmul _ ROps (@geo_A _ ROps) c') (Bd (-1) 6422 (16 # 1000000000000))) by (unfold geo_A; eapply rel_weaken; [crel|vm_compute; reflexivity..]).
  unfold h', h. change (@fcos _ ROps lat') with (cos lat') in *. rewrite CO in *.
  set (k := @fcos _ B lat) in *. set (ac := @fmul _ B _ c) in *. set (ac' := @fmul _ ROps _ c') in *. clearbody k ac ac'. clear h h' CO El H C lat lat' c c'.
  destruct K as (Fk & _ & EK). destruct AC as (Fa & BA & EA). cbn [lo hi er] in *.
  assert (C48 : rho / 2 ^ 48 <= rho * (356 / 10 ^ 17)) by (unfold Rdiv; apply Rmult_le_compat_l; cbn -[IZR]; lra).
  replace (@fdiv _ ROps rho (rho / ry)) with ry by (cbn; field; lra). change (@fsub _ ROps ry ac') with (ry - ac').
  set (co := rho / ry) in *. assert (RC : ry * co = rho) by (unfold co; field; lra).
  assert (CP : 1 / 1008 <= co) by (apply (Rmult_le_reg_l ry); [lra|]; rewrite RC; lra).
  assert (EK' : Rabs (B2R k - co) <= 103 / 10 ^ 16) by (eapply Rle_trans; [exact EK|unfold Q2R; cbn -[IZR]; lra]).
  assert (KP : co * (1 - 2 / 10 ^ 11) <= B2R k) by (apply Rabs_le_inv in EK'; cbn -[IZR] in *; lra).
  assert (KP0 : 0 < B2R k) by (cbn -[IZR] in KP; lra).
  set (M := Rr * Rr / rho). assert (MR : M * rho = Rr * Rr) by (unfold M; field; lra). assert (ML : Rr <= M) by (apply (Rmult_le_reg_r rho); [exact R0|]; rewrite MR; apply Rmult_le_compat_l; lra).
  assert (MU : M <= 1000 * Rr) by (apply (Rmult_le_reg_r rho); [exact R0|]; rewrite MR; nra).
  set (q := B2R r / B2R k). assert (QK : q * B2R k = B2R r) by (unfold q; field; lra).
  assert (E1 : Rabs (q - ry) <= 15 / 10 ^ 15 * M).
  { apply (Rmult_le_reg_r (B2R k)); [exact KP0|]. rewrite <- (Rabs_pos_eq (B2R k)) at 1 by lra. rewrite <- Rabs_mult.
    replace ((q - ry) * B2R k) with ((B2R r - rho) - ry * (B2R k - co)) by (rewrite Rmult_minus_distr_r, QK; rewrite <- RC at 1; ring).
    eapply Rle_trans; [apply Rabs_triang|]. rewrite Rabs_Ropp, Rabs_mult, (Rabs_pos_eq ry) by lra.
    apply Rle_trans with (rho * (356 / 10 ^ 17) + ry * (103 / 10 ^ 16)); [apply Rplus_le_compat; [lra|apply Rmult_le_compat_l; lra]|].
    apply Rle_trans with (15 / 10 ^ 15 * M * (co * (1 - 2 / 10 ^ 11))); [|apply Rmult_le_compat_l; [cbn -[IZR]; lra|exact KP]].
    apply (Rmult_le_reg_r ry); [lra|]. replace (15 / 10 ^ 15 * M * (co * (1 - 2 / 10 ^ 11)) * ry) with (15 / 10 ^ 15 * (1 - 2 / 10 ^ 11) * (M * rho)) by (rewrite <- RC; ring). rewrite MR.
    assert (RR : ry <= 10072 / 10000 * Rr) by lra. assert (ry * ry <= 10145 / 10000 * (Rr * Rr)) by nra. assert (rho * ry <= 10072 / 10000 * (Rr * Rr)) by nra. cbn -[IZR]. nra. }
  assert (QB : Rabs q <= 200000) by (apply Rabs_le; apply Rabs_le_inv in E1; cbn -[IZR] in E1; lra).
  assert (BIG : 2000000000 <= bpow radix2 1023) by (apply Rle_trans with (bpow radix2 60); [rewrite <- (IZR_Zpower radix2) by lia; apply IZR_le; vm_compute; discriminate|apply bpow_le; lia]).
  assert (U : bpow radix2 (-53) <= 12 / 10 ^ 17) by (replace (bpow radix2 (-53)) with (/ 2 ^ 53) by (rewrite pow_IZR; reflexivity); cbn -[IZR]; lra).
  assert (TN : bpow radix2 (-1074) <= 1 / 10 ^ 15). { apply Rle_trans with (bpow radix2 (-60)); [apply bpow_le; lia|]. replace (bpow radix2 (-60)) with (/ 2 ^ 60) by (rewrite pow_IZR; reflexivity). cbn -[IZR]; lra. }
  assert (RF : forall v m, Rabs v <= m -> Rabs (rnd v - v) <= m * (12 / 10 ^ 17) + 1 / 10 ^ 15).
  { intros v m Hv. eapply Rle_trans; [apply rnd_fine|]. apply Rplus_le_compat; [|exact TN]. apply Rmult_le_compat; [apply Rabs_pos|apply bpow_ge_0|exact Hv|exact U]. }
  destruct (div_fin lm r k Fr) as [V1 F1]; [lra|fold q; lra|]. fold q in V1. set (dv := @fdiv _ B r k) in *. clearbody dv.
  assert (QM : Rabs q <= 2 * M) by (apply Rabs_le; apply Rabs_le_inv in E1; cbn -[IZR] in E1; lra).
  pose proof (RF q _ QM) as G1. rewrite <- V1 in G1.
  assert (EA' : Rabs (B2R ac - ac') <= 16 / 10 ^ 12) by (eapply Rle_trans; [exact EA|unfold Q2R; cbn -[IZR]; lra]). assert (BA' : -1 <= ac' <= 6422) by (unfold Q2R in BA; cbn -[IZR] in BA; lra).
  apply Rabs_le_inv in G1. apply Rabs_le_inv in EA'. apply Rabs_le_inv in E1. apply Rabs_le_inv in QM.
  assert (SM : Rabs (B2R dv - B2R ac) <= 4 * M) by (apply Rabs_le; cbn -[IZR] in *; lra).
  destruct (sub_fin lm dv ac F1 Fa) as [V2 F2]; [lra|]. split; [exact F2|].
  pose proof (RF _ _ SM) as G2. rewrite <- V2 in G2. apply Rabs_le_inv in G2. apply Rabs_le. cbn -[IZR] in *. lra.
Qed.
End P.

(** ** Longitude *)
Lemma tpi_err : 0 <= 2 * PI - TPI <= 247 / 10 ^ 18.
Proof. pose proof two_pi_err as E. assert (T : TPI = 2 * PIB) by (unfold TPI, PIB; lra). rewrite T. cbn -[IZR PI]. lra. Qed.
Lemma round_11 v : Rabs v <= 11 -> Rabs (rnd v - v) <= 13 / 10 ^ 16.
Proof.
  intros H. eapply Rle_trans; [apply rnd_fine|].
  assert (U : bpow radix2 (-53) <= 115 / 10 ^ 18) by (replace (bpow radix2 (-53)) with (/ 2 ^ 53) by (rewrite pow_IZR; reflexivity); cbn -[IZR]; lra).
  assert (TN : bpow radix2 (-1074) <= 1 / 10 ^ 18). { apply Rle_trans with (bpow radix2 (-60)); [apply bpow_le; lia|]. replace (bpow radix2 (-60)) with (/ 2 ^ 60) by (rewrite pow_IZR; reflexivity). cbn -[IZR]; lra. }
  assert (Rabs v * bpow radix2 (-53) <= 11 * (115 / 10 ^ 18)) by (apply Rmult_le_compat; [apply Rabs_pos|apply bpow_ge_0|exact H|exact U]). cbn -[IZR] in *. lra.
Qed.
Definition near_turn (e : R) (x : b64) (a : R) : Prop := exists k : BinNums.Z, Rabs (B2R x - (a + 2 * PI * IZR k)) <= e.
Lemma up_acc n : forall l j, fin l = true -> - FULL_PI - 6 * INR j <= B2R l <= 11 -> -11 <= B2R l -> (j <= n)%nat ->
  exists l', @long_up _ B n l = Done l' /\ fin l' = true /\ - FULL_PI <= B2R l' <= 11 /\ near_turn (INR j * (16 / 10 ^ 16)) l' (B2R l).
Proof.
  assert (STOP : forall l j, fin l = true -> - FULL_PI <= B2R l <= 11 -> exists l', Done l = Done l' /\ fin l' = true /\ - FULL_PI <= B2R l' <= 11 /\ near_turn (INR j * (16 / 10 ^ 16)) l' (B2R l)).
  { intros l j F H. exists l. repeat split; try tauto. exists 0%Z. replace (B2R l - (B2R l + 2 * PI * 0)) with 0 by ring. rewrite Rabs_R0. apply Rmult_le_pos; [apply pos_INR|cbn -[IZR]; lra]. }
  induction n as [|n IH]; intros l j F H1 H2 Hj; cbn [long_up]; rewrite (lt_neg_pi lm l F); case Rlt_bool_spec; intros C; try (apply STOP; [exact F|lra]).
  - assert (j = 0)%nat by lia. subst j. cbn [INR] in H1. lra.
  - destruct j as [|j]; [cbn [INR] in H1; lra|]. rewrite S_INR in H1 |- *. destruct (up_step lm l F C) as (F' & V & LE). set (l1 := @fadd _ B l (@kTWO_PI _ B)) in *. clearbody l1.
    pose proof tpi_err as TE. pose proof pi_num as PN. assert (FP : FULL_PI <= 4) by (unfold FULL_PI; lra). assert (FP3 : 3 <= FULL_PI) by (unfold FULL_PI; lra).
    assert (TB : 628 / 100 <= TPI <= 629 / 100) by (cbn -[IZR PI] in TE; lra).
    pose proof (round_11 (B2R l + TPI) ltac:(apply Rabs_le; lra)) as RE. rewrite <- V in RE. apply Rabs_le_inv in RE.
    destruct (IH l1 j F') as (l' & E & F2 & B2 & k & K); [cbn -[IZR INR] in RE; lra|cbn -[IZR INR] in RE; lra|lia|].
    exists l'. repeat split; try assumption; try lra. exists (k + 1)%Z. rewrite plus_IZR. apply Rabs_le_inv in K. apply Rabs_le. cbn -[IZR INR PI] in *. lra.
Qed.
Lemma down_acc n : forall l j, fin l = true -> - FULL_PI <= B2R l <= FULL_PI + 6 * INR j -> B2R l <= 11 -> (j <= n)%nat ->
  exists l', @long_down _ B n l = Done l' /\ fin l' = true /\ near_turn (INR j * (16 / 10 ^ 16)) l' (B2R l).
Proof.
  assert (STOP : forall l j, fin l = true -> exists l', Done l = Done l' /\ fin l' = true /\ near_turn (INR j * (16 / 10 ^ 16)) l' (B2R l)).
  { intros l j F. exists l. repeat split; try tauto. exists 0%Z. replace (B2R l - (B2R l + 2 * PI * 0)) with 0 by ring. rewrite Rabs_R0. apply Rmult_le_pos; [apply pos_INR|cbn -[IZR]; lra]. }
  induction n as [|n IH]; intros l j F H1 H2 Hj; cbn [long_down]; rewrite (lt_pi lm l F); case Rlt_bool_spec; intros C; try (apply STOP; exact F).
  - assert (j = 0)%nat by lia. subst j. cbn [INR] in H1. lra.
  - destruct j as [|j]; [cbn [INR] in H1; lra|]. rewrite S_INR in H1 |- *. destruct (down_step lm l F C) as (F' & V & LE). set (l1 := @fsub _ B l (@kTWO_PI _ B)) in *. clearbody l1.
    pose proof tpi_err as TE. pose proof pi_num as PN. assert (FP : FULL_PI <= 4) by (unfold FULL_PI; lra). assert (FP3 : 3 <= FULL_PI) by (unfold FULL_PI; lra).
    assert (TB : 628 / 100 <= TPI <= 629 / 100) by (cbn -[IZR PI] in TE; lra).
    pose proof (round_11 (B2R l - TPI) ltac:(apply Rabs_le; lra)) as RE. rewrite <- V in RE. apply Rabs_le_inv in RE.
    destruct (IH l1 j F') as (l' & E & F2 & k & K); [cbn -[IZR INR] in RE; lra|cbn -[IZR INR] in RE; lra|lia|].
    exists l'. repeat split; try assumption; try lra. exists (k - 1)%Z. rewrite minus_IZR. apply Rabs_le_inv in K. apply Rabs_le. cbn -[IZR INR PI] in *. lra.
Qed.
Lemma normalize_acc n l : fin l = true -> Rabs (B2R l) <= 11 -> (2 <= n)%nat ->
  exists l', @normalize_long _ B n l = Done l' /\ fin l' = true /\ near_turn (64 / 10 ^ 16) l' (B2R l).
Proof.
  intros F H Hn. apply Rabs_le_inv in H. assert (FP3 : 3 <= FULL_PI) by (unfold FULL_PI; lra).
  destruct (up_acc n l 2 F) as (l1 & E1 & F1 & B1 & k1 & K1); [cbn [INR]; lra|lra|exact Hn|].
  destruct (down_acc n l1 2 F1) as (l2 & E2 & F2 & k2 & K2); [cbn [INR]; lra|lra|exact Hn|].
  exists l2. unfold normalize_long. rewrite E1. cbn [bindO]. split; [exact E2|]. split; [exact F2|]. exists (k1 + k2)%Z. rewrite plus_IZR. apply Rabs_le_inv in K1, K2. apply Rabs_le. cbn -[IZR PI] in *. lra.
Qed.
End G.
