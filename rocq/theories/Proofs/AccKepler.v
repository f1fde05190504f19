(** * Binary64 accuracy of the Kepler iteration *)
From Coq Require Import ZArith QArith Reals Qreals Bool Lra Lia Psatz.
From Flocq Require Import Core IEEE754.BinarySingleNaN.
From Verif.Model Require Import Float Str Satrec Constants Sgp4.
From Verif.Spec Require Import LibmAccuracy KeplerSpec.
From Verif.Inst Require Import RInst RTac B64 B64Facts B64Calc ApxCalc.
From Verif.Proofs Require Import CalcFun CalcPow ApxFun AccInit AccNear KeplerFacts.
Local Open Scope R_scope.

Lemma apx_flat x a A : apx x a A -> apx x a (Eb (el A) (eh A) 0 (eer A)).
Proof.
  intros H. pose proof (apx_rel _ _ _ H) as R. pose proof (er_pos _ _ _ R) as P. destruct R as (F & I & E). cbn [lo hi er] in *. split; [exact F|]. split; [exact I|]. cbn [rr ab]. rewrite Q2R_0. split; [split; [lra|exact P]|]. lra.
Qed.
Ltac aflat := eapply apx_weaken; [apply apx_flat; arel|vm_compute; reflexivity..].

(** the error of the k-th guess *)
Definition gd (k : nat) : R := match k with O => 461 / 1000 | S O => 213 / 1000 | S (S O) => 46 / 1000 | S (S (S O)) => 22 / 10000 | S (S (S (S O))) => 5 / 1000000 | S (S (S (S (S O)))) => 3 / 100000000000 | _ => 3 / 100000000000000 end.
Lemma gd_le k : 0 < gd k <= 461 / 1000.
Proof. do 6 (destruct k as [|k]; [cbn [gd]; lra|]). cbn [gd]. lra. Qed.
Lemma gd_step k : gd k * gd k + 2 / 100000000000000 <= gd (S k).
Proof. do 6 (destruct k as [|k]; [cbn [gd]; lra|]). cbn [gd]. lra. Qed.

Section K.
Context (lm : libm) (ACC : accurate lm).
Notation B := (B64Ops lm).
Variables x y w : b64.
Hypothesis Fx : fin x = true.
Hypothesis Fy : fin y = true.
Hypothesis Fw : fin w = true.
Hypothesis Wb : Rabs (B2R w) <= 7.
Variable e : R.
Hypothesis He : 0 <= e <= 461 / 1000.
Hypothesis Hxy : B2R x * B2R x + B2R y * B2R y = e * e.
Variable r : R.
Hypothesis Hr : kep (B2R x) (B2R y) r = B2R w.
Hypothesis Hu : Rabs (B2R w - r) <= e.

Lemma newton_b64 E : fin E = true -> Rabs (B2R E - r) <= 461 / 1000 ->
  apx (@newton _ B x y w E) (@newton _ ROps (B2R x) (B2R y) (B2R w) (B2R E)) (Eb (-9 # 10) (9 # 10) 0 (15 # 1000000000000000)) /\
  apx (@fadd _ B E (@newton _ B x y w E)) (@fadd _ ROps (B2R E) (@newton _ ROps (B2R x) (B2R y) (B2R w) (B2R E))) (Eb (-9) 9 0 (2 # 100000000000000)).
Proof.
  intros FE HE. apply Rabs_le_inv in Wb. pose proof (dkep_bounds _ _ e ltac:(lra) Hxy (B2R E)) as DB. pose proof (Rabs_le_inv _ _ HE) as HE'. apply Rabs_le_inv in Hu.
  assert (Hx : apx x (B2R x) (Eb (-461 # 1000) (461 # 1000) 0 0)) by (apply apx_exact; [exact Fx|]; qr; nra).
  assert (Hy : apx y (B2R y) (Eb (-461 # 1000) (461 # 1000) 0 0)) by (apply apx_exact; [exact Fy|]; qr; nra).
  assert (Hw : apx w (B2R w) (Eb (-7) 7 0 0)) by (apply apx_exact; [exact Fw|]; qr).
  assert (HEE : apx E (B2R E) (Eb (-8) 8 0 0)) by (apply apx_exact; [exact FE|]; qr).
  destruct (mvt (kep (B2R x) (B2R y)) (dkep (B2R x) (B2R y)) (B2R E) r (kep_deriv _ _)) as (c & K & _). rewrite Hr in K.
  pose proof (dkep_bounds _ _ e ltac:(lra) Hxy c) as DC.
  assert (NB : Rabs (B2R w - kep (B2R x) (B2R y) (B2R E)) <= 68 / 100).
  { rewrite K, Rabs_mult, (Rabs_pos_eq (dkep _ _ c)) by lra. rewrite (Rabs_minus_sym r). pose proof (Rabs_pos (B2R E - r)). nra. }
  pose proof (newton_error (B2R x) (B2R y) (B2R w) e ltac:(lra) Hxy ltac:(lra) r Hr (B2R E) (461 / 1000) HE) as NE. apply Rabs_le_inv in NE, NB.
  unfold kep in NB. unfold dkep in DB.
  unfold newton. set (num := @fsub _ B (@fadd _ B _ _) _). set (den := @fsub _ B (@fsub _ B _ _) _).
  set (num' := @fsub _ ROps (@fadd _ ROps _ _) _). set (den' := @fsub _ ROps (@fsub _ ROps _ _) _).
  eassert (Hn : apx num num' _) by (unfold num, num'; arel).
  eassert (Hd : apx den den' _) by (unfold den, den'; arel).
  assert (N1 : - (68 / 100) <= num' <= 68 / 100) by (unfold num'; rops; lra). assert (D1 : 539 / 1000 <= den' <= 1461 / 1000) by (unfold den'; rops; lra).
  assert (QB : - (9 / 10) <= @fdiv _ ROps num' den' <= 9 / 10). { unfold newton in NE. fold num' den' in NE. clear - NE HE'. rops. rops_in NE. lra. }
  clearbody num num' den den'. ashrink Hn (-68 # 100)%Q (68 # 100)%Q. ashrink Hd (539 # 1000)%Q (1461 # 1000)%Q.
  eassert (Hq : apx (@fdiv _ B num den) (@fdiv _ ROps num' den') _) by arel. ashrink Hq (-9 # 10)%Q (9 # 10)%Q.
  split; aflat.
Qed.

Lemma limited_b64 c c' : apx c c' (Eb (-9 # 10) (9 # 10) 0 (15 # 1000000000000000)) -> @limited _ B c = c /\ @limited _ ROps c' = c'.
Proof.
  intros H. assert (G : @fle _ B (@L _ B 95 2) (@fabs _ B c) = false /\ @fle _ ROps (@L _ ROps 95 2) (@fabs _ ROps c') = false).
  { eapply apx_le_false; [arel|arel|vm_compute; reflexivity]. }
  destruct G as [G1 G2]. unfold limited. now rewrite G1, G2.
Qed.

Lemma guess_b64 k : fin (@guess _ B x y w k) = true /\ Rabs (B2R (@guess _ B x y w k) - r) <= gd k.
Proof.
  induction k as [|k [IF IE]]; cbn [guess].
  - split; [exact Fw|]. cbn [gd]. lra.
  - set (E := @guess _ B x y w k) in *. pose proof (gd_le k) as G. destruct (newton_b64 E IF ltac:(lra)) as (N1 & N2).
    destruct (limited_b64 _ _ N1) as [-> _]. destruct N2 as (F2 & _ & _ & D). split; [exact F2|]. cbn [rr ab] in D. rewrite Q2R_0, Rmult_0_l, Rplus_0_l in D.
    pose proof (newton_error (B2R x) (B2R y) (B2R w) e ltac:(lra) Hxy ltac:(lra) r Hr (B2R E) (gd k) IE) as NE. pose proof (gd_step k) as GS.
    cbn [fadd ROps] in D. set (N := @newton R ROps _ _ _ _) in *.
    replace (B2R (@fadd _ B E (@newton _ B x y w E)) - r) with ((B2R (@fadd _ B E (@newton _ B x y w E)) - (B2R E + N)) + (B2R E + N - r)) by ring.
    eapply Rle_trans; [apply Rabs_triang|]. replace (Q2R (2 # 100000000000000)) with (2 / 100000000000000) in D by (unfold Q2R; cbn; lra). lra.
Qed.

Lemma large_b64 : @large _ B (@L _ B 99999 1) = true.
Proof.
  unfold large. assert (G : @fle _ B (@L _ B 1 12) (@fabs _ B (@L _ B 99999 1)) = true /\ @fle _ ROps (@L _ ROps 1 12) (@fabs _ ROps (@L _ ROps 99999 1)) = true).
  { eapply apx_le_true; [arel|arel|vm_compute; reflexivity]. }
  apply G.
Qed.

Lemma kepler_b64 : exists E, fin E = true /\ Rabs (B2R E - r) <= 3 / 1000000000000 /\
  ko_sineo1 (@sgp4_kepler _ B x y w) = @fsin _ B E /\ ko_coseo1 (@sgp4_kepler _ B x y w) = @fcos _ B E.
Proof.
  destruct (@kepler_trace _ B x y w large_b64) as (j & J1 & -> & _ & J4). exists (@guess _ B x y w j). destruct (guess_b64 j) as [GF GE].
  split; [exact GF|]. split; [|split; reflexivity]. destruct J4 as [-> |J4]; [cbn [gd] in GE; lra|].
  set (E := @guess _ B x y w j) in *. pose proof (gd_le j) as G. destruct (newton_b64 E GF ltac:(lra)) as (N1 & _). unfold corr in J4. fold E in J4.
  destruct (limited_b64 _ _ N1) as [LB LR]. rewrite LB in J4. unfold large in J4.
  set (c := @newton _ B x y w E) in *. set (c' := @newton R ROps _ _ _ _) in *.
  assert (CL : Rabs c' < 103 / 100000000000000).
  { apply Rnot_le_lt. intros HL. assert (AH : apx (@fabs _ B c) (@fabs _ ROps c') (Eb (103 # 100000000000000) (9 # 10) 0 (15 # 1000000000000000))).
    { eassert (AH : apx (@fabs _ B c) (@fabs _ ROps c') _) by arel. ivl N1 IN. assert (AB : Rabs c' <= 9 / 10) by (apply Rabs_le; lra). cbn [fabs ROps] in AH |- *. ashrink AH (103 # 100000000000000)%Q (9 # 10)%Q.
      eapply apx_weaken; [exact AH|vm_compute; reflexivity..]. }
    assert (T : @fle _ B (@L _ B 1 12) (@fabs _ B c) = true /\ @fle _ ROps (@L _ ROps 1 12) (@fabs _ ROps c') = true).
    { eapply apx_le_true; [arel|exact AH|vm_compute; reflexivity]. }
    destruct T. congruence. }
  unfold c' in CL. rewrite newton_R in CL. pose proof (dkep_bounds _ _ e ltac:(lra) Hxy (B2R E)) as DB. set (d := dkep _ _ (B2R E)) in *.
  assert (RB : Rabs (B2R w - kep (B2R x) (B2R y) (B2R E)) <= 151 / 100000000000000).
  { unfold Rdiv in CL. rewrite Rabs_mult, (Rabs_pos_eq (/ d)) in CL by (left; apply Rinv_0_lt_compat; lra).
    set (n := Rabs (B2R w - kep (B2R x) (B2R y) (B2R E))) in *. assert (NE : n = n * / d * d) by (field; lra). assert (0 <= n) by (unfold n; apply Rabs_pos).
    assert (Z0 : 0 <= n * / d) by (apply Rmult_le_pos; [assumption|left; apply Rinv_0_lt_compat; lra]). set (z := n * / d) in *. clearbody z n d. rewrite NE.
    apply Rle_trans with (103 / 100000000000000 * (1461 / 1000)); [apply Rmult_le_compat; lra|lra]. }
  rewrite <- Hr in RB. pose proof (kep_expands (B2R x) (B2R y) e ltac:(lra) Hxy (B2R E) r) as KE. rewrite (Rabs_minus_sym r) in KE.
  pose proof (Rabs_pos (B2R E - r)). nra.
Qed.
End K.

(** the same over the reals *)
Lemma kepler_real x y w e r : 0 <= e <= 461 / 1000 -> x * x + y * y = e * e -> kep x y r = w -> Rabs (w - r) <= e ->
  exists E, Rabs (E - r) <= 3 / 1000000000000 /\ ko_sineo1 (@sgp4_kepler _ ROps x y w) = sin E /\ ko_coseo1 (@sgp4_kepler _ ROps x y w) = cos E.
Proof.
  intros He Hxy Hr Hu. destruct (@kepler_trace _ ROps x y w large_R) as (j & J1 & -> & _ & J4). exists (@guess _ ROps x y w j). split; [|split; reflexivity].
  pose proof (guess_error x y w e ltac:(lra) Hxy ltac:(lra) r Hr Hu j) as GE. destruct J4 as [-> |J4]; [eapply Rle_trans; [exact GE|]; cbn [err]; lra|].
  pose proof (small_residual x y w e ltac:(lra) Hxy _ J4) as S. pose proof (dkep_bounds _ _ e ltac:(lra) Hxy (@guess _ ROps x y w j)) as DB.
  pose proof (kep_expands x y e ltac:(lra) Hxy (@guess _ ROps x y w j) r) as KE. rewrite Hr, (Rabs_minus_sym r) in KE. set (E := @guess _ ROps x y w j) in *.
  pose proof (Rabs_pos (E - r)). nra.
Qed.

(** the root depends on the data like this *)
Lemma root_close a b a' b' u u' e r r' k da db du : 0 <= e <= 461 / 1000 -> a * a + b * b = e * e -> kep a b r = u -> kep a' b' r' = u' ->
  Rabs (a - a') <= da -> Rabs (b - b') <= db -> Rabs (u - (u' + 2 * PI * IZR k)) <= du ->
  Rabs (r - (r' + 2 * PI * IZR k)) <= 1000 / 539 * (da + db + du).
Proof.
  intros He Hab R1 R2 Ha Hb Hu. pose proof (kep_expands a b e ltac:(lra) Hab (r' + 2 * PI * IZR k) r) as K.
  set (d := Rabs (r - _)) in *. assert (0 <= d) by (unfold d; apply Rabs_pos).
  assert (D : Rabs (kep a b r - kep a b (r' + 2 * PI * IZR k)) <= da + db + du).
  { rewrite R1. unfold kep. rewrite sin_turn, cos_turn.
    replace (u - (r' + 2 * PI * IZR k - a * sin r' + b * cos r')) with ((u - (u' + 2 * PI * IZR k)) + ((a - a') * sin r' + (b' - b) * cos r')) by (rewrite <- R2; unfold kep; ring).
    assert (S : Rabs (sin r') <= 1) by (apply Rabs_le, SIN_bound). assert (C : Rabs (cos r') <= 1) by (apply Rabs_le, COS_bound).
    eapply Rle_trans; [apply Rabs_triang|]. assert (Rabs ((a - a') * sin r' + (b' - b) * cos r') <= da + db); [|lra].
    eapply Rle_trans; [apply Rabs_triang|]. rewrite !Rabs_mult, (Rabs_minus_sym b'). pose proof (Rabs_pos (a - a')). pose proof (Rabs_pos (b - b')). pose proof (Rabs_pos (sin r')). pose proof (Rabs_pos (cos r')). nra. }
  nra.
Qed.

(** ** Both loops on neighbouring data *)
Definition kepB (A Y : eb) (U : bd) : bd := Bd (-9) 9 (upq ((1000 # 539) * (eer A + eer Y + er U) + (6 # 1000000000000))).
Lemma sqrt_sq_id v : 0 <= v -> sqrt v * sqrt v = v. Proof. apply sqrt_sqrt. Qed.
Lemma kepler_close lm (ACC : accurate lm) x y w (x' y' w' : R) A Y U : apx x x' A -> apx y y' Y -> relm w w' U ->
  x' * x' + y' * y' <= (4605 / 10000) * (4605 / 10000) -> Q2R (eer A) <= 1 / 10000 -> Q2R (eer Y) <= 1 / 10000 -> Q2R (lo U) >= - (69 / 10) -> Q2R (hi U) <= 69 / 10 -> Q2R (er U) <= 1 / 100 ->
  exists E E', relm E E' (kepB A Y U) /\
    (ko_sineo1 (@sgp4_kepler _ (B64Ops lm) x y w) = @fsin _ (B64Ops lm) E /\ ko_coseo1 (@sgp4_kepler _ (B64Ops lm) x y w) = @fcos _ (B64Ops lm) E) /\
    ko_sineo1 (@sgp4_kepler _ ROps x' y' w') = sin E' /\ ko_coseo1 (@sgp4_kepler _ ROps x' y' w') = cos E'.
Proof.
  intros Hx Hy (k & Fw & Iw & Dw) EL H1 H2 H3 H4 H5. pose proof (apx_rel _ _ _ Hx) as (Fx & _ & Dx). pose proof (apx_rel _ _ _ Hy) as (Fy & _ & Dy). cbn [er] in Dx, Dy.
  set (e' := sqrt (x' * x' + y' * y')). assert (P' : 0 <= x' * x' + y' * y') by nra. pose proof (sqrt_pos (x' * x' + y' * y')) as E0'. pose proof (sqrt_sqrt _ P') as E2'. fold e' in E0', E2'.
  assert (E1' : e' <= 4605 / 10000) by nra.
  set (e := sqrt (B2R x * B2R x + B2R y * B2R y)). assert (P : 0 <= B2R x * B2R x + B2R y * B2R y) by nra. pose proof (sqrt_pos (B2R x * B2R x + B2R y * B2R y)) as E0. pose proof (sqrt_sqrt _ P) as E2. fold e in E0, E2.
  assert (E1 : e <= 461 / 1000).
  { assert (Rabs (B2R x - x') <= 1 / 10000) by lra. assert (Rabs (B2R y - y') <= 1 / 10000) by lra. apply Rabs_le_inv in H, H0.
    assert (X1 : - (4605 / 10000) <= x' <= 4605 / 10000) by (split; nra). assert (Y1 : - (4605 / 10000) <= y' <= 4605 / 10000) by (split; nra).
    assert (XX : B2R x * B2R x <= x' * x' + 9212 / 100000000) by nra. assert (YY : B2R y * B2R y <= y' * y' + 9212 / 100000000) by nra.
    apply Rsqr_incr_0_var; [|lra]. unfold Rsqr. lra. }
  destruct (kep_root (B2R x) (B2R y) (B2R w) e ltac:(lra) (eq_sym E2)) as (r & R1 & R2).
  destruct (kep_root x' y' w' e' ltac:(lra) (eq_sym E2')) as (r' & R1' & R2').
  assert (WB : Rabs (B2R w) <= 7) by (apply Rabs_le_inv in Dw; apply Rabs_le; lra).
  destruct (kepler_b64 lm ACC x y w Fx Fy Fw WB e ltac:(lra) (eq_sym E2) r R1 R2) as (E & FE & DE & S1 & C1).
  destruct (kepler_real x' y' w' e' r' ltac:(lra) (eq_sym E2') R1' R2') as (E' & DE' & S1' & C1').
  pose proof (root_close _ _ _ _ _ _ e r r' k _ _ _ ltac:(lra) (eq_sym E2) R1 R1' Dx Dy Dw) as RC.
  exists E, E'. split; [|tauto]. exists k. split; [exact FE|]. unfold kepB. cbn [lo hi er].
  assert (D : Rabs (B2R E - (E' + 2 * PI * IZR k)) <= 1000 / 539 * (Q2R (eer A) + Q2R (eer Y) + Q2R (er U)) + 6 / 1000000000000).
  { replace (B2R E - (E' + 2 * PI * IZR k)) with ((B2R E - r) + (r - (r' + 2 * PI * IZR k)) + (r' - E')) by ring.
    eapply Rle_trans; [apply Rabs_triang|]. rewrite (Rabs_minus_sym r'). apply Rle_trans with (Rabs (B2R E - r) + Rabs (r - (r' + 2 * PI * IZR k)) + Rabs (E' - r')); [apply Rplus_le_compat_r, Rabs_triang|]. lra. }
  split.
  - assert (Rabs (B2R E - (E' + 2 * PI * IZR k)) <= 1 / 10) by lra. apply Rabs_le_inv in H, DE, R2, WB. qr.
  - eapply Rle_trans; [exact D|]. eapply Rle_trans; [|apply upq_ge]. rewrite Q2R_plus, Q2R_mult, !Q2R_plus. replace (Q2R (1000 # 539)) with (1000 / 539) by (unfold Q2R; cbn; lra). replace (Q2R (6 # 1000000000000)) with (6 / 1000000000000) by (unfold Q2R; cbn; lra). lra.
Qed.
