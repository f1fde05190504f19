(** * Binary64 accuracy of the Kepler iteration for eccentricities up to 0.77 *)
From Coq Require Import ZArith QArith Reals Qreals Bool Lra Lia Psatz.
From Flocq Require Import Core IEEE754.BinarySingleNaN.
From Verif.Model Require Import Float Str Satrec Constants Sgp4.
From Verif.Spec Require Import LibmAccuracy KeplerSpec.
From Verif.Inst Require Import RInst RTac B64 B64Facts B64Calc ApxCalc.
From Verif.Proofs Require Import CalcFun CalcPow ApxFun AccInit AccNear KeplerFacts KeplerHigh AccKepler.
Local Open Scope R_scope.

Definition nhB := Eb (-177 # 100) (177 # 100) 0 (7 # 100000000000000).
Section K.
Context (lm : libm) (ACC : accurate lm).
Notation B := (B64Ops lm).
Variables x y w : b64.
Hypothesis Fx : fin x = true.
Hypothesis Fy : fin y = true.
Hypothesis Fw : fin w = true.
Hypothesis Wb : Rabs (B2R w) <= 7.
Variable e : R.
Hypothesis He : 0 <= e <= 77 / 100.
Hypothesis Hxy : B2R x * B2R x + B2R y * B2R y = e * e.
Variable r : R.
Hypothesis Hr : kep (B2R x) (B2R y) r = B2R w.
Hypothesis Hu : Rabs (B2R w - r) <= e.

Lemma newton_b64h E : fin E = true -> Rabs (B2R E - r) <= 77 / 100 ->
  apx (@newton _ B x y w E) (@newton _ ROps (B2R x) (B2R y) (B2R w) (B2R E)) nhB /\
  apx (@fadd _ B E (@newton _ B x y w E)) (@fadd _ ROps (B2R E) (@newton _ ROps (B2R x) (B2R y) (B2R w) (B2R E))) (Eb (-11) 11 0 (8 # 100000000000000)).
Proof.
  intros FE HE. apply Rabs_le_inv in Wb. pose proof (dkep_bounds _ _ e ltac:(lra) Hxy (B2R E)) as DB. pose proof (Rabs_le_inv _ _ HE) as HE'. apply Rabs_le_inv in Hu.
  assert (Hx : apx x (B2R x) (Eb (-77 # 100) (77 # 100) 0 0)) by (apply apx_exact; [exact Fx|]; qr; nra).
  assert (Hy : apx y (B2R y) (Eb (-77 # 100) (77 # 100) 0 0)) by (apply apx_exact; [exact Fy|]; qr; nra).
  assert (Hw : apx w (B2R w) (Eb (-7) 7 0 0)) by (apply apx_exact; [exact Fw|]; qr).
  assert (HEE : apx E (B2R E) (Eb (-86 # 10) (86 # 10) 0 0)) by (apply apx_exact; [exact FE|]; qr).
  destruct (mvt (kep (B2R x) (B2R y)) (dkep (B2R x) (B2R y)) (B2R E) r (kep_deriv _ _)) as (c & K & _). rewrite Hr in K.
  pose proof (dkep_bounds _ _ e ltac:(lra) Hxy c) as DC.
  assert (NB : Rabs (B2R w - kep (B2R x) (B2R y) (B2R E)) <= 137 / 100).
  { rewrite K, Rabs_mult, (Rabs_pos_eq (dkep _ _ c)) by lra. rewrite (Rabs_minus_sym r). pose proof (Rabs_pos (B2R E - r)). nra. }
  destruct (newton_error2 (B2R x) (B2R y) (B2R w) e ltac:(lra) Hxy r Hr (B2R E) (77 / 100) HE ltac:(lra)) as (NE & _). apply Rabs_le_inv in NE, NB.
  unfold kep in NB. unfold dkep in DB.
  unfold newton. set (num := @fsub _ B (@fadd _ B _ _) _). set (den := @fsub _ B (@fsub _ B _ _) _).
  set (num' := @fsub _ ROps (@fadd _ ROps _ _) _). set (den' := @fsub _ ROps (@fsub _ ROps _ _) _).
  eassert (Hn : apx num num' _) by (unfold num, num'; arel).
  eassert (Hd : apx den den' _) by (unfold den, den'; arel).
  assert (N1 : - (137 / 100) <= num' <= 137 / 100) by (unfold num'; rops; lra). assert (D1 : 23 / 100 <= den' <= 177 / 100) by (unfold den'; rops; lra).
  assert (QB : - (177 / 100) <= @fdiv _ ROps num' den' <= 177 / 100). { unfold newton in NE. fold num' den' in NE. clear - NE HE'. rops. rops_in NE. lra. }
  clearbody num num' den den'. ashrink Hn (-137 # 100)%Q (137 # 100)%Q. ashrink Hd (23 # 100)%Q (177 # 100)%Q.
  eassert (Hq : apx (@fdiv _ B num den) (@fdiv _ ROps num' den') _) by arel. ashrink Hq (-177 # 100)%Q (177 # 100)%Q.
  unfold nhB. split; aflat.
Qed.

(** the cut at 0.95 *)
Lemma lit95 : apx (@L _ B 95 2) (95 / 100) (Eb (95 # 100) (95 # 100) 0 (2 # 10000000000000000)).
Proof.
  assert (H : rel (@L _ B 95 2) (@L _ ROps 95 2) (Bd (9499 # 10000) (9501 # 10000) (2 # 10000000000000000))) by (eapply rel_weaken; [apply (rel_lit lm 95 2); vm_compute; reflexivity|vm_compute; reflexivity..]).
  destruct H as (F & _ & D). cbn [er] in D. assert (LV : @L _ ROps 95 2 = 95 / 100) by (rops; lra). rewrite LV in D.
  split; [exact F|]. cbn [el eh rr ab]. rewrite Q2R_0. split; [qr|]. split; [split; qr|]. lra.
Qed.
Lemma limited_b64h c : fin c = true ->
  @limited _ B c = c \/ (95 / 100 - 1 / 1000000000000000 <= B2R c /\ @limited _ B c = @L _ B 95 2) \/ (B2R c <= - (95 / 100 - 1 / 1000000000000000) /\ @limited _ B c = @fneg _ B (@L _ B 95 2)).
Proof.
  intros FC. unfold limited. destruct lit95 as (FL & _ & _ & D). cbn [rr ab] in D. rewrite Q2R_0, Rmult_0_l, Rplus_0_l in D. apply Rabs_le_inv in D. unfold Q2R in D. cbn [Qnum Qden] in D.
  assert (Z : rel (@L _ B 0 0) (@L _ ROps 0 0) (Bd 0 0 0)) by (eapply rel_weaken; [apply (rel_lit lm 0 0); vm_compute; reflexivity|vm_compute; reflexivity..]).
  destruct Z as (FZ & IZ & DZ). cbn [lo hi er] in *. rewrite Q2R_0 in *. apply Rabs_le_inv in DZ.
  assert (FA : fin (@fabs _ B c) = true) by (cbn [fabs B64Ops]; rewrite is_finite_Babs; exact FC).
  rewrite (le_fin lm _ _ FL FA). assert (EA : B2R (@fabs _ B c) = Rabs (B2R c)) by (cbn [fabs B64Ops]; apply B2R_Babs). rewrite EA.
  case Rle_bool_spec; intros H; [|now left]. rewrite (lt_fin lm _ _ FZ FC). case Rlt_bool_spec; intros K; right; [left|right]; (split; [|reflexivity]).
  - rewrite Rabs_pos_eq in H; lra.
  - rewrite Rabs_left1 in H; lra.
Qed.
Lemma limited_id64 c c' : apx c c' nhB -> Rabs c' <= 89 / 100 -> @limited _ B c = c.
Proof.
  intros H A. apply Rabs_le_inv in A. ashrink H (-89 # 100)%Q (89 # 100)%Q.
  assert (G : @fle _ B (@L _ B 95 2) (@fabs _ B c) = false /\ @fle _ ROps (@L _ ROps 95 2) (@fabs _ ROps c') = false).
  { unfold nhB in H. eapply apx_le_false; [arel|arel|vm_compute; reflexivity]. }
  destruct G as [G1 _]. unfold limited. now rewrite G1.
Qed.
Lemma first_b64 : fin (@fadd _ B w (@limited _ B (@newton _ B x y w w))) = true /\ Rabs (B2R (@fadd _ B w (@limited _ B (@newton _ B x y w w))) - r) <= 4871 / 10000.
Proof.
  destruct (newton_b64h w Fw ltac:(lra)) as (N1 & N2). destruct N1 as (FN & _ & _ & D1). destruct N2 as (F2 & _ & _ & D2). cbn [nhB rr ab] in D1, D2. rewrite Q2R_0, Rmult_0_l, Rplus_0_l in D1, D2.
  unfold Q2R in D1, D2. cbn [Qnum Qden] in D1, D2. set (c := @newton _ B x y w w) in *. cbn [fadd ROps] in D2. set (n := @newton R ROps _ _ _ _) in *.
  apply Rabs_le_inv in Wb. assert (Hw : apx w (B2R w) (Eb (-7) 7 0 0)) by (apply apx_exact; [exact Fw|]; qr). pose proof lit95 as L9.
  assert (CE := cut_error (B2R x) (B2R y) (B2R w) e He Hxy r Hr Hu). fold n in CE. clearbody n c.
  destruct (limited_b64h c FN) as [-> |[(G & ->)|(G & ->)]].
  - split; [exact F2|]. specialize (CE n 0 ltac:(rewrite Rminus_diag_eq, Rabs_R0 by reflexivity; lra) ltac:(lra) n ltac:(now left)).
    replace (B2R (@fadd _ B w c) - r) with ((B2R (@fadd _ B w c) - (B2R w + n)) + (B2R w + n - r)) by ring. eapply Rle_trans; [apply Rabs_triang|]. lra.
  - eassert (S : apx (@fadd _ B w (@L _ B 95 2)) (@fadd _ ROps (B2R w) (95 / 100)) (Eb (-10) 10 0 (1 # 100000000000000))) by aflat.
    destruct S as (FS & _ & _ & DS). split; [exact FS|]. cbn [rr ab] in DS. rewrite Q2R_0, Rmult_0_l, Rplus_0_l in DS. unfold Q2R in DS. cbn [Qnum Qden fadd ROps] in DS.
    apply Rabs_le_inv in D1. assert (Q1 : Rabs (Rmax (B2R c) (95 / 100) - n) <= 1 / 10000000000000) by (unfold Rmax; destruct Rle_dec; apply Rabs_le; lra).
    specialize (CE _ _ Q1 ltac:(lra) (95 / 100) ltac:(right; left; split; [apply Rmax_r|reflexivity])). cbn [fadd B64Ops] in DS |- *.
    match goal with |- Rabs (?z - r) <= _ => replace (z - r) with ((z - (B2R w + 95 / 100)) + (B2R w + 95 / 100 - r)) by ring end. eapply Rle_trans; [apply Rabs_triang|]. lra.
  - eassert (S : apx (@fadd _ B w (@fneg _ B (@L _ B 95 2))) (@fadd _ ROps (B2R w) (@fneg _ ROps (95 / 100))) (Eb (-10) 10 0 (1 # 100000000000000))) by aflat.
    destruct S as (FS & _ & _ & DS). split; [exact FS|]. cbn [rr ab] in DS. rewrite Q2R_0, Rmult_0_l, Rplus_0_l in DS. unfold Q2R in DS. cbn [Qnum Qden fadd fneg ROps] in DS.
    apply Rabs_le_inv in D1. assert (Q1 : Rabs (Rmin (B2R c) (- (95 / 100)) - n) <= 1 / 10000000000000) by (unfold Rmin; destruct Rle_dec; apply Rabs_le; lra).
    specialize (CE _ _ Q1 ltac:(lra) (- (95 / 100)) ltac:(right; right; split; [apply Rmin_r|reflexivity])). cbn [fadd fneg B64Ops] in DS |- *.
    match goal with |- Rabs (?z - r) <= _ => replace (z - r) with ((z - (B2R w + - (95 / 100))) + (B2R w + - (95 / 100) - r)) by ring end. eapply Rle_trans; [apply Rabs_triang|]. lra.
Qed.
Lemma guess_b64h k : fin (@guess _ B x y w k) = true /\ Rabs (B2R (@guess _ B x y w k) - r) <= gh k.
Proof.
  induction k as [|k [IF IE]]; cbn [guess].
  - split; [exact Fw|]. cbn [gh]. lra.
  - destruct k as [|k].
    + cbn [guess gh] in *. exact first_b64.
    + set (E := @guess _ B x y w (S k)) in *. destruct (gh_le (S k)) as (G & G1). specialize (G1 ltac:(discriminate)). destruct (newton_b64h E IF ltac:(lra)) as (N1 & N2).
      destruct (step_error2 (B2R x) (B2R y) (B2R w) e He Hxy r Hr (B2R E) (gh (S k)) G1 IE) as (A & _ & NE).
      rewrite (limited_id64 _ _ N1 A). destruct N2 as (F2 & _ & _ & D). split; [exact F2|]. cbn [rr ab] in D. rewrite Q2R_0, Rmult_0_l, Rplus_0_l in D.
      pose proof (gh_step (S k) ltac:(discriminate)) as GS.
      cbn [fadd ROps] in D. set (N := @newton R ROps _ _ _ _) in *.
      replace (B2R (@fadd _ B E (@newton _ B x y w E)) - r) with ((B2R (@fadd _ B E (@newton _ B x y w E)) - (B2R E + N)) + (B2R E + N - r)) by ring.
      eapply Rle_trans; [apply Rabs_triang|]. replace (Q2R (8 # 100000000000000)) with (8 / 100000000000000) in D by (unfold Q2R; cbn; lra). lra.
Qed.
Lemma large95 : @large _ B (@L _ B 95 2) = true /\ @large _ B (@fneg _ B (@L _ B 95 2)) = true.
Proof.
  unfold large. split.
  - assert (G : @fle _ B (@L _ B 1 12) (@fabs _ B (@L _ B 95 2)) = true /\ @fle _ ROps (@L _ ROps 1 12) (@fabs _ ROps (@L _ ROps 95 2)) = true) by (eapply apx_le_true; [arel|arel|vm_compute; reflexivity]). apply G.
  - assert (G : @fle _ B (@L _ B 1 12) (@fabs _ B (@fneg _ B (@L _ B 95 2))) = true /\ @fle _ ROps (@L _ ROps 1 12) (@fabs _ ROps (@fneg _ ROps (@L _ ROps 95 2))) = true) by (eapply apx_le_true; [arel|arel|vm_compute; reflexivity]). apply G.
Qed.

Lemma kepler_b64h : exists E, fin E = true /\ Rabs (B2R E - r) <= 1 / 100000000000 /\
  ko_sineo1 (@sgp4_kepler _ B x y w) = @fsin _ B E /\ ko_coseo1 (@sgp4_kepler _ B x y w) = @fcos _ B E.
Proof.
  destruct (@kepler_trace _ B x y w (large_b64 lm)) as (j & J1 & -> & _ & J4). exists (@guess _ B x y w j). destruct (guess_b64h j) as [GF GE].
  split; [exact GF|]. split; [|split; reflexivity]. destruct J4 as [-> |J4]; [cbn [gh] in GE; lra|].
  set (E := @guess _ B x y w j) in *. destruct (gh_le j) as (G & _). destruct (newton_b64h E GF ltac:(lra)) as (N1 & _). unfold corr in J4. fold E in J4.
  set (c := @newton _ B x y w E) in *. set (c' := @newton R ROps _ _ _ _) in *.
  assert (LB : @limited _ B c = c).
  { destruct (limited_b64h c (proj1 N1)) as [X|[(_ & X)|(_ & X)]]; [exact X| |]; rewrite X in J4; [rewrite (proj1 large95) in J4|rewrite (proj2 large95) in J4]; discriminate. }
  rewrite LB in J4. unfold large in J4.
  assert (CL : Rabs c' < 113 / 100000000000000).
  { apply Rnot_le_lt. intros HL. assert (AH : apx (@fabs _ B c) (@fabs _ ROps c') (Eb (113 # 100000000000000) (177 # 100) 0 (71 # 1000000000000000))).
    { unfold nhB in N1. eassert (AH : apx (@fabs _ B c) (@fabs _ ROps c') _) by arel. ivl N1 IN. assert (AB : Rabs c' <= 177 / 100) by (apply Rabs_le; lra). cbn [fabs ROps] in AH |- *. ashrink AH (113 # 100000000000000)%Q (177 # 100)%Q.
      eapply apx_weaken; [exact AH|vm_compute; reflexivity..]. }
    assert (T : @fle _ B (@L _ B 1 12) (@fabs _ B c) = true /\ @fle _ ROps (@L _ ROps 1 12) (@fabs _ ROps c') = true).
    { eapply apx_le_true; [arel|exact AH|vm_compute; reflexivity]. }
    destruct T. congruence. }
  unfold c' in CL. rewrite newton_R in CL. pose proof (dkep_bounds _ _ e ltac:(lra) Hxy (B2R E)) as DB. set (d := dkep _ _ (B2R E)) in *.
  assert (RB : Rabs (B2R w - kep (B2R x) (B2R y) (B2R E)) <= 201 / 100000000000000).
  { unfold Rdiv in CL. rewrite Rabs_mult, (Rabs_pos_eq (/ d)) in CL by (left; apply Rinv_0_lt_compat; lra).
    set (n := Rabs (B2R w - kep (B2R x) (B2R y) (B2R E))) in *. assert (NE : n = n * / d * d) by (field; lra). assert (0 <= n) by (unfold n; apply Rabs_pos).
    assert (Z0 : 0 <= n * / d) by (apply Rmult_le_pos; [assumption|left; apply Rinv_0_lt_compat; lra]). set (z := n * / d) in *. clearbody z n d. rewrite NE.
    apply Rle_trans with (113 / 100000000000000 * (177 / 100)); [apply Rmult_le_compat; lra|lra]. }
  rewrite <- Hr in RB. pose proof (kep_expands (B2R x) (B2R y) e ltac:(lra) Hxy (B2R E) r) as KE. rewrite (Rabs_minus_sym r) in KE.
  pose proof (Rabs_pos (B2R E - r)). nra.
Qed.
End K.

(** the root depends on the data like this *)
Lemma root_close_high a b a' b' u u' e r r' k da db du : 0 <= e <= 77 / 100 -> a * a + b * b = e * e -> kep a b r = u -> kep a' b' r' = u' ->
  Rabs (a - a') <= da -> Rabs (b - b') <= db -> Rabs (u - (u' + 2 * PI * IZR k)) <= du ->
  Rabs (r - (r' + 2 * PI * IZR k)) <= 100 / 23 * (da + db + du).
Proof.
  intros He Hab R1 R2 Ha Hb Hu. pose proof (kep_expands a b e ltac:(lra) Hab (r' + 2 * PI * IZR k) r) as K.
  set (d := Rabs (r - _)) in *. assert (0 <= d) by (unfold d; apply Rabs_pos).
  assert (D : Rabs (kep a b r - kep a b (r' + 2 * PI * IZR k)) <= da + db + du).
  { rewrite R1. unfold kep. rewrite sin_turn, cos_turn.
    replace (u - (r' + 2 * PI * IZR k - a * sin r' + b * cos r')) with ((u - (u' + 2 * PI * IZR k)) + ((a - a') * sin r' + (b' - b) * cos r')) by (rewrite <- R2; unfold kep; ring).
    assert (S : Rabs (sin r') <= 1) by (apply Rabs_le, SIN_bound). assert (C : Rabs (cos r') <= 1) by (apply Rabs_le, COS_bound).
    eapply Rle_trans; [apply Rabs_triang|]. assert (Rabs ((a - a') * sin r' + (b' - b) * cos r') <= da + db); [|lra].
    eapply Rle_trans; [apply Rabs_triang|]. rewrite !Rabs_mult, (Rabs_minus_sym b'). pose proof (Rabs_pos (a - a')). pose proof (Rabs_pos (b - b')). pose proof (Rabs_pos (sin r')). pose proof (Rabs_pos (cos r')). nra. }
  nra.
Qed.

(** ** Both loops on neighbouring data *)
Definition kephB (A Y : eb) (U : bd) : bd := Bd (-9) 9 (upq ((100 # 23) * (eer A + eer Y + er U) + (18 # 1000000000000))).
Lemma kepler_close_high lm (ACC : accurate lm) x y w (x' y' w' : R) A Y U : apx x x' A -> apx y y' Y -> relm w w' U ->
  x' * x' + y' * y' <= (7695 / 10000) * (7695 / 10000) -> Q2R (eer A) <= 1 / 10000 -> Q2R (eer Y) <= 1 / 10000 -> Q2R (lo U) >= - (69 / 10) -> Q2R (hi U) <= 69 / 10 -> Q2R (er U) <= 1 / 100 ->
  exists E E', relm E E' (kephB A Y U) /\
    (ko_sineo1 (@sgp4_kepler _ (B64Ops lm) x y w) = @fsin _ (B64Ops lm) E /\ ko_coseo1 (@sgp4_kepler _ (B64Ops lm) x y w) = @fcos _ (B64Ops lm) E) /\
    ko_sineo1 (@sgp4_kepler _ ROps x' y' w') = sin E' /\ ko_coseo1 (@sgp4_kepler _ ROps x' y' w') = cos E'.
Proof.
  intros Hx Hy (k & Fw & Iw & Dw) EL H1 H2 H3 H4 H5. pose proof (apx_rel _ _ _ Hx) as (Fx & _ & Dx). pose proof (apx_rel _ _ _ Hy) as (Fy & _ & Dy). cbn [er] in Dx, Dy.
  set (e' := sqrt (x' * x' + y' * y')). assert (P' : 0 <= x' * x' + y' * y') by nra. pose proof (sqrt_pos (x' * x' + y' * y')) as E0'. pose proof (sqrt_sqrt _ P') as E2'. fold e' in E0', E2'.
  assert (E1' : e' <= 7695 / 10000) by nra.
  set (e := sqrt (B2R x * B2R x + B2R y * B2R y)). assert (P : 0 <= B2R x * B2R x + B2R y * B2R y) by nra. pose proof (sqrt_pos (B2R x * B2R x + B2R y * B2R y)) as E0. pose proof (sqrt_sqrt _ P) as E2. fold e in E0, E2.
  assert (E1 : e <= 77 / 100).
  { assert (Rabs (B2R x - x') <= 1 / 10000) by lra. assert (Rabs (B2R y - y') <= 1 / 10000) by lra. apply Rabs_le_inv in H, H0.
    assert (X1 : - (7695 / 10000) <= x' <= 7695 / 10000) by (split; nra). assert (Y1 : - (7695 / 10000) <= y' <= 7695 / 10000) by (split; nra).
    assert (XX : B2R x * B2R x <= x' * x' + 154 / 1000000) by nra. assert (YY : B2R y * B2R y <= y' * y' + 154 / 1000000) by nra.
    apply Rsqr_incr_0_var; [|lra]. unfold Rsqr. lra. }
  destruct (kep_root (B2R x) (B2R y) (B2R w) e ltac:(lra) (eq_sym E2)) as (r & R1 & R2).
  destruct (kep_root x' y' w' e' ltac:(lra) (eq_sym E2')) as (r' & R1' & R2').
  assert (WB : Rabs (B2R w) <= 7) by (apply Rabs_le_inv in Dw; apply Rabs_le; lra).
  destruct (kepler_b64h lm ACC x y w Fx Fy Fw WB e ltac:(lra) (eq_sym E2) r R1 R2) as (E & FE & DE & S1 & C1).
  destruct (kepler_real_high x' y' w' e' r' ltac:(lra) (eq_sym E2') R1' R2') as (E' & DE' & S1' & C1').
  pose proof (root_close_high _ _ _ _ _ _ e r r' k _ _ _ ltac:(lra) (eq_sym E2) R1 R1' Dx Dy Dw) as RC.
  exists E, E'. split; [|tauto]. exists k. split; [exact FE|]. unfold kephB. cbn [lo hi er].
  assert (D : Rabs (B2R E - (E' + 2 * PI * IZR k)) <= 100 / 23 * (Q2R (eer A) + Q2R (eer Y) + Q2R (er U)) + 18 / 1000000000000).
  { replace (B2R E - (E' + 2 * PI * IZR k)) with ((B2R E - r) + (r - (r' + 2 * PI * IZR k)) + (r' - E')) by ring.
    eapply Rle_trans; [apply Rabs_triang|]. rewrite (Rabs_minus_sym r'). apply Rle_trans with (Rabs (B2R E - r) + Rabs (r - (r' + 2 * PI * IZR k)) + Rabs (E' - r')); [apply Rplus_le_compat_r, Rabs_triang|]. lra. }
  split.
  - assert (Rabs (B2R E - (E' + 2 * PI * IZR k)) <= 1 / 10) by lra. apply Rabs_le_inv in H, DE, R2, WB. qr.
  - eapply Rle_trans; [exact D|]. eapply Rle_trans; [|apply upq_ge]. rewrite Q2R_plus, Q2R_mult, !Q2R_plus. replace (Q2R (100 # 23)) with (100 / 23) by (unfold Q2R; cbn; lra). replace (Q2R (18 # 1000000000000)) with (18 / 1000000000000) by (unfold Q2R; cbn; lra). lra.
Qed.
