(** * Binary64 accuracy of one propagation of a highly eccentric orbit *)
From Coq Require Import ZArith QArith Reals Qreals Bool Lra Lia Psatz.
From Flocq Require Import Core IEEE754.BinarySingleNaN.
From Verif.Model Require Import Float Str Satrec Constants Vec3 Initl Dpper Sgp4 Sgp4init.
From Verif.Spec Require Import LibmAccuracy Vectors3 Sgp4Spec StateSpec NearAccuracy.
From Verif.Inst Require Import RInst RTac B64 B64Facts B64Calc ApxCalc.
From Verif.Proofs Require Import CalcFun CalcPow ApxFun AccInit AccNear AccSecular AccKepler AccState AccTail Sgp4Errors StateFacts AccSgp4 DeepKozai DeepNear DeepMoon DeepBoot DeepSec DeepPer DeepTail DeepRun HighKozai HighNear HighMoon HighBoot HighSec HighPer HighTail.
Local Open Scope R_scope.

(** fields of the intermediate records *)
Lemma hkin_elim a b c a' b' c' : hkin_ok (MkKeplerIn a b c) (MkKeplerIn a' b' c') ->
  apx a a' haxB /\ apx b b' hayvB /\ relm c c' huB /\ a' * a' + b' * b' <= 7654 / 10000 * (7654 / 10000).
Proof. intros H. exact H. Qed.
Lemma hmean_elim a b c d a' b' c' d' : hmean_ok (MkMean a b c d) (MkMean a' b' c' d') -> apx a a' hemB /\ relm c c' (twoB (55 # 10 ^ 14)).
Proof. intros (H0 & _ & H & _). split; [exact H0|exact H]. Qed.
Lemma hosc_elim a b c d e f a' b' c' d' e' f' : hosc_ok (MkOsc a b c d e f) (MkOsc a' b' c' d' e' f') -> apx a a' hmrB.
Proof. intros (H & _). exact H. Qed.

Lemma vec_speed350 v v' A : vec_ok v v' A -> el A = (-200)%Q -> eh A = 200%Q -> Vectors3.norm v' <= 350.
Proof.
  intros ((_ & I1 & _) & (_ & I2 & _) & (_ & I3 & _)) L H. rewrite L, H in I1, I2, I3. unfold Q2R in I1, I2, I3. cbn -[IZR] in I1, I2, I3.
  unfold Vectors3.norm, Vectors3.dot. apply Rle_trans with (sqrt (350 * 350)); [|rewrite sqrt_square; lra]. apply sqrt_le_1_alt.
  assert (SQ : forall d, - (200) <= d <= 200 -> d * d <= 200 * 200) by (intros; nra). pose proof (SQ (v_x v') ltac:(lra)). pose proof (SQ (v_y v') ltac:(lra)). pose proof (SQ (v_z v') ltac:(lra)). lra.
Qed.
Section S.
Context (lm : libm) (ACC : accurate lm).
Notation B := (B64Ops lm).

Lemma high_secular s s' t t' : high_rec lm s s' -> apx t t' timeB ->
  sec_ok hsb (@sgp4_secular _ B (st t s)) (@sgp4_secular _ ROps (st t' s')) (@ecc_at _ B s t) (@ecc_at _ ROps s' t') (@a_at _ B s t) (@a_at _ ROps s' t') (@n_at _ B s t) (@n_at _ ROps s' t').
Proof.
  intros ((M & M') & (I & I') & H & _) Ht.
  assert (E : @ecc_at _ B s t = @fsub _ B (@fadd _ B (sr_ecco (st t s)) (@fmul _ B (sr_dedt (st t s)) (sr_t (st t s)))) (se_tempe (@sgp4_secular _ B (st t s)))).
  { rewrite secular_spec. cbn [se_tempe]. unfold ecc_at. rewrite (deep_true s M). reflexivity. }
  assert (E' : @ecc_at _ ROps s' t' = @fsub _ ROps (@fadd _ ROps (sr_ecco (st t' s')) (@fmul _ ROps (sr_dedt (st t' s')) (sr_t (st t' s')))) (se_tempe (@sgp4_secular _ ROps (st t' s')))).
  { rewrite secular_spec. cbn [se_tempe]. unfold ecc_at. rewrite (deep_true s' M'). reflexivity. }
  pose proof (am_spec (FO := B) t s) as A. pose proof (am_spec (FO := ROps) t' s') as A'.
  pose proof (nm_spec (FO := B) s t) as N. pose proof (nm_spec (FO := ROps) s' t') as N'.
  apply (hsec_acc lm ACC (st t s) (st t' s') I I' Ht H); [exact E|exact E'|symmetry; exact A|symmetry; exact A'|symmetry; exact N|symmetry; exact N'].
Qed.
Lemma high_mean s s' t t' : high_rec lm s s' -> apx t t' timeB ->
  hmean_ok (@mn _ B s t) (@mn _ ROps s' t') /\ apx (@a_at _ B s t) (@a_at _ ROps s' t') hamB /\ apx (@n_at _ B s t) (@n_at _ ROps s' t') hnmB /\ apx (@ecc_at _ B s t) (@ecc_at _ ROps s' t') hemB.
Proof.
  intros H Ht. pose proof (high_secular _ _ _ _ H Ht) as HS. destruct H as (_ & _ & (_ & Hno & _) & _).
  pose proof (hmean_acc lm (st t s) (st t' s') _ _ _ _ _ _ _ _ Hno HS) as HM. rewrite !mean_def in HM.
  destruct HS as (_ & _ & _ & _ & _ & Hem & Ham & Hnm). split; [exact HM|]. split; [exact Ham|]. split; [exact Hnm|exact Hem].
Qed.
Lemma high_incl s s' t t' : high_rec lm s s' -> apx t t' timeB -> apx (@incl_at _ B s t) (@incl_at _ ROps s' t') hinB.
Proof.
  intros ((M & M') & _ & (_ & _ & _ & _ & _ & _ & Hi & _) & HM) Ht.
  exact (hincl_acc lm ACC s s' t t' (deep_true s M) (deep_true s' M') Hi HM Ht).
Qed.
Lemma high_pecc s s' t t' : high_rec lm s s' -> apx t t' timeB -> apx (pr_ep (@periodics _ B s t)) (pr_ep (@periodics _ ROps s' t')) hppB.
Proof.
  intros H Ht. destruct (high_mean _ _ _ _ H Ht) as (HM & _). unfold mn in HM. apply hmean_elim in HM. destruct H as (_ & _ & _ & HP).
  exact (hpecc_acc lm ACC s s' t t' (proj1 HM) HP Ht).
Qed.
Lemma high_coefs s s' t t' : high_rec lm s s' -> apx t t' timeB ->
  apx (@aycof_at _ B s t) (@aycof_at _ ROps s' t') hayB /\ apx (@xlcof_at _ B s t) (@xlcof_at _ ROps s' t') hxlB /\
  apx (@con41_at _ B s t) (@con41_at _ ROps s' t') h41B /\ apx (@x1mth2_at _ B s t) (@x1mth2_at _ ROps s' t') h1mB /\ apx (@x7thm1_at _ B s t) (@x7thm1_at _ ROps s' t') h7mB.
Proof.
  intros H Ht. pose proof (high_incl _ _ _ _ H Ht) as Hi. destruct H as ((M & M') & _).
  unfold aycof_at, xlcof_at, con41_at, x1mth2_at, x7thm1_at. rewrite (deep_true s M), (deep_true s' M'). cbv zeta.
  destruct (hsc_acc lm ACC _ _ Hi) as (Hs & Hc). exact (hcoef_acc lm _ _ _ _ Hs Hc).
Qed.
Lemma high_kin s s' t t' : high_rec lm s s' -> apx t t' timeB ->
  apx (@axn _ B s t) (@axn _ ROps s' t') haxB /\ apx (@ayn _ B s t) (@ayn _ ROps s' t') hayvB /\ relm (@u_at _ B s t) (@u_at _ ROps s' t') huB /\
  @axn _ ROps s' t' * @axn _ ROps s' t' + @ayn _ ROps s' t' * @ayn _ ROps s' t' <= 7654 / 10000 * (7654 / 10000).
Proof.
  intros H Ht. destruct (high_mean _ _ _ _ H Ht) as (HM & Ham & _). destruct (high_coefs _ _ _ _ H Ht) as (Hay & Hxl & _).
  rewrite <- (long_aycof (FO := B)), <- (long_aycof (FO := ROps)) in Hay. rewrite <- (long_xlcof (FO := B)), <- (long_xlcof (FO := ROps)) in Hxl.
  pose proof (hkin_acc lm ACC _ _ _ _ _ _ HM Ham Hay Hxl) as HK.
  rewrite (kepler_in_spec (FO := B)), (kepler_in_spec (FO := ROps)) in HK. exact (hkin_elim _ _ _ _ _ _ HK).
Qed.
Lemma high_short s s' t t' : high_rec lm s s' -> apx t t' timeB ->
  apx (@semi_latus _ B s t) (@semi_latus _ ROps s' t') hplB /\ hshq_ok (@qq _ B s t) (@qq _ ROps s' t').
Proof.
  intros H Ht. destruct (high_kin _ _ _ _ H Ht) as (Hax & Hay & Hu & EL). destruct (high_mean _ _ _ _ H Ht) as (_ & Ham & _).
  pose proof (hshort_acc lm ACC _ _ _ _ _ _ _ _ Hax Hay Hu EL Ham) as P. cbv zeta in P. rewrite !kepler_def in P. rewrite !pl_def, !shortq_spec in P. exact P.
Qed.
Lemma high_state s s' t t' : high_rec lm s s' -> apx t t' timeB ->
  apx (@radius _ B s t) (@radius _ ROps s' t') hmrB /\
  vec_ok (@position_at _ B s t) (@position_at _ ROps s' t') hposB /\ vec_ok (@velocity_at _ B s t) (@velocity_at _ ROps s' t') hvelB.
Proof.
  intros H Ht. destruct (high_short _ _ _ _ H Ht) as (_ & Hq). destruct (high_mean _ _ _ _ H Ht) as (HM & _ & Hnm & _). unfold mn in HM. apply hmean_elim in HM. destruct HM as (_ & HM).
  destruct (high_coefs _ _ _ _ H Ht) as (_ & _ & H41 & H1 & H7). pose proof (high_incl _ _ _ _ H Ht) as Hi. clear H Ht.
  rewrite <- (incl_con41 (FO := B)), <- (incl_con41 (FO := ROps)) in H41. rewrite <- (incl_x1mth2 (FO := B)), <- (incl_x1mth2 (FO := ROps)) in H1. rewrite <- (incl_x7thm1 (FO := B)), <- (incl_x7thm1 (FO := ROps)) in H7.
  pose proof (hosc_acc lm ACC _ _ _ _ _ _ _ _ _ _ Hq H41 H1 H7 HM Hi Hnm) as HO.
  rewrite (osc_spec (FO := B)), (osc_spec (FO := ROps)) in HO.
  pose proof (hposvel_acc lm ACC _ _ HO) as HP. rewrite !posvel_spec in HP. apply vec_elim in HP.
  rewrite !radius_osc. split; [exact (hosc_elim _ _ _ _ _ _ _ _ _ _ _ _ HO)|exact HP].
Qed.

(** ** the outcome of a call *)
Lemma high_run fuel s s' t t' s1 res : high_rec lm s s' -> apx t t' timeB -> @sgp4 _ B fuel s t = Done (s1, res) ->
  (@radius _ ROps s' t' <= 1 - 1 / 50000000 -> res = Err DecayCondition) /\
  (1 + 1 / 50000000 <= @radius _ ROps s' t' -> exists v, res = Ok v /\ @radius _ ROps s' t' <= 127 / 10 /\
      close (26 / 10000) (g4_position v) (@position_at _ ROps s' t') /\ close (32 / 10000000) (g4_velocity v) (@velocity_at _ ROps s' t') /\
      Vectors3.norm (@velocity_at _ ROps s' t') <= 350).
Proof.
  intros H Ht G. destruct (high_mean _ _ _ _ H Ht) as (_ & _ & _ & He). destruct (high_short _ _ _ _ H Ht) as (Hp & _). destruct (high_state _ _ _ _ H Ht) as (Hr & HP & HV).
  pose proof (high_pecc _ _ _ _ H Ht) as Hpe.
  pose proof (sgp4_errors _ _ _ _ _ G) as FE. pose proof (sgp4_state (FO := B) fuel s t s1) as ST.
  destruct H as ((M & M') & _ & (_ & Hno & _) & _). assert (D : @deep b64 s = true) by exact (deep_true s M).
  unfold first_error in FE. assert (BM : @bad_motion _ B s = false).
  { unfold bad_motion. assert (K : @fle _ B (sr_no s) (@L _ B 0 0) = false /\ @fle _ ROps (sr_no s') (@L _ ROps 0 0) = false) by (eapply apx_le_false; [arel|arel|vm_compute; reflexivity]). exact (proj1 K). }
  rewrite BM in FE.
  assert (BL : @bad_latus _ B s t = false).
  { unfold bad_latus. assert (K : @flt _ B (@semi_latus _ B s t) (@L _ B 0 0) = false /\ @flt _ ROps (@semi_latus _ ROps s' t') (@L _ ROps 0 0) = false) by (eapply apx_lt_false; [exact Hp|arel|vm_compute; reflexivity]). exact (proj1 K). }
  rewrite BL in FE.
  assert (BE : forall x : bool, (@fle _ B (@L _ B 1 0) (@ecc_at _ B s t) || x)%bool = x).
  { intros x. assert (K : @fle _ B (@L _ B 1 0) (@ecc_at _ B s t) = false /\ @fle _ ROps (@L _ ROps 1 0) (@ecc_at _ ROps s' t') = false) by (eapply apx_le_false; [arel|exact He|vm_compute; reflexivity]). now rewrite (proj1 K). }
  assert (BP : forall x : bool, (x || @flt _ B (@L _ B 1 0) (pr_ep (@periodics _ B s t)))%bool = x).
  { intros x. assert (K : @flt _ B (@L _ B 1 0) (pr_ep (@periodics _ B s t)) = false /\ @flt _ ROps (@L _ ROps 1 0) (pr_ep (@periodics _ ROps s' t')) = false) by (eapply apx_lt_false; [arel|exact Hpe|vm_compute; reflexivity]). rewrite (proj1 K). apply orb_false_r. }
  unfold bad_perturbed_ecc in FE. rewrite D, BP in FE. cbn [andb] in FE. unfold bad_ecc in FE. rewrite BE in FE.
  assert (BE2 : @flt _ B (@ecc_at _ B s t) (@fneg _ B (@L _ B 1 3)) = false).
  { assert (K : @flt _ B (@ecc_at _ B s t) (@fneg _ B (@L _ B 1 3)) = false /\ @flt _ ROps (@ecc_at _ ROps s' t') (@fneg _ ROps (@L _ ROps 1 3)) = false) by (eapply apx_lt_false; [exact He|arel|vm_compute; reflexivity]). exact (proj1 K). }
  assert (BP2 : @flt _ B (pr_ep (@periodics _ B s t)) (@L _ B 0 0) = false).
  { assert (K : @flt _ B (pr_ep (@periodics _ B s t)) (@L _ B 0 0) = false /\ @flt _ ROps (pr_ep (@periodics _ ROps s' t')) (@L _ ROps 0 0) = false) by (eapply apx_lt_false; [exact Hpe|arel|vm_compute; reflexivity]). exact (proj1 K). }
  rewrite BE2, BP2 in FE. unfold decayed in FE.
  pose proof Hr as (_ & IR & _). cbn [el eh hmrB] in IR. set (r' := @radius _ ROps s' t') in *.
  split; intros LR.
  - assert (K : @flt _ B (@radius _ B s t) (@L _ B 1 0) = true /\ @flt _ ROps r' (@L _ ROps 1 0) = true).
    { eapply apx_lt_true; [apply (apx_between _ _ _ (el hmrB) (49999999 # 50000000) Hr); split; [exact (proj1 IR)|qr]|arel|vm_compute; reflexivity]. }
    rewrite (proj1 K) in FE. exact FE.
  - assert (K : @flt _ B (@radius _ B s t) (@L _ B 1 0) = false /\ @flt _ ROps r' (@L _ ROps 1 0) = false).
    { eapply apx_lt_false; [apply (apx_between _ _ _ (50000001 # 50000000) (eh hmrB) Hr); split; [qr|exact (proj2 IR)]|arel|vm_compute; reflexivity]. }
    rewrite (proj1 K) in FE. destruct FE as [v ->]. exists v. split; [reflexivity|].
    split. { eapply Rle_trans; [exact (proj2 IR)|]. unfold Q2R. cbn [Qnum Qden]. change (10 ^ 4)%positive with 10000%positive. lra. }
    destruct (ST v G) as [-> _]. cbn [g4_position g4_velocity]. pose proof (vec_speed350 _ _ _ HV eq_refl eq_refl) as SV. apply vec_close in HP, HV. replace (26 / 10000) with (Q2R (26 # 10 ^ 4)) by (unfold Q2R; cbn; lra).
    replace (32 / 10000000) with (Q2R (32 # 10 ^ 7)) by (unfold Q2R; cbn; lra). split; [exact HP|]. split; [exact HV|exact SV].
Qed.
End S.
