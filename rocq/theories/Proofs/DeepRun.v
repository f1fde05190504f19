(** * Binary64 accuracy of one deep-space propagation *)
From Coq Require Import ZArith QArith Reals Qreals Bool Lra Lia Psatz.
From Flocq Require Import Core IEEE754.BinarySingleNaN.
From Verif.Model Require Import Float Str Satrec Constants Vec3 Initl Dpper Sgp4 Sgp4init.
From Verif.Spec Require Import LibmAccuracy Vectors3 Sgp4Spec StateSpec NearAccuracy.
From Verif.Inst Require Import RInst RTac B64 B64Facts B64Calc ApxCalc.
From Verif.Proofs Require Import CalcFun CalcPow ApxFun AccInit AccNear AccSecular AccKepler AccState AccTail Sgp4Errors StateFacts AccSgp4 DeepKozai DeepNear DeepMoon DeepBoot DeepSec DeepPer DeepTail.
Local Open Scope R_scope.

(** fields of the intermediate records *)
Lemma dkin_elim a b c a' b' c' : dkin_ok (MkKeplerIn a b c) (MkKeplerIn a' b' c') ->
  apx a a' daxB /\ apx b b' dayvB /\ relm c c' duB /\ a' * a' + b' * b' <= 4287 / 10000 * (4287 / 10000).
Proof. intros H. exact H. Qed.
Lemma dmean_elim a b c d a' b' c' d' : dmean_ok (MkMean a b c d) (MkMean a' b' c' d') -> apx a a' depB /\ relm c c' (twoB (2 # 10 ^ 14)).
Proof. intros (H0 & _ & H & _). split; [exact H0|exact H]. Qed.
Lemma dosc_elim a b c d e f a' b' c' d' e' f' : dosc_ok (MkOsc a b c d e f) (MkOsc a' b' c' d' e' f') -> apx a a' dmrB.
Proof. intros (H & _). exact H. Qed.

Section S.
Context (lm : libm) (ACC : accurate lm).
Notation B := (B64Ops lm).

Lemma deep_true {F} (s : Satrec F) : sr_method s = MethodD -> deep s = true.
Proof. intros M. unfold deep. now rewrite M. Qed.

Lemma deep_secular s s' t t' : deep_rec lm s s' -> apx t t' timeB ->
  sec_ok dsb (@sgp4_secular _ B (st t s)) (@sgp4_secular _ ROps (st t' s')) (@ecc_at _ B s t) (@ecc_at _ ROps s' t') (@a_at _ B s t) (@a_at _ ROps s' t') (@n_at _ B s t) (@n_at _ ROps s' t').
Proof.
  intros ((M & M') & (I & I') & H & _) Ht.
  assert (E : @ecc_at _ B s t = @fsub _ B (@fadd _ B (sr_ecco (st t s)) (@fmul _ B (sr_dedt (st t s)) (sr_t (st t s)))) (se_tempe (@sgp4_secular _ B (st t s)))).
  { rewrite secular_spec. cbn [se_tempe]. unfold ecc_at. rewrite (deep_true s M). reflexivity. }
  assert (E' : @ecc_at _ ROps s' t' = @fsub _ ROps (@fadd _ ROps (sr_ecco (st t' s')) (@fmul _ ROps (sr_dedt (st t' s')) (sr_t (st t' s')))) (se_tempe (@sgp4_secular _ ROps (st t' s')))).
  { rewrite secular_spec. cbn [se_tempe]. unfold ecc_at. rewrite (deep_true s' M'). reflexivity. }
  pose proof (am_spec (FO := B) t s) as A. pose proof (am_spec (FO := ROps) t' s') as A'.
  pose proof (nm_spec (FO := B) s t) as N. pose proof (nm_spec (FO := ROps) s' t') as N'.
  apply (dsec_acc lm ACC (st t s) (st t' s') I I' Ht H); [exact E|exact E'|symmetry; exact A|symmetry; exact A'|symmetry; exact N|symmetry; exact N'].
Qed.
Lemma deep_mean s s' t t' : deep_rec lm s s' -> apx t t' timeB ->
  dmean_ok (@mn _ B s t) (@mn _ ROps s' t') /\ apx (@a_at _ B s t) (@a_at _ ROps s' t') damB /\ apx (@n_at _ B s t) (@n_at _ ROps s' t') dnmB /\ apx (@ecc_at _ B s t) (@ecc_at _ ROps s' t') demB.
Proof.
  intros H Ht. pose proof (deep_secular _ _ _ _ H Ht) as HS. destruct H as (_ & _ & (_ & Hno & _) & _).
  pose proof (dmean_acc lm (st t s) (st t' s') _ _ _ _ _ _ _ _ Hno HS) as HM. rewrite !mean_def in HM.
  destruct HS as (_ & _ & _ & _ & _ & Hem & Ham & Hnm). split; [exact HM|]. split; [exact Ham|]. split; [exact Hnm|exact Hem].
Qed.
Lemma deep_incl s s' t t' : deep_rec lm s s' -> apx t t' timeB -> apx (@incl_at _ B s t) (@incl_at _ ROps s' t') dinB.
Proof.
  intros ((M & M') & _ & (_ & _ & _ & _ & _ & _ & Hi & _) & HM) Ht.
  exact (incl_acc lm ACC s s' t t' (deep_true s M) (deep_true s' M') Hi HM Ht).
Qed.
Lemma deep_pecc s s' t t' : deep_rec lm s s' -> apx t t' timeB -> apx (pr_ep (@periodics _ B s t)) (pr_ep (@periodics _ ROps s' t')) dppB.
Proof.
  intros H Ht. destruct (deep_mean _ _ _ _ H Ht) as (HM & _). unfold mn in HM. apply dmean_elim in HM. destruct H as (_ & _ & _ & HP).
  exact (pecc_acc lm ACC s s' t t' (proj1 HM) HP Ht).
Qed.
Lemma deep_coefs s s' t t' : deep_rec lm s s' -> apx t t' timeB ->
  apx (@aycof_at _ B s t) (@aycof_at _ ROps s' t') dayB /\ apx (@xlcof_at _ B s t) (@xlcof_at _ ROps s' t') dxlB /\
  apx (@con41_at _ B s t) (@con41_at _ ROps s' t') d41B /\ apx (@x1mth2_at _ B s t) (@x1mth2_at _ ROps s' t') d1mB /\ apx (@x7thm1_at _ B s t) (@x7thm1_at _ ROps s' t') d7mB.
Proof.
  intros H Ht. pose proof (deep_incl _ _ _ _ H Ht) as Hi. destruct H as ((M & M') & _).
  unfold aycof_at, xlcof_at, con41_at, x1mth2_at, x7thm1_at. rewrite (deep_true s M), (deep_true s' M'). cbv zeta.
  destruct (dsc_acc lm ACC _ _ Hi) as (Hs & Hc). exact (dcoef_acc lm _ _ _ _ Hs Hc).
Qed.
Lemma deep_kin s s' t t' : deep_rec lm s s' -> apx t t' timeB ->
  apx (@axn _ B s t) (@axn _ ROps s' t') daxB /\ apx (@ayn _ B s t) (@ayn _ ROps s' t') dayvB /\ relm (@u_at _ B s t) (@u_at _ ROps s' t') duB /\
  @axn _ ROps s' t' * @axn _ ROps s' t' + @ayn _ ROps s' t' * @ayn _ ROps s' t' <= 4287 / 10000 * (4287 / 10000).
Proof.
  intros H Ht. destruct (deep_mean _ _ _ _ H Ht) as (HM & Ham & _). destruct (deep_coefs _ _ _ _ H Ht) as (Hay & Hxl & _).
  rewrite <- (long_aycof (FO := B)), <- (long_aycof (FO := ROps)) in Hay. rewrite <- (long_xlcof (FO := B)), <- (long_xlcof (FO := ROps)) in Hxl.
  pose proof (dkin_acc lm ACC _ _ _ _ _ _ HM Ham Hay Hxl) as HK.
  rewrite (kepler_in_spec (FO := B)), (kepler_in_spec (FO := ROps)) in HK. exact (dkin_elim _ _ _ _ _ _ HK).
Qed.
Lemma deep_short s s' t t' : deep_rec lm s s' -> apx t t' timeB ->
  apx (@semi_latus _ B s t) (@semi_latus _ ROps s' t') dplB /\ dshq_ok (@qq _ B s t) (@qq _ ROps s' t').
Proof.
  intros H Ht. destruct (deep_kin _ _ _ _ H Ht) as (Hax & Hay & Hu & EL). destruct (deep_mean _ _ _ _ H Ht) as (_ & Ham & _).
  pose proof (dshort_acc lm ACC _ _ _ _ _ _ _ _ Hax Hay Hu EL Ham) as P. cbv zeta in P. rewrite !kepler_def in P. rewrite !pl_def, !shortq_spec in P. exact P.
Qed.
Lemma deep_state s s' t t' : deep_rec lm s s' -> apx t t' timeB ->
  apx (@radius _ B s t) (@radius _ ROps s' t') dmrB /\
  vec_ok (@position_at _ B s t) (@position_at _ ROps s' t') dposB /\ vec_ok (@velocity_at _ B s t) (@velocity_at _ ROps s' t') dvelB.
Proof.
  intros H Ht. destruct (deep_short _ _ _ _ H Ht) as (_ & Hq). destruct (deep_mean _ _ _ _ H Ht) as (HM & _ & Hnm & _). unfold mn in HM. apply dmean_elim in HM. destruct HM as (_ & HM).
  destruct (deep_coefs _ _ _ _ H Ht) as (_ & _ & H41 & H1 & H7). pose proof (deep_incl _ _ _ _ H Ht) as Hi. clear H Ht.
  rewrite <- (incl_con41 (FO := B)), <- (incl_con41 (FO := ROps)) in H41. rewrite <- (incl_x1mth2 (FO := B)), <- (incl_x1mth2 (FO := ROps)) in H1. rewrite <- (incl_x7thm1 (FO := B)), <- (incl_x7thm1 (FO := ROps)) in H7.
  pose proof (dosc_acc lm ACC _ _ _ _ _ _ _ _ _ _ Hq H41 H1 H7 HM Hi Hnm) as HO.
  rewrite (osc_spec (FO := B)), (osc_spec (FO := ROps)) in HO.
  pose proof (dposvel_acc lm ACC _ _ HO) as HP. rewrite !posvel_spec in HP. apply vec_elim in HP.
  rewrite !radius_osc. split; [exact (dosc_elim _ _ _ _ _ _ _ _ _ _ _ _ HO)|exact HP].
Qed.

(** ** the outcome of a call *)
Lemma deep_run fuel s s' t t' s1 res : deep_rec lm s s' -> apx t t' timeB -> @sgp4 _ B fuel s t = Done (s1, res) ->
  (@ecc_at _ ROps s' t' <= - (1 / 1000) - 1 / 1000000000 -> res = Err Eccentricty) /\
  (- (1 / 1000) + 1 / 1000000000 <= @ecc_at _ ROps s' t' ->
    (pr_ep (@periodics _ ROps s' t') <= - (1 / 1000000000) -> res = Err Ep) /\
    (1 / 1000000000 <= pr_ep (@periodics _ ROps s' t') -> exists v, res = Ok v /\
      109 / 100 <= @radius _ ROps s' t' <= 1005 / 100 /\
      close (14 / 100000) (g4_position v) (@position_at _ ROps s' t') /\ close (6 / 100000000) (g4_velocity v) (@velocity_at _ ROps s' t') /\
      Vectors3.norm (@velocity_at _ ROps s' t') <= 175)).
Proof.
  intros H Ht G. destruct (deep_mean _ _ _ _ H Ht) as (_ & _ & _ & He). destruct (deep_short _ _ _ _ H Ht) as (Hp & _). destruct (deep_state _ _ _ _ H Ht) as (Hr & HP & HV).
  pose proof (deep_pecc _ _ _ _ H Ht) as Hpe.
  pose proof (sgp4_errors _ _ _ _ _ G) as FE. pose proof (sgp4_state (FO := B) fuel s t s1) as ST.
  destruct H as ((M & M') & _ & (_ & Hno & _) & _). assert (D : @deep b64 s = true) by exact (deep_true s M).
  unfold first_error in FE. assert (BM : @bad_motion _ B s = false).
  { unfold bad_motion. assert (K : @fle _ B (sr_no s) (@L _ B 0 0) = false /\ @fle _ ROps (sr_no s') (@L _ ROps 0 0) = false) by (eapply apx_le_false; [arel|arel|vm_compute; reflexivity]). exact (proj1 K). }
  rewrite BM in FE.
  assert (BL : @bad_latus _ B s t = false).
  { unfold bad_latus. assert (K : @flt _ B (@semi_latus _ B s t) (@L _ B 0 0) = false /\ @flt _ ROps (@semi_latus _ ROps s' t') (@L _ ROps 0 0) = false) by (eapply apx_lt_false; [exact Hp|arel|vm_compute; reflexivity]). exact (proj1 K). }
  rewrite BL in FE.
  assert (BR : @decayed _ B s t = false).
  { unfold decayed. assert (K : @flt _ B (@radius _ B s t) (@L _ B 1 0) = false /\ @flt _ ROps (@radius _ ROps s' t') (@L _ ROps 1 0) = false) by (eapply apx_lt_false; [exact Hr|arel|vm_compute; reflexivity]). exact (proj1 K). }
  rewrite BR in FE.
  assert (BE : forall x : bool, (@fle _ B (@L _ B 1 0) (@ecc_at _ B s t) || x)%bool = x).
  { intros x. assert (K : @fle _ B (@L _ B 1 0) (@ecc_at _ B s t) = false /\ @fle _ ROps (@L _ ROps 1 0) (@ecc_at _ ROps s' t') = false) by (eapply apx_le_false; [arel|exact He|vm_compute; reflexivity]). now rewrite (proj1 K). }
  assert (BP : forall x : bool, (x || @flt _ B (@L _ B 1 0) (pr_ep (@periodics _ B s t)))%bool = x).
  { intros x. assert (K : @flt _ B (@L _ B 1 0) (pr_ep (@periodics _ B s t)) = false /\ @flt _ ROps (@L _ ROps 1 0) (pr_ep (@periodics _ ROps s' t')) = false) by (eapply apx_lt_false; [arel|exact Hpe|vm_compute; reflexivity]). rewrite (proj1 K). apply orb_false_r. }
  unfold bad_perturbed_ecc in FE. rewrite D, BP in FE. cbn [andb] in FE. unfold bad_ecc in FE. rewrite BE in FE.
  pose proof He as (_ & IE & _). pose proof Hr as (_ & IR & _). pose proof Hpe as (_ & IP & _). cbn [el eh demB dmrB dppB] in IE, IR, IP.
  set (e' := @ecc_at _ ROps s' t') in *. set (r' := @radius _ ROps s' t') in *. set (p' := pr_ep (@periodics _ ROps s' t')) in *.
  split.
  - intros LE. assert (K : @flt _ B (@ecc_at _ B s t) (@fneg _ B (@L _ B 1 3)) = true /\ @flt _ ROps e' (@fneg _ ROps (@L _ ROps 1 3)) = true).
    { eapply apx_lt_true; [apply (apx_between _ _ _ (-79 # 10000) (-1000001 # 1000000000) He); split; [exact (proj1 IE)|qr]|arel|vm_compute; reflexivity]. }
    rewrite (proj1 K) in FE. exact FE.
  - intros LE. assert (K : @flt _ B (@ecc_at _ B s t) (@fneg _ B (@L _ B 1 3)) = false /\ @flt _ ROps e' (@fneg _ ROps (@L _ ROps 1 3)) = false).
    { eapply apx_lt_false; [apply (apx_between _ _ _ (-999999 # 1000000000) (4279 # 10000) He); split; [qr|exact (proj2 IE)]|arel|vm_compute; reflexivity]. }
    rewrite (proj1 K) in FE. clear K. split; intros LR.
    + assert (K : @flt _ B (pr_ep (@periodics _ B s t)) (@L _ B 0 0) = true /\ @flt _ ROps p' (@L _ ROps 0 0) = true).
      { eapply apx_lt_true; [apply (apx_between _ _ _ (el dppB) (-1 # 1000000000) Hpe); split; [exact (proj1 IP)|qr]|arel|vm_compute; reflexivity]. }
      rewrite (proj1 K) in FE. exact FE.
    + assert (K : @flt _ B (pr_ep (@periodics _ B s t)) (@L _ B 0 0) = false /\ @flt _ ROps p' (@L _ ROps 0 0) = false).
      { eapply apx_lt_false; [apply (apx_between _ _ _ (1 # 1000000000) (eh dppB) Hpe); split; [qr|exact (proj2 IP)]|arel|vm_compute; reflexivity]. }
      rewrite (proj1 K) in FE. destruct FE as [v ->]. exists v. split; [reflexivity|].
      split. { clear - IR. unfold Q2R in IR. cbn [Qnum Qden] in IR. lra. }
      destruct (ST v G) as [-> _]. cbn [g4_position g4_velocity]. assert (SP := vec_speed _ _ _ HV eq_refl eq_refl). apply vec_close in HP, HV. replace (14 / 100000) with (Q2R (14 # 10 ^ 5)) by (unfold Q2R; cbn; lra).
      replace (6 / 100000000) with (Q2R (60 # 10 ^ 9)) by (unfold Q2R; cbn; lra). split; [exact HP|]. split; [exact HV|exact SP].
Qed.
End S.
