(** * Binary64 accuracy of one propagation *)
From Coq Require Import ZArith QArith Reals Qreals Bool Lra Lia Psatz.
From Flocq Require Import Core IEEE754.BinarySingleNaN.
From Verif.Model Require Import Float Str Satrec Constants Vec3 Initl Sgp4 Sgp4init.
From Verif.Spec Require Import LibmAccuracy Vectors3 Sgp4Spec StateSpec NearAccuracy.
From Verif.Inst Require Import RInst RTac B64 B64Facts B64Calc ApxCalc.
From Verif.Proofs Require Import CalcFun CalcPow ApxFun AccInit AccNear AccSecular AccKepler AccState AccTail Sgp4Errors StateFacts.
Local Open Scope R_scope.

(** what a propagation needs of the record: the periodic part, the mean motion, and the outcome of the secular update *)
Definition per_ok (s : Satrec b64) (s' : Satrec R) : Prop :=
  apx (sr_aycof s) (sr_aycof s') (nb_aycof nb1) /\ apx (sr_xlcof s) (sr_xlcof s') (nb_xlcof nb1) /\ apx (sr_con41 s) (sr_con41 s') con41B /\
  apx (sr_x1mth2 s) (sr_x1mth2 s') (nb_x1mth2 nb1) /\ apx (sr_x7thm1 s) (sr_x7thm1 s') (nb_x7thm1 nb1) /\ apx (sr_inclo s) (sr_inclo s') in_inc.
(** fields of the intermediate records *)
Lemma kin_elim a b c a' b' c' : kin_ok (MkKeplerIn a b c) (MkKeplerIn a' b' c') ->
  apx a a' axB /\ apx b b' ayB /\ relm c c' uB /\ a' * a' + b' * b' <= 4605 / 10000 * (4605 / 10000).
Proof. intros H. exact H. Qed.
Lemma mean_elim a b c d a' b' c' d' : mean_ok (MkMean a b c d) (MkMean a' b' c' d') -> relm c c' (twoB (31 # 10 ^ 14)).
Proof. intros (_ & _ & H & _). exact H. Qed.
Lemma osc_elim a b c d e f a' b' c' d' e' f' : osc_ok (MkOsc a b c d e f) (MkOsc a' b' c' d' e' f') -> apx a a' mrB.
Proof. intros (H & _). exact H. Qed.
Lemma vec_elim p v p' v' P V : vec_ok (g4_position (MkSGP4Result p v)) (g4_position (MkSGP4Result p' v')) P /\ vec_ok (g4_velocity (MkSGP4Result p v)) (g4_velocity (MkSGP4Result p' v')) V ->
  vec_ok p p' P /\ vec_ok v v' V.
Proof. intros H. exact H. Qed.

Lemma apx_close x a l h e : apx x a (Eb l h 0 e) -> is_finite x = true /\ Rabs (B2R x - a) <= Q2R e.
Proof. intros (F & _ & _ & E). cbn [rr ab] in E. rewrite Q2R_0 in E. split; [exact F|lra]. Qed.
Lemma vec_close v v' l h e : vec_ok v v' (Eb l h 0 e) -> close (Q2R e) v v'.
Proof. intros (H1 & H2 & H3). split; [exact (apx_close _ _ _ _ _ H1)|]. split; [exact (apx_close _ _ _ _ _ H2)|exact (apx_close _ _ _ _ _ H3)]. Qed.
Lemma vec_speed v v' A : vec_ok v v' A -> el A = (-100)%Q -> eh A = 100%Q -> Vectors3.norm v' <= 175.
Proof.
  intros ((_ & I1 & _) & (_ & I2 & _) & (_ & I3 & _)) L H. rewrite L, H in I1, I2, I3. unfold Q2R in I1, I2, I3. cbn -[IZR] in I1, I2, I3.
  unfold Vectors3.norm, dot. apply Rle_trans with (sqrt (175 * 175)); [|rewrite sqrt_square; lra]. apply sqrt_le_1_alt.
  assert (SQ : forall d, - (100) <= d <= 100 -> d * d <= 100 * 100) by (intros; nra). pose proof (SQ (v_x v') ltac:(lra)). pose proof (SQ (v_y v') ltac:(lra)). pose proof (SQ (v_z v') ltac:(lra)). lra.
Qed.

Section S.
Context (lm : libm) (ACC : accurate lm).
Notation B := (B64Ops lm).

Definition near_rec (s : Satrec b64) (s' : Satrec R) (t : b64) (t' : R) : Prop :=
  sr_method s = MethodN /\ sr_method s' = MethodN /\ per_ok s s' /\ apx (sr_no s) (sr_no s') noB /\
  sec_ok sbC (@sgp4_secular _ B (st t s)) (@sgp4_secular _ ROps (st t' s')) (@ecc_at _ B s t) (@ecc_at _ ROps s' t') (@a_at _ B s t) (@a_at _ ROps s' t') (@n_at _ B s t) (@n_at _ ROps s' t').
Lemma near_secular b s s' t t' : sr_method s = MethodN -> sr_method s' = MethodN ->
  (forall c c' em em' am am' nm nm', sec_ok b c c' em em' am am' nm nm' -> sec_ok sbC c c' em em' am am' nm nm') ->
  sec_post lm b (st t s) (st t' s') (@sgp4_secular _ B (st t s)) (@sgp4_secular _ ROps (st t' s')) ->
  sec_ok sbC (@sgp4_secular _ B (st t s)) (@sgp4_secular _ ROps (st t' s')) (@ecc_at _ B s t) (@ecc_at _ ROps s' t') (@a_at _ B s t) (@a_at _ ROps s' t') (@n_at _ B s t) (@n_at _ ROps s' t').
Proof.
  intros M M' HC P.
  assert (E : @ecc_at _ B s t = @fsub _ B (sr_ecco (st t s)) (se_tempe (@sgp4_secular _ B (st t s)))).
  { rewrite secular_spec. cbn [se_tempe]. unfold ecc_at, deep. rewrite M. reflexivity. }
  assert (E' : @ecc_at _ ROps s' t' = @fsub _ ROps (sr_ecco (st t' s')) (se_tempe (@sgp4_secular _ ROps (st t' s')))).
  { rewrite secular_spec. cbn [se_tempe]. unfold ecc_at, deep. rewrite M'. reflexivity. }
  pose proof (am_spec (FO := B) t s) as A. pose proof (am_spec (FO := ROps) t' s') as A'.
  pose proof (nm_spec (FO := B) s t) as N. pose proof (nm_spec (FO := ROps) s' t') as N'.
  apply HC. apply P; [exact E|exact E'|symmetry; exact A|symmetry; exact A'|symmetry; exact N|symmetry; exact N'].
Qed.

Lemma near_mean s s' t t' : near_rec s s' t t' ->
  mean_ok (@mn _ B s t) (@mn _ ROps s' t') /\ apx (@a_at _ B s t) (@a_at _ ROps s' t') amB /\ apx (@n_at _ B s t) (@n_at _ ROps s' t') nmB /\ apx (@ecc_at _ B s t) (@ecc_at _ ROps s' t') (sb_em sbC).
Proof.
  intros (_ & _ & _ & Hno & HS).
  pose proof (mean_acc lm (st t s) (st t' s') _ _ _ _ _ _ _ _ Hno HS) as HM. rewrite !mean_def in HM.
  destruct HS as (_ & _ & _ & _ & _ & Hem & Ham & Hnm). split; [exact HM|]. split; [exact Ham|]. split; [exact Hnm|exact Hem].
Qed.
Lemma kin_N {F} (FO : FloatOps F) (s : Satrec F) t : sr_method s = MethodN -> sgp4_kepler_in (st t s) (mn s t) (a_at s t) = MkKeplerIn (axn s t) (ayn s t) (u_at s t).
Proof. intros M. rewrite <- kepler_in_spec. unfold sgp4_long. change (sr_method (st t s)) with (sr_method s). rewrite M. reflexivity. Qed.
Lemma near_kin s s' t t' : near_rec s s' t t' ->
  apx (@axn _ B s t) (@axn _ ROps s' t') axB /\ apx (@ayn _ B s t) (@ayn _ ROps s' t') ayB /\ relm (@u_at _ B s t) (@u_at _ ROps s' t') uB /\
  @axn _ ROps s' t' * @axn _ ROps s' t' + @ayn _ ROps s' t' * @ayn _ ROps s' t' <= 4605 / 10000 * (4605 / 10000).
Proof.
  intros H. destruct (near_mean _ _ _ _ H) as (HM & Ham & _). destruct H as (M & M' & (Hay & Hxl & _) & _).
  pose proof (kin_acc lm ACC (st t s) (st t' s') _ _ _ _ HM Ham Hay Hxl) as HK.
  rewrite (kin_N B s t M), (kin_N ROps s' t' M') in HK. exact (kin_elim _ _ _ _ _ _ HK).
Qed.
Lemma near_short s s' t t' : near_rec s s' t t' ->
  apx (@semi_latus _ B s t) (@semi_latus _ ROps s' t') plB /\ shq_ok (@qq _ B s t) (@qq _ ROps s' t').
Proof.
  intros H. destruct (near_kin _ _ _ _ H) as (Hax & Hay & Hu & EL). destruct (near_mean _ _ _ _ H) as (_ & Ham & _).
  pose proof (short_acc lm ACC _ _ _ _ _ _ _ _ Hax Hay Hu EL Ham) as P. cbv zeta in P. rewrite !kepler_def in P. rewrite !pl_def, !shortq_spec in P. exact P.
Qed.
Lemma osc_N {F} (FO : FloatOps F) (s : Satrec F) t : sr_method s = MethodN ->
  sgp4_osc (st t s) (qq s t) (node_red s t) (sr_inclo s) (fsin (sr_inclo s)) (fcos (sr_inclo s)) (n_at s t) =
  MkOsc (StateSpec.osc_radius s t) (osc_arglat s t) (osc_node s t) (osc_incl s t) (osc_rdot s t) (osc_rfdot s t).
Proof.
  intros M. assert (I : incl_at s t = sr_inclo s) by (unfold incl_at, deep; rewrite M; reflexivity).
  rewrite <- osc_spec, I. unfold sgp4_incl_consts, sgp4_long. change (sr_method (st t s)) with (sr_method s). rewrite M. cbn [method_eqb]. change (sr_method (st t s)) with (sr_method s). rewrite M. reflexivity.
Qed.
Lemma near_state s s' t t' : near_rec s s' t t' ->
  apx (@radius _ B s t) (@radius _ ROps s' t') mrB /\
  vec_ok (@position_at _ B s t) (@position_at _ ROps s' t') posB /\ vec_ok (@velocity_at _ B s t) (@velocity_at _ ROps s' t') velB.
Proof.
  intros H. destruct (near_short _ _ _ _ H) as (_ & Hq). destruct (near_mean _ _ _ _ H) as (HM & _ & Hnm & _). unfold mn in HM. apply mean_elim in HM.
  destruct H as (M & M' & (_ & _ & H41 & H1 & H7 & Hi) & _).
  pose proof (osc_acc lm ACC (st t s) (st t' s') _ _ _ _ _ _ _ _ Hq H41 H1 H7 HM Hi Hnm) as HO.
  rewrite (osc_N B s t M), (osc_N ROps s' t' M') in HO.
  pose proof (posvel_acc lm ACC _ _ HO) as HP. rewrite !posvel_spec in HP. apply vec_elim in HP.
  rewrite !radius_osc. split; [exact (osc_elim _ _ _ _ _ _ _ _ _ _ _ _ HO)|exact HP].
Qed.

(** ** the outcome of a call *)
Lemma apx_between x a A l h : apx x a A -> Q2R l <= a <= Q2R h -> apx x a (Eb l h (rr A) (ab A)).
Proof. intros (F & _ & P & E) I. split; [exact F|]. split; [exact I|]. split; [exact P|exact E]. Qed.
Lemma near_run fuel s s' t t' s1 res : near_rec s s' t t' -> @sgp4 _ B fuel s t = Done (s1, res) ->
  (@ecc_at _ ROps s' t' <= - (1 / 1000) - 1 / 1000000000 -> res = Err Eccentricty) /\
  (- (1 / 1000) + 1 / 1000000000 <= @ecc_at _ ROps s' t' ->
    @radius _ ROps s' t' <= 305 / 100 /\
    (@radius _ ROps s' t' <= 1 - 1 / 100000000 -> res = Err DecayCondition) /\
    (1 + 1 / 100000000 <= @radius _ ROps s' t' -> exists v, res = Ok v /\
      close (12 / 100000) (g4_position v) (@position_at _ ROps s' t') /\ close (2 / 10000000) (g4_velocity v) (@velocity_at _ ROps s' t') /\
      Vectors3.norm (@velocity_at _ ROps s' t') <= 175)).
Proof.
  intros H G. destruct (near_mean _ _ _ _ H) as (_ & _ & _ & He). destruct (near_short _ _ _ _ H) as (Hp & _). destruct (near_state _ _ _ _ H) as (Hr & HP & HV).
  pose proof H as (_ & _ & _ & Hno & _). pose proof (sgp4_errors _ _ _ _ _ G) as FE. pose proof (sgp4_state (FO := B) fuel s t s1) as ST.
  assert (D : @deep b64 s = false) by (unfold deep; rewrite (proj1 H); reflexivity). clear H.
  unfold first_error in FE. assert (BM : @bad_motion _ B s = false).
  { unfold bad_motion. assert (K : @fle _ B (sr_no s) (@L _ B 0 0) = false /\ @fle _ ROps (sr_no s') (@L _ ROps 0 0) = false) by (eapply apx_le_false; [arel|arel|vm_compute; reflexivity]). exact (proj1 K). }
  rewrite BM in FE.
  assert (BP : @bad_perturbed_ecc _ B s t = false) by (unfold bad_perturbed_ecc; rewrite D; reflexivity).
  rewrite BP in FE. assert (BL : @bad_latus _ B s t = false).
  { unfold bad_latus. assert (K : @flt _ B (@semi_latus _ B s t) (@L _ B 0 0) = false /\ @flt _ ROps (@semi_latus _ ROps s' t') (@L _ ROps 0 0) = false) by (eapply apx_lt_false; [exact Hp|arel|vm_compute; reflexivity]). exact (proj1 K). }
  rewrite BL in FE.
  assert (BE : forall x : bool, (@fle _ B (@L _ B 1 0) (@ecc_at _ B s t) || x)%bool = x).
  { intros x. assert (K : @fle _ B (@L _ B 1 0) (@ecc_at _ B s t) = false /\ @fle _ ROps (@L _ ROps 1 0) (@ecc_at _ ROps s' t') = false) by (eapply apx_le_false; [arel|exact He|vm_compute; reflexivity]). now rewrite (proj1 K). }
  pose proof He as (_ & IE & _). pose proof Hr as (_ & IR & _). cbn [el eh sb_em sbC mrB] in IE, IR. set (e' := @ecc_at _ ROps s' t') in *. set (r' := @radius _ ROps s' t') in *.
  split.
  - intros LE. assert (K : @flt _ B (@ecc_at _ B s t) (@fneg _ B (@L _ B 1 3)) = true /\ @flt _ ROps e' (@fneg _ ROps (@L _ ROps 1 3)) = true).
    { eapply apx_lt_true; [apply (apx_between _ _ _ (-22 # 1000) (-1000001 # 1000000000) He); split; [exact (proj1 IE)|qr]|arel|vm_compute; reflexivity]. }
    unfold bad_ecc in FE. rewrite BE, (proj1 K) in FE. exact FE.
  - intros LE. assert (K : @flt _ B (@ecc_at _ B s t) (@fneg _ B (@L _ B 1 3)) = false /\ @flt _ ROps e' (@fneg _ ROps (@L _ ROps 1 3)) = false).
    { eapply apx_lt_false; [apply (apx_between _ _ _ (-999999 # 1000000000) (4547 # 10000) He); split; [qr|exact (proj2 IE)]|arel|vm_compute; reflexivity]. }
    unfold bad_ecc in FE. rewrite BE, (proj1 K) in FE. clear K. split; [eapply Rle_trans; [exact (proj2 IR)|qr]|]. split; intros LR.
    + assert (K : @flt _ B (@radius _ B s t) (@L _ B 1 0) = true /\ @flt _ ROps r' (@L _ ROps 1 0) = true).
      { eapply apx_lt_true; [apply (apx_between _ _ _ (51 # 100) (99999999 # 100000000) Hr); split; [exact (proj1 IR)|qr]|arel|vm_compute; reflexivity]. }
      unfold decayed in FE. rewrite (proj1 K) in FE. exact FE.
    + assert (K : @flt _ B (@radius _ B s t) (@L _ B 1 0) = false /\ @flt _ ROps r' (@L _ ROps 1 0) = false).
      { eapply apx_lt_false; [apply (apx_between _ _ _ (100000001 # 100000000) (305 # 100) Hr); split; [qr|exact (proj2 IR)]|arel|vm_compute; reflexivity]. }
      unfold decayed in FE. rewrite (proj1 K) in FE. destruct FE as [v ->]. exists v. split; [reflexivity|].
      destruct (ST v G) as [-> _]. cbn [g4_position g4_velocity]. assert (SP := vec_speed _ _ _ HV eq_refl eq_refl). apply vec_close in HP, HV. replace (12 / 100000) with (Q2R (12 # 10 ^ 5)) by (unfold Q2R; cbn; lra).
      replace (2 / 10000000) with (Q2R (20 # 10 ^ 8)) by (unfold Q2R; cbn; lra). split; [exact HP|]. split; [exact HV|exact SP].
Qed.
End S.
