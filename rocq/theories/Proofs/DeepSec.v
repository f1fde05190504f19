(** * Binary64 accuracy of the secular update of a deep-space record, up to thirty days from the epoch *)
From Coq Require Import ZArith QArith Reals Qreals Bool Lra Lia Psatz.
From Flocq Require Import Core IEEE754.BinarySingleNaN.
From Verif.Model Require Import Float Str Satrec Constants Vec3 Initl Dpper Sgp4 Sgp4init.
From Verif.Spec Require Import LibmAccuracy Sgp4Spec.
From Verif.Inst Require Import RInst RTac B64 B64Facts B64Calc ApxCalc.
From Verif.Proofs Require Import CalcFun CalcPow CalcAngle ApxFun AccInit AccNear AccSecular AccKepler AccState AccTail Sgp4Errors AccSgp4 DeepKozai DeepNear DeepMoon DeepBoot.
Local Open Scope R_scope.

Definition demB := Eb (-79 # 10000) (4279 # 10000) 0 (10 # 10 ^ 12).
Definition damB := Eb (1921 # 1000) (7022 # 1000) (37 # 10 ^ 16) 0.
Definition dnmB := Eb (399 # 100000) (28 # 1000) (67 # 10 ^ 16) 0.
Definition dsb := SB (Eb (-9) 9 0 (31 # 10 ^ 15)) (Eb (-1215) 1215 0 (20 # 10 ^ 13)) (Eb (-8) 8 0 (16 # 10 ^ 15)) (Eb (-33 # 10 ^ 6) (33 # 10 ^ 6) 0 (1 # 10 ^ 16)) (Eb (-14 # 10) (14 # 10) 0 (35 # 10 ^ 13)) demB damB dnmB.

Section S.
Context (lm : libm) (ACC : accurate lm).
Notation B := (B64Ops lm).
Definition dpost (b : sbounds) (s : Satrec b64) (s' : Satrec R) (c : @Secular b64) (c' : @Secular R) : Prop :=
  forall em em' am am' nm nm', em = @fsub _ B (@fadd _ B (sr_ecco s) (@fmul _ B (sr_dedt s) (sr_t s))) (se_tempe c) ->
  em' = @fsub _ ROps (@fadd _ ROps (sr_ecco s') (@fmul _ ROps (sr_dedt s') (sr_t s'))) (se_tempe c') -> am = @sgp4_am _ B s c -> am' = @sgp4_am _ ROps s' c' ->
  nm = @sgp4_nm _ B am -> nm' = @sgp4_nm _ ROps am' -> sec_ok b c c' em em' am am' nm nm'.
Lemma dsec_acc (s : Satrec b64) (s' : Satrec R) : sr_isimp s = 1%Z -> sr_isimp s' = 1%Z -> apx (sr_t s) (sr_t s') timeB -> deep_ok s s' ->
  dpost dsb s s' (@sgp4_secular _ B s) (@sgp4_secular _ ROps s').
Proof.
  intros I1 I2 Ht (He & Hno & Hbs & Hargpo & Hmo & Hnodeo & Hi & Hcc1 & Hcc4 & Hmdot & Hargpdot & Hnodedot & Hnodecf & Ht2cof & Hdedt).
  aconst @kXKE. aconst @kX2O3.
  match goal with |- ?G _ _ => set (PP := G) end.
  cbv beta delta [sgp4_secular]. rewrite I1, I2. change (negb (1 =? 1)%Z) with false; cbv iota. lets xmdf. lets argpdf. lets nodedf. astep. astep. lets t2. assert (0 <= t2') by (rewrite Et2; rops; apply Rle_0_sqr). acut Ht2 0%Q 1866240001%Q. lets nodem. lets tempa. lets tempe. lets templ.
  unfold PP, dpost. cbn [se_tempe]. intros em em' am am' nm nm' Eem Eem' Eam Eam' Enm Enm'. unfold sgp4_am in Eam, Eam'. cbn [se_tempa] in Eam, Eam'. cbv zeta in Eam, Eam'. unfold sgp4_nm in Enm, Enm'. cbv zeta in Enm, Enm'.
  eassert (Hem : apx em em' _) by (rewrite Eem, Eem'; arel). eassert (Ham : apx am am' _) by (rewrite Eam, Eam'; arel). eassert (Hnm : apx nm nm' _) by (rewrite Enm, Enm'; arel).
  unfold sec_ok. cbn [se_argpm se_mm se_nodem se_tempe se_templ].
  do 6 (split; [aflat|]). split; awide.
Qed.

(** the eccentricity is kept above 1e-6 *)
Definition depB := Eb (1 # 1000000) (4279 # 10000) 0 (105 # 10000000000000).
Lemma dep_acc em em' : apx em em' demB ->
  apx (if @flt _ B em (@L _ B 1 6) then @L _ B 1 6 else em) (if @flt _ ROps em' (@L _ ROps 1 6) then @L _ ROps 1 6 else em') depB.
Proof.
  intros H. pose proof (apx_rel _ _ _ H) as R. destruct R as (F & I & D). cbn [lo hi er] in *.
  assert (HL : rel (@L _ B 1 6) (@L _ ROps 1 6) (Bd (9 # 10000000) (11 # 10000000) (1 # 100000000000000000000))).
  { eapply rel_weaken; [apply (rel_lit lm 1 6); vm_compute; reflexivity|vm_compute; reflexivity..]. }
  destruct HL as (FL & IL & DL). cbn [lo hi er] in *. rewrite (lt_fin lm _ _ F FL). change (@flt _ ROps em' (@L _ ROps 1 6)) with (Rlt_bool em' (@L _ ROps 1 6)).
  assert (LV : @L _ ROps 1 6 = 1 / 1000000) by (rops; lra). set (l := @L _ ROps 1 6) in *. set (e := eer demB) in D. assert (Ev : Q2R e <= 1020 / 100000000000000). { apply Rle_trans with (Q2R (1020 # 100000000000000)); [apply qle_true; vm_compute; reflexivity|qr]. }
  change (el demB) with (-79 # 10000)%Q in I. change (eh demB) with (4279 # 10000)%Q in I. unfold Q2R in DL, I. cbn [Qnum Qden] in DL, I. assert (D' : Rabs (B2R em - em') <= 1020 / 100000000000000) by lra. apply Rabs_le_inv in D', DL. clear IL D H. clearbody l e.
  unfold depB. case Rlt_bool_spec; intros C1; case Rlt_bool_spec; intros C2;
    (split; [assumption|]; split; [cbn [el eh]; split; qr|]; cbn [rr ab]; split; [split; qr|]; rewrite Q2R_0, Rmult_0_l, Rplus_0_l; apply Rabs_le; unfold Q2R; cbn [Qnum Qden]; lra).
Qed.
Definition dmean_ok (m : @Mean b64) (m' : @Mean R) : Prop :=
  apx (mn_ep m) (mn_ep m') depB /\ relm (mn_argpp m) (mn_argpp m') (twoB (34 # 10 ^ 15)) /\ relm (mn_nodep m) (mn_nodep m') (twoB (2 # 10 ^ 14)) /\
  relm (mn_mp m) (mn_mp m') (twoB (29 # 10 ^ 13)).
Lemma dmean_acc (s : Satrec b64) (s' : Satrec R) c c' em em' am am' nm nm' : apx (sr_no s) (sr_no s') dnoB -> sec_ok dsb c c' em em' am am' nm nm' ->
  dmean_ok (@sgp4_mean _ B s c em) (@sgp4_mean _ ROps s' c' em').
Proof.
  intros Hno (Hargpm & Hmm & Hnodem & _ & Htempl & Hem & _ & _). cbn [sb_argpm sb_mm sb_nodem sb_templ sb_em dsb] in *.
  unfold sgp4_mean, dmean_ok. cbv zeta. cbn [mn_ep mn_argpp mn_nodep mn_mp]. split; [now apply dep_acc|].
  set (argpm := se_argpm c) in *. set (argpm' := se_argpm c') in *. set (nodem := se_nodem c) in *. set (nodem' := se_nodem c') in *. set (mm := se_mm c) in *. set (mm' := se_mm c') in *.
  set (templ := se_templ c) in *. set (templ' := se_templ c') in *. set (no := sr_no s) in *. set (no' := sr_no s') in *. clearbody argpm argpm' nodem nodem' mm mm' templ templ' no no'.
  split; [mwide|]. split; [mwide|].
  eassert (Hml : apx (@fadd _ B mm (@fmul _ B no templ)) (@fadd _ ROps mm' (@fmul _ ROps no' templ')) _) by arel.
  mwide.
Qed.
End S.
