(** * Binary64 accuracy of the secular update of the record of a highly eccentric orbit, up to thirty days from the epoch *)
From Coq Require Import ZArith QArith Reals Qreals Bool Lra Lia Psatz.
From Flocq Require Import Core IEEE754.BinarySingleNaN.
From Verif.Model Require Import Float Str Satrec Constants Vec3 Initl Dpper Sgp4 Sgp4init.
From Verif.Spec Require Import LibmAccuracy Sgp4Spec.
From Verif.Inst Require Import RInst RTac B64 B64Facts B64Calc ApxCalc.
From Verif.Proofs Require Import CalcFun CalcPow CalcAngle ApxFun AccInit AccNear AccSecular AccKepler AccState AccTail Sgp4Errors AccSgp4 DeepKozai DeepNear DeepMoon DeepBoot DeepSec HighKozai HighNear HighMoon HighBoot.
Local Open Scope R_scope.

Definition hemB := Eb (38116 # 10 ^ 5) (76385 # 10 ^ 5) 0 (23 # 10 ^ 12).
Definition hamB := Eb (18832 # 10 ^ 4) (71664 # 10 ^ 4) (39 # 10 ^ 14) 0.
Definition hnmB := Eb (38764 # 10 ^ 7) (28776 # 10 ^ 6) (58 # 10 ^ 14) 0.
Definition hsb := SB (Eb (-9) 9 0 (36 # 10 ^ 15)) (Eb (-1215) 1215 0 (18 # 10 ^ 13)) (Eb (-8) 8 0 (54 # 10 ^ 14)) (Eb (-96 # 10 ^ 4) (96 # 10 ^ 4) 0 (21 # 10 ^ 14)) (Eb (-648) 648 0 (13 # 10 ^ 9)) hemB hamB hnmB.

Section S.
Context (lm : libm) (ACC : accurate lm).
Notation B := (B64Ops lm).
Definition hpost (b : sbounds) (s : Satrec b64) (s' : Satrec R) (c : @Secular b64) (c' : @Secular R) : Prop :=
  forall em em' am am' nm nm', em = @fsub _ B (@fadd _ B (sr_ecco s) (@fmul _ B (sr_dedt s) (sr_t s))) (se_tempe c) ->
  em' = @fsub _ ROps (@fadd _ ROps (sr_ecco s') (@fmul _ ROps (sr_dedt s') (sr_t s'))) (se_tempe c') -> am = @sgp4_am _ B s c -> am' = @sgp4_am _ ROps s' c' ->
  nm = @sgp4_nm _ B am -> nm' = @sgp4_nm _ ROps am' -> sec_ok b c c' em em' am am' nm nm'.
Lemma hsec_acc (s : Satrec b64) (s' : Satrec R) : sr_isimp s = 1%Z -> sr_isimp s' = 1%Z -> apx (sr_t s) (sr_t s') timeB -> high_ok s s' ->
  hpost hsb s s' (@sgp4_secular _ B s) (@sgp4_secular _ ROps s').
Proof.
  intros I1 I2 Ht (He & Hno & Hbs & Hargpo & Hmo & Hnodeo & Hi & Hcc1 & Hcc4 & Hmdot & Hargpdot & Hnodedot & Hnodecf & Ht2cof & Hdedt).
  aconst @kXKE. aconst @kX2O3.
  match goal with |- ?G _ _ => set (PP := G) end.
  cbv beta delta [sgp4_secular]. rewrite I1, I2. change (negb (1 =? 1)%Z) with false; cbv iota. lets xmdf. lets argpdf. lets nodedf. astep. astep. lets t2. assert (0 <= t2') by (rewrite Et2; rops; apply Rle_0_sqr). acut Ht2 0%Q 1866240001%Q. lets nodem. lets tempa. lets tempe. lets templ.
  unfold PP, hpost. cbn [se_tempe]. intros em em' am am' nm nm' Eem Eem' Eam Eam' Enm Enm'. unfold sgp4_am in Eam, Eam'. cbn [se_tempa] in Eam, Eam'. cbv zeta in Eam, Eam'. unfold sgp4_nm in Enm, Enm'. cbv zeta in Enm, Enm'.
  eassert (Hem : apx em em' _) by (rewrite Eem, Eem'; arel). eassert (Ham : apx am am' _) by (rewrite Eam, Eam'; arel). eassert (Hnm : apx nm nm' _) by (rewrite Enm, Enm'; arel).
  unfold sec_ok. cbn [se_argpm se_mm se_nodem se_tempe se_templ].
  do 6 (split; [aflat|]). split; awide.
Qed.

(** the eccentricity stays far above 1e-6 *)
Lemma hep_acc em em' : apx em em' hemB ->
  apx (if @flt _ B em (@L _ B 1 6) then @L _ B 1 6 else em) (if @flt _ ROps em' (@L _ ROps 1 6) then @L _ ROps 1 6 else em') hemB.
Proof.
  intros H. assert (F : @flt _ B em (@L _ B 1 6) = false /\ @flt _ ROps em' (@L _ ROps 1 6) = false) by (eapply apx_lt_false; [exact H|arel|vm_compute; reflexivity]).
  destruct F as [F1 F2]. rewrite F1, F2. exact H.
Qed.
Definition hmean_ok (m : @Mean b64) (m' : @Mean R) : Prop :=
  apx (mn_ep m) (mn_ep m') hemB /\ relm (mn_argpp m) (mn_argpp m') (twoB (37 # 10 ^ 15)) /\ relm (mn_nodep m) (mn_nodep m') (twoB (55 # 10 ^ 14)) /\
  relm (mn_mp m) (mn_mp m') (twoB (38 # 10 ^ 11)).
Lemma hmean_acc (s : Satrec b64) (s' : Satrec R) c c' em em' am am' nm nm' : apx (sr_no s) (sr_no s') hnoB -> sec_ok hsb c c' em em' am am' nm nm' ->
  hmean_ok (@sgp4_mean _ B s c em) (@sgp4_mean _ ROps s' c' em').
Proof.
  intros Hno (Hargpm & Hmm & Hnodem & _ & Htempl & Hem & _ & _). cbn [sb_argpm sb_mm sb_nodem sb_templ sb_em hsb] in *.
  unfold sgp4_mean, hmean_ok. cbv zeta. cbn [mn_ep mn_argpp mn_nodep mn_mp]. split; [now apply hep_acc|].
  set (argpm := se_argpm c) in *. set (argpm' := se_argpm c') in *. set (nodem := se_nodem c) in *. set (nodem' := se_nodem c') in *. set (mm := se_mm c) in *. set (mm' := se_mm c') in *.
  set (templ := se_templ c) in *. set (templ' := se_templ c') in *. set (no := sr_no s) in *. set (no' := sr_no s') in *. clearbody argpm argpm' nodem nodem' mm mm' templ templ' no no'.
  split; [mwide|]. split; [mwide|].
  eassert (Hml : apx (@fadd _ B mm (@fmul _ B no templ)) (@fadd _ ROps mm' (@fmul _ ROps no' templ')) _) by arel.
  mwide.
Qed.
End S.
