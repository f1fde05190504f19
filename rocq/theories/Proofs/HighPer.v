(** * Binary64 accuracy of the lunar-solar periodics of highly eccentric orbits: eccentricity and inclination *)
From Coq Require Import ZArith QArith Reals Qreals Bool Lra Lia Psatz.
From Flocq Require Import Core IEEE754.BinarySingleNaN.
From Verif.Model Require Import Float Str Satrec Constants Vec3 Initl Dpper Sgp4 Sgp4init.
From Verif.Spec Require Import LibmAccuracy Sgp4Spec.
From Verif.Inst Require Import RInst RTac B64 B64Facts B64Calc ApxCalc.
From Verif.Proofs Require Import CalcFun CalcPow CalcAngle ApxFun AccInit AccNear AccSecular AccKepler AccState AccTail Sgp4Errors AccSgp4 DeepKozai DeepNear DeepMoon DeepBoot DeepSec DeepPer HighKozai HighNear HighMoon HighBoot HighSec.
Local Open Scope R_scope.

Definition hpeB := Eb (-665 # 10 ^ 5) (665 # 10 ^ 5) 0 (24 # 10 ^ 12).
Definition hpiB := Eb (-299 # 10 ^ 4) (299 # 10 ^ 4) 0 (56 # 10 ^ 12).
Definition hinB := Eb 0 (283 # 100) 0 (59 # 10 ^ 12).
Definition hppB := Eb (3745 # 10000) (7706 # 10000) 0 (98 # 10 ^ 12).
Section S.
Context (lm : libm) (ACC : accurate lm).
Notation B := (B64Ops lm).
Lemma hwv_acc a a' b b' z z' X C ze E : relm z z' (Bd (-15) 15 ze) -> apx a a' X -> apx b b' X ->
  ((ze = 8 # 10 ^ 11 /\ E = 83 # 10 ^ 12)%Q /\ (X = hseB \/ X = hsiB)) \/ ((ze = 12 # 10 ^ 10 /\ E = 123 # 10 ^ 11)%Q /\ (X = heeB \/ X = hxiB)) ->
  C = Eb (el X * (50001 # 100000)) (eh X * (50001 # 100000)) 0 (ab X + eh X * (E * (202 # 100))) -> apx (@wv _ B a b z) (@wv _ ROps a' b' z') C.
Proof.
  intros Hz Ha Hb HX ->. unfold wv. pose proof (relm_sin_apx lm ACC _ _ _ _ Hz eq_refl) as Hs. pose proof (relm_cos_apx lm ACC _ _ _ _ Hz eq_refl) as Hc.
  pose proof (sin2_cos2 z') as SC. unfold Rsqr in SC.
  assert (RS : @fsin _ ROps z' = sin z') by (rops; reflexivity). assert (RC : @fcos _ ROps z' = cos z') by (rops; reflexivity). rewrite <- RS, <- RC in SC.
  set (sn := @fsin _ B z) in *. set (cs := @fcos _ B z) in *. set (sn' := @fsin _ ROps z') in *. set (cs' := @fcos _ ROps z') in *. clearbody sn cs sn' cs'.
  assert (W : apx (@fsub _ B (@fmul _ B (@fmul _ B (@L _ B 5 1) sn) sn) (@L _ B 25 2)) (@fsub _ ROps (@fmul _ ROps (@fmul _ ROps (@L _ ROps 5 1) sn') sn') (@L _ ROps 25 2)) (Eb (-25 # 100) (25 # 100) 0 E) /\
    apx (@fmul _ B (@fmul _ B (@fneg _ B (@L _ B 5 1)) sn) cs) (@fmul _ ROps (@fmul _ ROps (@fneg _ ROps (@L _ ROps 5 1)) sn') cs') (Eb (-25 # 100) (25 # 100) 0 E)).
  { destruct HX as [((-> & ->) & _)|((-> & ->) & _)].
    - apply (wv_fac lm _ _ _ _ (Eb (-1) 1 0 (81 # 10 ^ 12))); [eapply apx_weaken; [exact Hs|vm_compute; reflexivity..]|eapply apx_weaken; [exact Hc|vm_compute; reflexivity..]|exact SC|left; split; reflexivity].
    - apply (wv_fac lm _ _ _ _ (Eb (-1) 1 0 (121 # 10 ^ 11))); [eapply apx_weaken; [exact Hs|vm_compute; reflexivity..]|eapply apx_weaken; [exact Hc|vm_compute; reflexivity..]|exact SC|right; split; reflexivity]. }
  clear Hs Hc RS RC SC. destruct W as (H2 & H3).
  set (f2 := @fsub _ B _ _) in *. set (f2' := @fsub _ ROps _ _) in *. set (f3 := @fmul _ B (@fmul _ B _ sn) cs) in *. set (f3' := @fmul _ ROps (@fmul _ ROps _ sn') cs') in *. clearbody f2 f2' f3 f3'.
  destruct HX as [((-> & ->) & [-> | ->])|((-> & ->) & [-> | ->])]; aflat.
Qed.

Lemma hper_acc (s : Satrec b64) (s' : Satrec R) t t' : hmoon_ok lm s s' -> apx t t' timeB ->
  apx (@fsub _ B (@pe_of _ B s t) (sr_peo s)) (@fsub _ ROps (@pe_of _ ROps s' t') (sr_peo s')) hpeB /\
  apx (@fsub _ B (@pi_of _ B s t) (sr_pinco s)) (@fsub _ ROps (@pi_of _ ROps s' t') (sr_pinco s')) hpiB.
Proof.
  intros (D1 & D2 & D3 & D4 & D5 & D6 & D7 & D8 & Z1 & Z2 & P1 & P2 & P3 & P4) Ht. rewrite P1, P2, P3, P4. unfold pe_of, pi_of. clear P1 P2 P3 P4.
  pose proof (zf_solar lm ACC _ _ _ _ Z2 Ht) as HS. pose proof (zf_lunar lm ACC _ _ _ _ Z1 Ht) as HM.
  set (zs := @zfg _ B (sr_zmos s) _ _ _) in *. set (zl := @zfg _ B (sr_zmol s) _ _ _) in *. set (zs' := @zfg _ ROps (sr_zmos s') _ _ _) in *. set (zl' := @zfg _ ROps (sr_zmol s') _ _ _) in *. clearbody zs zl zs' zl'.
  pose proof (hwv_acc _ _ _ _ _ _ hseB _ _ (83 # 10 ^ 12) HS D1 D2 ltac:(tauto) eq_refl) as W1. pose proof (hwv_acc _ _ _ _ _ _ hsiB _ _ (83 # 10 ^ 12) HS D3 D4 ltac:(tauto) eq_refl) as W2.
  pose proof (hwv_acc _ _ _ _ _ _ heeB _ _ (123 # 10 ^ 11) HM D5 D6 ltac:(tauto) eq_refl) as W3. pose proof (hwv_acc _ _ _ _ _ _ hxiB _ _ (123 # 10 ^ 11) HM D7 D8 ltac:(tauto) eq_refl) as W4.
  split; aflat.
Qed.
Lemma hincl_acc (s : Satrec b64) (s' : Satrec R) t t' : deep s = true -> deep s' = true -> apx (sr_inclo s) (sr_inclo s') din_inc -> hmoon_ok lm s s' -> apx t t' timeB ->
  apx (@incl_at _ B s t) (@incl_at _ ROps s' t') hinB.
Proof.
  intros D D' Hi HM Ht. destruct (hper_acc s s' t t' HM Ht) as (_ & P). unfold incl_at. rewrite D, D'. cbv zeta.
  rewrite (proj2 (per_kept (FO := B) s t)), (proj2 (per_kept (FO := ROps) s' t')).
  set (d := @fsub _ B _ _) in *. set (d' := @fsub _ ROps _ _) in *. clearbody d d'.
  eassert (A : apx (@fadd _ B (sr_inclo s) d) (@fadd _ ROps (sr_inclo s') d') (Eb (-30 # 1000) (283 # 100) 0 (59 # 10 ^ 12))) by aflat.
  set (x := @fadd _ B _ _) in *. set (x' := @fadd _ ROps _ _) in *. clearbody x x'.
  eapply (abs_acc lm); [exact A|vm_compute; reflexivity..].
Qed.
Lemma hpecc_acc (s : Satrec b64) (s' : Satrec R) t t' : apx (@ecc_used _ B s t) (@ecc_used _ ROps s' t') hemB -> hmoon_ok lm s s' -> apx t t' timeB ->
  apx (pr_ep (@periodics _ B s t)) (pr_ep (@periodics _ ROps s' t')) hppB.
Proof.
  intros He HM Ht. destruct (hper_acc s s' t t' HM Ht) as (P & _).
  rewrite (proj1 (per_kept (FO := B) s t)), (proj1 (per_kept (FO := ROps) s' t')). aflat.
Qed.
End S.
