(** * Binary64 accuracy of the lunar-solar periodics that reach the state: eccentricity and inclination *)
From Coq Require Import ZArith QArith Reals Qreals Bool Lra Lia Psatz.
From Flocq Require Import Core IEEE754.BinarySingleNaN.
From Verif.Model Require Import Float Str Satrec Constants Vec3 Initl Dpper Sgp4 Sgp4init.
From Verif.Spec Require Import LibmAccuracy Sgp4Spec.
From Verif.Inst Require Import RInst RTac B64 B64Facts B64Calc ApxCalc.
From Verif.Proofs Require Import CalcFun CalcPow CalcAngle ApxFun AccInit AccNear AccSecular AccKepler AccState AccTail Sgp4Errors AccSgp4 DeepKozai DeepNear DeepMoon DeepBoot DeepSec.
Local Open Scope R_scope.

Section G.
Context {F : Type} {FO : FloatOps F}.
Definition zfg (zm n e t : F) : F := let z := fadd zm (fmul n t) in fadd z (fmul (fmul (L 2 0) e) (fsin z)).
Definition wv (a b zf : F) : F := fadd (fmul a (fsub (fmul (fmul (L 5 1) (fsin zf)) (fsin zf)) (L 25 2))) (fmul b (fmul (fmul (fneg (L 5 1)) (fsin zf)) (fcos zf))).
Definition pe_of (s : Satrec F) (t : F) : F :=
  fadd (wv (sr_se2 s) (sr_se3 s) (zfg (sr_zmos s) dpper_ZNS dpper_ZES t)) (wv (sr_ee2 s) (sr_e3 s) (zfg (sr_zmol s) dpper_ZNL dpper_ZEL t)).
Definition pi_of (s : Satrec F) (t : F) : F :=
  fadd (wv (sr_si2 s) (sr_si3 s) (zfg (sr_zmos s) dpper_ZNS dpper_ZES t)) (wv (sr_xi2 s) (sr_xi3 s) (zfg (sr_zmol s) dpper_ZNL dpper_ZEL t)).
Lemma dpper_kept (s : Satrec F) o : po_init o = InitN ->
  pr_ep (dpper s o) = fadd (po_ep o) (fsub (pe_of s (sr_t s)) (sr_peo s)) /\ pr_inclp (dpper s o) = fadd (po_inclp o) (fsub (pi_of s (sr_t s)) (sr_pinco s)).
Proof.
  intros I. unfold dpper. rewrite I. cbv zeta. cbn [init_eqb].
  match goal with |- context [if ?b then _ else _] => destruct b end; (split; reflexivity).
Qed.
Lemma per_kept (s : Satrec F) t :
  pr_ep (periodics s t) = fadd (ecc_used s t) (fsub (pe_of s t) (sr_peo s)) /\ pr_inclp (periodics s t) = fadd (sr_inclo s) (fsub (pi_of s t) (sr_pinco s)).
Proof. unfold periodics. match goal with |- context [dpper _ ?o] => exact (dpper_kept (set_t t s) o eq_refl) end. Qed.
End G.

Definition peB := Eb (-9 # 1000) (9 # 1000) 0 (21 # 10 ^ 12).
Definition piB := Eb (-12 # 1000) (12 # 1000) 0 (20 # 10 ^ 12).
Definition dinB := Eb 0 (28121 # 10000) 0 (22 # 10 ^ 12).
Definition dppB := Eb (-9 # 1000) (437 # 1000) 0 (33 # 10 ^ 12).
Section S.
Context (lm : libm) (ACC : accurate lm).
Notation B := (B64Ops lm).
Lemma zf_solar zm (zm' : R) t t' : relm zm zm' zsB -> apx t t' timeB -> relm (@zfg _ B zm (@dpper_ZNS _ B) (@dpper_ZES _ B) t) (@zfg _ ROps zm' (@dpper_ZNS _ ROps) (@dpper_ZES _ ROps) t') (Bd (-15) 15 (8 # 10 ^ 11)).
Proof.
  intros Hz Ht. unfold zfg, dpper_ZNS, dpper_ZES. cbv zeta.
  eassert (Hn : apx (@fmul _ B (@L _ B 119459 10) t) (@fmul _ ROps (@L _ ROps 119459 10) t') _) by arel.
  eassert (Hm : relm (@fadd _ B zm (@fmul _ B (@L _ B 119459 10) t)) (@fadd _ ROps zm' (@fmul _ ROps (@L _ ROps 119459 10) t')) _) by mrel.
  set (z := @fadd _ B zm _) in *. set (z' := @fadd _ ROps zm' _) in *. clearbody z z'.
  pose proof (relm_sin_apx lm ACC _ _ _ _ Hm eq_refl) as Hs.
  eassert (Hk : apx (@fmul _ B (@fmul _ B (@L _ B 2 0) (@L _ B 1675 5)) (@fsin _ B z)) (@fmul _ ROps (@fmul _ ROps (@L _ ROps 2 0) (@L _ ROps 1675 5)) (@fsin _ ROps z')) _) by arel.
  mwide.
Qed.
Lemma zf_lunar zm (zm' : R) t t' : relm zm zm' zmB -> apx t t' timeB -> relm (@zfg _ B zm (@dpper_ZNL _ B) (@dpper_ZEL _ B) t) (@zfg _ ROps zm' (@dpper_ZNL _ ROps) (@dpper_ZEL _ ROps) t') (Bd (-15) 15 (12 # 10 ^ 10)).
Proof.
  intros Hz Ht. unfold zfg, dpper_ZNL, dpper_ZEL. cbv zeta.
  eassert (Hn : apx (@fmul _ B (@L _ B 15835218 11) t) (@fmul _ ROps (@L _ ROps 15835218 11) t') _) by arel.
  eassert (Hm : relm (@fadd _ B zm (@fmul _ B (@L _ B 15835218 11) t)) (@fadd _ ROps zm' (@fmul _ ROps (@L _ ROps 15835218 11) t')) _) by mrel.
  set (z := @fadd _ B zm _) in *. set (z' := @fadd _ ROps zm' _) in *. clearbody z z'.
  pose proof (relm_sin_apx lm ACC _ _ _ _ Hm eq_refl) as Hs.
  eassert (Hk : apx (@fmul _ B (@fmul _ B (@L _ B 2 0) (@L _ B 549 4)) (@fsin _ B z)) (@fmul _ ROps (@fmul _ ROps (@L _ ROps 2 0) (@L _ ROps 549 4)) (@fsin _ ROps z')) _) by arel.
  mwide.
Qed.
(** a wave: both factors lie between -1/4 and 1/4 *)
Lemma wv_fac sn (sn' : R) cs (cs' : R) S E : apx sn sn' S -> apx cs cs' S -> sn' * sn' + cs' * cs' = 1 ->
  (S = Eb (-1) 1 0 (81 # 10 ^ 12) /\ E = (83 # 10 ^ 12)%Q) \/ (S = Eb (-1) 1 0 (121 # 10 ^ 11) /\ E = (123 # 10 ^ 11)%Q) ->
  apx (@fsub _ B (@fmul _ B (@fmul _ B (@L _ B 5 1) sn) sn) (@L _ B 25 2)) (@fsub _ ROps (@fmul _ ROps (@fmul _ ROps (@L _ ROps 5 1) sn') sn') (@L _ ROps 25 2)) (Eb (-25 # 100) (25 # 100) 0 E) /\
  apx (@fmul _ B (@fmul _ B (@fneg _ B (@L _ B 5 1)) sn) cs) (@fmul _ ROps (@fmul _ ROps (@fneg _ ROps (@L _ ROps 5 1)) sn') cs') (Eb (-25 # 100) (25 # 100) 0 E).
Proof.
  intros Hs Hc SC HX.
  assert (B2 : - (25 / 100) <= @fsub _ ROps (@fmul _ ROps (@fmul _ ROps (@L _ ROps 5 1) sn') sn') (@L _ ROps 25 2) <= 25 / 100).
  { pose proof (Rle_0_sqr sn') as W1. pose proof (Rle_0_sqr cs') as W2. unfold Rsqr in W1, W2. rops. lra. }
  assert (B3 : - (25 / 100) <= @fmul _ ROps (@fmul _ ROps (@fneg _ ROps (@L _ ROps 5 1)) sn') cs' <= 25 / 100).
  { pose proof (Rle_0_sqr (sn' + cs')) as W1. pose proof (Rle_0_sqr (sn' - cs')) as W2. unfold Rsqr in W1, W2. rops. lra. }
  destruct HX as [[-> ->]|[-> ->]];
  (eassert (H2 : apx (@fsub _ B (@fmul _ B (@fmul _ B (@L _ B 5 1) sn) sn) (@L _ B 25 2)) (@fsub _ ROps (@fmul _ ROps (@fmul _ ROps (@L _ ROps 5 1) sn') sn') (@L _ ROps 25 2)) _) by arel;
   eassert (H3 : apx (@fmul _ B (@fmul _ B (@fneg _ B (@L _ B 5 1)) sn) cs) (@fmul _ ROps (@fmul _ ROps (@fneg _ ROps (@L _ ROps 5 1)) sn') cs') _) by arel;
   ashrink H2 (-25 # 100)%Q (25 # 100)%Q; ashrink H3 (-25 # 100)%Q (25 # 100)%Q;
   (split; [eapply apx_weaken; [apply apx_flat; exact H2|vm_compute; reflexivity..]|eapply apx_weaken; [apply apx_flat; exact H3|vm_compute; reflexivity..]])).
Qed.
Lemma wv_acc a a' b b' z z' X C ze E : relm z z' (Bd (-15) 15 ze) -> apx a a' X -> apx b b' X ->
  ((ze = 8 # 10 ^ 11 /\ E = 83 # 10 ^ 12)%Q /\ (X = seB \/ X = siB)) \/ ((ze = 12 # 10 ^ 10 /\ E = 123 # 10 ^ 11)%Q /\ (X = eeB \/ X = xiB)) ->
  C = Eb (el X * (50001 # 100000)) (eh X * (50001 # 100000)) 0 (ab X + eh X * (E * (202 # 100))) -> apx (@wv _ B a b z) (@wv _ ROps a' b' z') C.
Proof.
  intros Hz Ha Hb HX ->. unfold wv. pose proof (relm_sin_apx lm ACC _ _ _ _ Hz eq_refl) as Hs. pose proof (relm_cos_apx lm ACC _ _ _ _ Hz eq_refl) as Hc.
  pose proof (sin2_cos2 z') as SC. unfold Rsqr in SC.
  assert (RS : @fsin _ ROps z' = sin z') by (rops; reflexivity). assert (RC : @fcos _ ROps z' = cos z') by (rops; reflexivity). rewrite <- RS, <- RC in SC.
  set (sn := @fsin _ B z) in *. set (cs := @fcos _ B z) in *. set (sn' := @fsin _ ROps z') in *. set (cs' := @fcos _ ROps z') in *. clearbody sn cs sn' cs'.
  assert (W : apx (@fsub _ B (@fmul _ B (@fmul _ B (@L _ B 5 1) sn) sn) (@L _ B 25 2)) (@fsub _ ROps (@fmul _ ROps (@fmul _ ROps (@L _ ROps 5 1) sn') sn') (@L _ ROps 25 2)) (Eb (-25 # 100) (25 # 100) 0 E) /\
    apx (@fmul _ B (@fmul _ B (@fneg _ B (@L _ B 5 1)) sn) cs) (@fmul _ ROps (@fmul _ ROps (@fneg _ ROps (@L _ ROps 5 1)) sn') cs') (Eb (-25 # 100) (25 # 100) 0 E)).
  { destruct HX as [((-> & ->) & _)|((-> & ->) & _)].
    - apply (wv_fac _ _ _ _ (Eb (-1) 1 0 (81 # 10 ^ 12))); [eapply apx_weaken; [exact Hs|vm_compute; reflexivity..]|eapply apx_weaken; [exact Hc|vm_compute; reflexivity..]|exact SC|left; split; reflexivity].
    - apply (wv_fac _ _ _ _ (Eb (-1) 1 0 (121 # 10 ^ 11))); [eapply apx_weaken; [exact Hs|vm_compute; reflexivity..]|eapply apx_weaken; [exact Hc|vm_compute; reflexivity..]|exact SC|right; split; reflexivity]. }
  clear Hs Hc RS RC SC. destruct W as (H2 & H3).
  set (f2 := @fsub _ B _ _) in *. set (f2' := @fsub _ ROps _ _) in *. set (f3 := @fmul _ B (@fmul _ B _ sn) cs) in *. set (f3' := @fmul _ ROps (@fmul _ ROps _ sn') cs') in *. clearbody f2 f2' f3 f3'.
  destruct HX as [((-> & ->) & [-> | ->])|((-> & ->) & [-> | ->])]; aflat.
Qed.

Lemma per_acc (s : Satrec b64) (s' : Satrec R) t t' : moon_ok lm s s' -> apx t t' timeB ->
  apx (@fsub _ B (@pe_of _ B s t) (sr_peo s)) (@fsub _ ROps (@pe_of _ ROps s' t') (sr_peo s')) peB /\
  apx (@fsub _ B (@pi_of _ B s t) (sr_pinco s)) (@fsub _ ROps (@pi_of _ ROps s' t') (sr_pinco s')) piB.
Proof.
  intros (D1 & D2 & D3 & D4 & D5 & D6 & D7 & D8 & Z1 & Z2 & P1 & P2 & P3 & P4) Ht. rewrite P1, P2, P3, P4. unfold pe_of, pi_of. clear P1 P2 P3 P4.
  pose proof (zf_solar _ _ _ _ Z2 Ht) as HS. pose proof (zf_lunar _ _ _ _ Z1 Ht) as HM.
  set (zs := @zfg _ B (sr_zmos s) _ _ _) in *. set (zl := @zfg _ B (sr_zmol s) _ _ _) in *. set (zs' := @zfg _ ROps (sr_zmos s') _ _ _) in *. set (zl' := @zfg _ ROps (sr_zmol s') _ _ _) in *. clearbody zs zl zs' zl'.
  pose proof (wv_acc _ _ _ _ _ _ seB _ _ (83 # 10 ^ 12) HS D1 D2 ltac:(tauto) eq_refl) as W1. pose proof (wv_acc _ _ _ _ _ _ siB _ _ (83 # 10 ^ 12) HS D3 D4 ltac:(tauto) eq_refl) as W2.
  pose proof (wv_acc _ _ _ _ _ _ eeB _ _ (123 # 10 ^ 11) HM D5 D6 ltac:(tauto) eq_refl) as W3. pose proof (wv_acc _ _ _ _ _ _ xiB _ _ (123 # 10 ^ 11) HM D7 D8 ltac:(tauto) eq_refl) as W4.
  split; aflat.
Qed.
Lemma abs_acc x (a : R) l h e C : apx x a (Eb l h 0 e) -> Qle_bool l 0 = true -> Qle_bool (-h) l = true -> C = Eb 0 h 0 e ->
  apx (if @flt _ B x (@L _ B 0 0) then @fneg _ B x else x) (if @flt _ ROps a (@L _ ROps 0 0) then @fneg _ ROps a else a) C.
Proof.
  intros (F & I & E1 & E2) L0 LH ->. cbn [el eh rr ab] in *. rewrite Q2R_0 in *. apply qle_true in L0, LH. rewrite Q2R_opp in LH. rewrite Q2R_0 in L0.
  assert (HL : rel (@L _ B 0 0) (@L _ ROps 0 0) (Bd 0 0 0)) by (eapply rel_weaken; [apply (rel_lit lm 0 0); vm_compute; reflexivity|vm_compute; reflexivity..]).
  destruct HL as (FL & IL & DL). cbn [lo hi er] in *. rewrite Q2R_0 in *. rewrite (lt_fin lm _ _ F FL). change (@flt _ ROps a (@L _ ROps 0 0)) with (Rlt_bool a (@L _ ROps 0 0)).
  assert (LV : @L _ ROps 0 0 = 0) by lra. assert (LB : B2R (@L _ B 0 0) = 0) by (apply Rabs_le_inv in DL; lra). rewrite LV, LB. apply Rabs_le_inv in E2.
  case Rlt_bool_spec; intros C1; case Rlt_bool_spec; intros C2; cbn [fneg ROps B64Ops];
  (split; [try rewrite is_finite_Bopp; exact F|]; split; [cbn [el eh]; rewrite Q2R_0; lra|]; cbn [rr ab]; rewrite Q2R_0; split; [lra|]; try rewrite B2R_Bopp; apply Rabs_le; lra).
Qed.
Lemma incl_acc (s : Satrec b64) (s' : Satrec R) t t' : deep s = true -> deep s' = true -> apx (sr_inclo s) (sr_inclo s') din_inc -> moon_ok lm s s' -> apx t t' timeB ->
  apx (@incl_at _ B s t) (@incl_at _ ROps s' t') dinB.
Proof.
  intros D D' Hi HM Ht. destruct (per_acc s s' t t' HM Ht) as (_ & P). unfold incl_at. rewrite D, D'. cbv zeta.
  rewrite (proj2 (per_kept (FO := B) s t)), (proj2 (per_kept (FO := ROps) s' t')).
  set (d := @fsub _ B _ _) in *. set (d' := @fsub _ ROps _ _) in *. clearbody d d'.
  eassert (A : apx (@fadd _ B (sr_inclo s) d) (@fadd _ ROps (sr_inclo s') d') (Eb (-121 # 10000) (28121 # 10000) 0 (22 # 10 ^ 12))) by aflat.
  set (x := @fadd _ B _ _) in *. set (x' := @fadd _ ROps _ _) in *. clearbody x x'.
  eapply abs_acc; [exact A|vm_compute; reflexivity..].
Qed.
Lemma pecc_acc (s : Satrec b64) (s' : Satrec R) t t' : apx (@ecc_used _ B s t) (@ecc_used _ ROps s' t') depB -> moon_ok lm s s' -> apx t t' timeB ->
  apx (pr_ep (@periodics _ B s t)) (pr_ep (@periodics _ ROps s' t')) dppB.
Proof.
  intros He HM Ht. destruct (per_acc s s' t t' HM Ht) as (P & _).
  rewrite (proj1 (per_kept (FO := B) s t)), (proj1 (per_kept (FO := ROps) s' t')). aflat.
Qed.
End S.
