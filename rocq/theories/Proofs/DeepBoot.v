(** * Binary64 accuracy of the initialisation of a deep-space record *)
From Coq Require Import ZArith QArith Reals Qreals Bool Lra Lia Psatz.
From Flocq Require Import Core IEEE754.BinarySingleNaN.
From Verif.Model Require Import Float Str Satrec Constants Vec3 Initl Dscom Dsinit Sgp4 Sgp4init.
From Verif.Spec Require Import LibmAccuracy Sgp4Spec NearAccuracy.
From Verif.Inst Require Import RInst RTac B64 B64Facts B64Calc ApxCalc.
From Verif.Proofs Require Import CalcFun CalcPow CalcAngle ApxFun AccInit AccNear AccSecular AccKepler AccState AccTail Sgp4Errors InitKind AccSgp4 AccBoot DeepKozai DeepNear DeepMoon.
Local Open Scope R_scope.

Section G.
Context {F : Type} {FO : FloatOps F}.
Definition dn (o : SGP4InitOptions F) (s0 : Satrec F) : @NearOut F := sgp4init_near (il o) (s1 o s0).
Definition dd (o : SGP4InitOptions F) (n : Satrec F) : DscomResult F :=
  dscom (MkDscomOptions (in_epoch o) (sr_ecco n) (sr_argpo n) (L 0 0) (sr_inclo n) (sr_nodeo n) (sr_no n)).
(** fields set before the lunar-solar part, and fields of the lunar-solar part *)
Definition nk (s : Satrec F) : list F :=
  sr_ecco s :: sr_no s :: sr_bstar s :: sr_argpo s :: sr_mo s :: sr_nodeo s :: sr_inclo s ::
  sr_cc1 s :: sr_cc4 s :: sr_mdot s :: sr_argpdot s :: sr_nodedot s :: sr_nodecf s :: sr_t2cof s :: nil.
Definition mk (s : Satrec F) : list F :=
  sr_se2 s :: sr_se3 s :: sr_si2 s :: sr_si3 s :: sr_ee2 s :: sr_e3 s :: sr_xi2 s :: sr_xi3 s :: sr_zmol s :: sr_zmos s :: sr_peo s :: sr_pinco s :: nil.
Definition md (d : DscomResult F) : list F :=
  dr_se2 d :: dr_se3 d :: dr_si2 d :: dr_si3 d :: dr_ee2 d :: dr_e3 d :: dr_xi2 d :: dr_xi3 d :: dr_zmol d :: dr_zmos d :: dr_peo d :: dr_pinco d :: nil.
Definition dedt_of (d : DscomResult F) : F := fadd (fmul (fmul (dr_ss1 d) dsinit_ZNS) (dr_ss5 d)) (fmul (fmul (dr_s1 d) dsinit_ZNL) (dr_s5 d)).
Lemma dsinit_dedt (o : DsinitOptions F) : nr_dedt (dsinit o) = rt_dedt (dsinit_rates o).
Proof. unfold dsinit. cbv zeta. match goal with |- context [if ?b then _ else _] => destruct b end; reflexivity. Qed.
Lemma deep_fields epoch e x (n : Satrec F) : sr_init n = InitY -> fle (L 225 0) (fdiv kTWO_PI (sr_no n)) = true ->
  let d := dscom (MkDscomOptions epoch (sr_ecco n) (sr_argpo n) (L 0 0) (sr_inclo n) (sr_nodeo n) (sr_no n)) in let s := sgp4init_deep epoch e x n in
  sr_method s = MethodD /\ sr_isimp s = 1%Z /\ nk s = nk n /\ mk s = md d /\ sr_dedt s = dedt_of d.
Proof.
  intros I G d s.
  set (n1 := set_isimp 1 (set_method MethodD n)).
  assert (E : s = sgp4init_copy_dsinit (dsinit (sgp4init_dsinit_options e x (sr_inclo n1) d (sgp4init_copy_dscom d n1))) (sgp4init_copy_dscom d n1)).
  { unfold s, sgp4init_deep. rewrite G. cbv zeta. fold n1.
    change (sgp4init_dscom epoch n1) with d. rewrite init_dpper_id; [reflexivity|]. exact I. }
  rewrite E. clear E s. clearbody d.
  split; [reflexivity|]. split; [reflexivity|]. split; [reflexivity|]. split; [reflexivity|].
  transitivity (nr_dedt (dsinit (sgp4init_dsinit_options e x (sr_inclo n1) d (sgp4init_copy_dscom d n1)))); [reflexivity|].
  rewrite dsinit_dedt. reflexivity.
Qed.
Lemma deep_eq o (s0 : Satrec F) : fle (L 0 0) (ir_omeosq (il o)) = true -> fle (L 225 0) (fdiv kTWO_PI (ir_no (il o))) = true ->
  let n := ne_s (dn o s0) in let s := sgp4init_elements o s0 in let d := dd o n in
  sr_method s = MethodD /\ sr_isimp s = 1%Z /\ nk s = nk n /\ mk s = md d /\ sr_dedt s = dedt_of d.
Proof.
  intros H1 H2 n s d.
  pose proof (near_fields (il o) (s1 o s0)) as (_ & N & _). pose proof (s1_fields o s0) as (_ & N1 & _). cbv zeta in N, N1.
  assert (I : sr_init n = InitY) by reflexivity.
  assert (G : fle (L 225 0) (fdiv kTWO_PI (sr_no n)) = true) by (unfold n, dn; rewrite N, N1; exact H2).
  destruct (deep_fields (in_epoch o) (ir_eccsq (il o)) (ne_xpidot (dn o s0)) n I G) as (M & IS & K1 & K2 & K3).
  assert (E : s = sgp4init_drag (ir_ao (il o)) (ne_tsi (dn o s0)) (ne_sfour (dn o s0)) (sgp4init_deep (in_epoch o) (ir_eccsq (il o)) (ne_xpidot (dn o s0)) n)).
  { unfold s, sgp4init_elements. cbv zeta. rewrite initl_at. fold (s1 o s0). rewrite H1. reflexivity. }
  set (x := sgp4init_deep _ _ _ n) in *.
  assert (X : s = x) by (rewrite E; unfold sgp4init_drag; rewrite IS; reflexivity). rewrite X. auto.
Qed.
End G.

Definition dedtB := Eb (-181 # 10 ^ 9) (181 # 10 ^ 9) 0 (22 # 10 ^ 17).
Definition timeB := Eb (-43200) 43200 0 0.
Definition deep_ok (s : Satrec b64) (s' : Satrec R) : Prop :=
  apx (sr_ecco s) (sr_ecco s') din_ecc /\ apx (sr_no s) (sr_no s') dnoB /\ apx (sr_bstar s) (sr_bstar s') in_bst /\
  apx (sr_argpo s) (sr_argpo s') in_ang /\ apx (sr_mo s) (sr_mo s') in_ang /\ apx (sr_nodeo s) (sr_nodeo s') in_ang /\
  apx (sr_inclo s) (sr_inclo s') din_inc /\
  apx (sr_cc1 s) (sr_cc1 s') dcc1B /\ apx (sr_cc4 s) (sr_cc4 s') dcc4B /\ apx (sr_mdot s) (sr_mdot s') dmdotB /\ apx (sr_argpdot s) (sr_argpdot s') dargpdotB /\
  apx (sr_nodedot s) (sr_nodedot s') dnodedotB /\ apx (sr_nodecf s) (sr_nodecf s') dnodecfB /\ apx (sr_t2cof s) (sr_t2cof s') dt2cofB /\ apx (sr_dedt s) (sr_dedt s') dedtB.
Section S.
Context (lm : libm) (ACC : accurate lm).
Notation B := (B64Ops lm).
Definition moon_ok (s : Satrec b64) (s' : Satrec R) : Prop :=
  apx (sr_se2 s) (sr_se2 s') seB /\ apx (sr_se3 s) (sr_se3 s') seB /\ apx (sr_si2 s) (sr_si2 s') siB /\ apx (sr_si3 s) (sr_si3 s') siB /\
  apx (sr_ee2 s) (sr_ee2 s') eeB /\ apx (sr_e3 s) (sr_e3 s') eeB /\ apx (sr_xi2 s) (sr_xi2 s') xiB /\ apx (sr_xi3 s) (sr_xi3 s') xiB /\
  relm (sr_zmol s) (sr_zmol s') zmB /\ relm (sr_zmos s) (sr_zmos s') zsB /\
  sr_peo s = @L _ B 0 0 /\ sr_peo s' = @L _ ROps 0 0 /\ sr_pinco s = @L _ B 0 0 /\ sr_pinco s' = @L _ ROps 0 0.
Definition deep_rec (s : Satrec b64) (s' : Satrec R) : Prop :=
  (sr_method s = MethodD /\ sr_method s' = MethodD) /\ (sr_isimp s = 1%Z /\ sr_isimp s' = 1%Z) /\ deep_ok s s' /\ moon_ok s s'.

Lemma dguards (r : InitlReturn b64) (r' : InitlReturn R) : apx (ir_omeosq r) (ir_omeosq r') domeB -> apx (ir_no r) (ir_no r') dnoB ->
  (@fle _ B (@L _ B 0 0) (ir_omeosq r) = true /\ @fle _ ROps (@L _ ROps 0 0) (ir_omeosq r') = true) /\
  (@fle _ B (@L _ B 225 0) (@fdiv _ B (@kTWO_PI _ B) (ir_no r)) = true /\ @fle _ ROps (@L _ ROps 225 0) (@fdiv _ ROps (@kTWO_PI _ ROps) (ir_no r')) = true).
Proof.
  intros Jom Jno. split.
  - eapply apx_le_true; [arel|exact Jom|vm_compute; reflexivity].
  - pose proof (rel_flat _ _ _ (rel_two_pi lm)) as HT. eapply apx_le_true; [arel|arel|vm_compute; reflexivity].
Qed.
Lemma dedt_acc (d : DscomResult b64) (d' : DscomResult R) : dscom_ok lm d d' -> apx (@dedt_of _ B d) (@dedt_of _ ROps d') dedtB.
Proof.
  intros (_ & _ & _ & _ & _ & _ & _ & _ & H1 & H5 & M1 & M5 & _). unfold dedt_of, dsinit_ZNS, dsinit_ZNL. aflat.
Qed.

Lemma deep_intro (s n : Satrec b64) (s' n' : Satrec R) : nk s = nk n -> nk s' = nk n' ->
  apx (sr_ecco n) (sr_ecco n') din_ecc -> apx (sr_no n) (sr_no n') dnoB -> apx (sr_bstar n) (sr_bstar n') in_bst ->
  apx (sr_argpo n) (sr_argpo n') in_ang -> apx (sr_mo n) (sr_mo n') in_ang -> apx (sr_nodeo n) (sr_nodeo n') in_ang ->
  apx (sr_inclo n) (sr_inclo n') din_inc ->
  apx (sr_cc1 n) (sr_cc1 n') dcc1B -> apx (sr_cc4 n) (sr_cc4 n') dcc4B -> apx (sr_mdot n) (sr_mdot n') dmdotB -> apx (sr_argpdot n) (sr_argpdot n') dargpdotB ->
  apx (sr_nodedot n) (sr_nodedot n') dnodedotB -> apx (sr_nodecf n) (sr_nodecf n') dnodecfB -> apx (sr_t2cof n) (sr_t2cof n') dt2cofB -> apx (sr_dedt s) (sr_dedt s') dedtB ->
  deep_ok s s'.
Proof.
  intros K K'. unfold nk in K, K'. injection K as K1 K2 K3 K4 K5 K6 K7 K8 K9 K10 K11 K12 K13 K14. injection K' as J1 J2 J3 J4 J5 J6 J7 J8 J9 J10 J11 J12 J13 J14.
  rewrite <- K1, <- K2, <- K3, <- K4, <- K5, <- K6, <- K7, <- K8, <- K9, <- K10, <- K11, <- K12, <- K13, <- K14.
  rewrite <- J1, <- J2, <- J3, <- J4, <- J5, <- J6, <- J7, <- J8, <- J9, <- J10, <- J11, <- J12, <- J13, <- J14.
  intros. unfold deep_ok. do 14 (split; [assumption|]). assumption.
Qed.
Lemma moon_intro (s : Satrec b64) (s' : Satrec R) d d' : mk s = md d -> mk s' = md d' -> dscom_ok lm d d' -> moon_ok s s'.
Proof.
  intros K K'. unfold mk, md in K, K'. injection K as K1 K2 K3 K4 K5 K6 K7 K8 K9 K10 K11 K12. injection K' as J1 J2 J3 J4 J5 J6 J7 J8 J9 J10 J11 J12.
  intros (D1 & D2 & D3 & D4 & D5 & D6 & D7 & D8 & _ & _ & _ & _ & Z1 & Z2 & P1 & P2 & P3 & P4). unfold moon_ok.
  rewrite K1, K2, K3, K4, K5, K6, K7, K8, K9, K10, K11, K12, J1, J2, J3, J4, J5, J6, J7, J8, J9, J10, J11, J12.
  do 13 (split; [assumption|]). assumption.
Qed.

Lemma initl_satn {F} {FO : FloatOps F} om me sn sn2 ec ep inc no : initl (MkInitlOptions om me sn ec ep inc no) = initl (MkInitlOptions om me sn2 ec ep inc no).
Proof. reflexivity. Qed.
Lemma deep_boot_rest (o : SGP4InitOptions b64) (o' : SGP4InitOptions R) r r' a a' s s' : dinit_ok (in_xecco o') r r' ->
  apx (in_epoch o) (in_epoch o') epochB ->
  apx (sr_ecco a) (sr_ecco a') din_ecc -> apx (sr_no a) (sr_no a') dnoB -> apx (sr_con41 a) (sr_con41 a') con41B ->
  apx (sr_bstar a) (sr_bstar a') in_bst -> apx (sr_argpo a) (sr_argpo a') in_ang -> apx (sr_mo a) (sr_mo a') in_ang ->
  apx (sr_nodeo a) (sr_nodeo a') in_ang -> apx (sr_inclo a) (sr_inclo a') din_inc ->
  (let n := ne_s (@sgp4init_near _ B r a) in let d := @dd _ B o n in sr_method s = MethodD /\ sr_isimp s = 1%Z /\ nk s = nk n /\ mk s = md d /\ sr_dedt s = @dedt_of _ B d) ->
  (let n := ne_s (@sgp4init_near _ ROps r' a') in let d := @dd _ ROps o' n in sr_method s' = MethodD /\ sr_isimp s' = 1%Z /\ nk s' = nk n /\ mk s' = md d /\ sr_dedt s' = @dedt_of _ ROps d) ->
  deep_rec s s'.
Proof.
  intros (_ & Jao & Jci & Jci2 & _ & J42 & Jrt & Jom & _ & Jpo & Jrp & _ & _) Hep He Jno J41 Hbs Harg Hmo Hnode Hi.
  pose proof (near_deep lm ACC r r' a a' Jao Jci Jci2 J42 Jrt Jom Jpo Jrp He Jno J41 Hbs Harg) as N.
  pose proof (near_fields (FO := B) r a) as FB. pose proof (near_fields (FO := ROps) r' a') as FR. cbv zeta in FB, FR. unfold dnear_ok in N.
  generalize dependent (ne_s (@sgp4init_near _ B r a)). generalize dependent (ne_s (@sgp4init_near _ ROps r' a')). intros n' FR n N FB EQ EQ'. cbv zeta in EQ, EQ'.
  destruct FB as (C1 & C2 & C3 & C4 & C5 & C6 & C7 & C8 & C9). destruct FR as (D1 & D2 & D3 & D4 & D5 & D6 & D7 & D8 & D9). rewrite <- C1, <- D1 in He. rewrite <- C2, <- D2 in Jno.
  rewrite <- C4, <- D4 in Hbs. rewrite <- C5, <- D5 in Harg. rewrite <- C6, <- D6 in Hmo. rewrite <- C7, <- D7 in Hnode. rewrite <- C8, <- D8 in Hi.
  assert (DK : dscom_ok lm (@dd _ B o n) (@dd _ ROps o' n')) by (apply (dscom_acc lm ACC); try assumption; reflexivity).
  generalize dependent (@dd _ B o n). generalize dependent (@dd _ ROps o' n'). intros d' (M' & I' & K1' & K2' & K3') d (M & I & K1 & K2 & K3) DK.
  destruct N as (N1 & N2 & N3 & N4 & N5 & N6 & N7).
  split; [now split|]. split; [now split|]. split; [|exact (moon_intro s s' d d' K2 K2' DK)].
  apply (deep_intro s n s' n' K1 K1'); try assumption. rewrite K3, K3'. apply dedt_acc, DK.
Qed.

Lemma deep_boot (o : SGP4InitOptions b64) (o' : SGP4InitOptions R) s0 s0' :
  in_opsmode o = in_opsmode o' ->
  apx (in_xno o) (in_xno o') din_no -> apx (in_xinclo o) (in_xinclo o') din_inc ->
  apx (in_xecco o) (in_xecco o') din_ecc -> apx (in_epoch o) (in_epoch o') epochB ->
  apx (in_xbstar o) (in_xbstar o') in_bst -> apx (in_xargpo o) (in_xargpo o') in_ang ->
  apx (in_xmo o) (in_xmo o') in_ang -> apx (in_xnodeo o) (in_xnodeo o') in_ang ->
  forall s s', s = @sgp4init_elements _ B o s0 -> s' = @sgp4init_elements _ ROps o' s0' -> deep_rec s s'.
Proof.
  intros X1 Hno Hi He Hep Hbs Harg Hmo Hnode s s' ES ES'.
  assert (IA : dinit_ok (in_xecco o') (@il _ B o) (@il _ ROps o')).
  { rewrite (il_def (FO := B)), (il_def (FO := ROps)), X1. rewrite (initl_satn (FO := ROps) _ _ (in_satn o') (in_satn o)). apply (initl_deep lm ACC); assumption. }
  pose proof (deep_eq (FO := B) o s0) as EQ. pose proof (deep_eq (FO := ROps) o' s0') as EQ'. unfold dn in EQ, EQ'.
  pose proof (s1_fields (FO := B) o s0) as FB. pose proof (s1_fields (FO := ROps) o' s0') as FR. cbv zeta in FB, FR.
  rewrite <- ES in EQ. rewrite <- ES' in EQ'. clear ES ES'.
  revert IA EQ EQ' FB FR.
  generalize (@s1 _ B o s0). intros a. generalize (@s1 _ ROps o' s0'). intros a'. generalize (@il _ B o). intros r. generalize (@il _ ROps o'). intros r'.
  intros IA EQ EQ' FB FR. pose proof IA as (Jno & _ & _ & _ & J41 & _ & _ & Jom & _).
  destruct (dguards r r' Jom Jno) as ((T1 & T1') & T2 & T2'). specialize (EQ T1 T2). specialize (EQ' T1' T2').
  destruct FB as (B1 & B2 & B3 & B4 & B5 & B6 & B7 & B8 & B9). destruct FR as (R1 & R2 & R3 & R4 & R5 & R6 & R7 & R8 & R9).
  rewrite <- R1, <- B1 in He. rewrite <- R2, <- B2 in Jno. rewrite <- R3, <- B3 in J41. rewrite <- R4, <- B4 in Hbs.
  rewrite <- R5, <- B5 in Harg. rewrite <- R6, <- B6 in Hmo. rewrite <- R7, <- B7 in Hnode. rewrite <- R8, <- B8 in Hi.
  apply (deep_boot_rest o o' r r' a a' s s'); assumption.
Qed.
End S.
