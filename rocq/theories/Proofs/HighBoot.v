(** * Binary64 accuracy of the initialisation of the record of a highly eccentric deep-space orbit *)
From Coq Require Import ZArith QArith Reals Qreals Bool Lra Lia Psatz.
From Flocq Require Import Core IEEE754.BinarySingleNaN.
From Verif.Model Require Import Float Str Satrec Constants Vec3 Initl Dscom Dsinit Sgp4 Sgp4init.
From Verif.Spec Require Import LibmAccuracy Sgp4Spec NearAccuracy.
From Verif.Inst Require Import RInst RTac B64 B64Facts B64Calc ApxCalc.
From Verif.Proofs Require Import CalcFun CalcPow CalcAngle ApxFun AccInit AccNear AccSecular AccKepler AccState AccTail Sgp4Errors InitKind AccSgp4 AccBoot DeepKozai DeepNear DeepMoon DeepBoot HighKozai HighNear HighMoon.
Local Open Scope R_scope.

Definition hedtB := Eb (-214 # 10 ^ 9) (214 # 10 ^ 9) 0 (26 # 10 ^ 17).
Definition high_ok (s : Satrec b64) (s' : Satrec R) : Prop :=
  apx (sr_ecco s) (sr_ecco s') hin_ecc /\ apx (sr_no s) (sr_no s') hnoB /\ apx (sr_bstar s) (sr_bstar s') in_bst /\
  apx (sr_argpo s) (sr_argpo s') in_ang /\ apx (sr_mo s) (sr_mo s') in_ang /\ apx (sr_nodeo s) (sr_nodeo s') in_ang /\
  apx (sr_inclo s) (sr_inclo s') din_inc /\
  apx (sr_cc1 s) (sr_cc1 s') hcc1B /\ apx (sr_cc4 s) (sr_cc4 s') hcc4B /\ apx (sr_mdot s) (sr_mdot s') hmdotB /\ apx (sr_argpdot s) (sr_argpdot s') hargpdotB /\
  apx (sr_nodedot s) (sr_nodedot s') hnodedotB /\ apx (sr_nodecf s) (sr_nodecf s') hnodecfB /\ apx (sr_t2cof s) (sr_t2cof s') ht2cofB /\ apx (sr_dedt s) (sr_dedt s') hedtB.
Section S.
Context (lm : libm) (ACC : accurate lm).
Notation B := (B64Ops lm).
Definition hmoon_ok (s : Satrec b64) (s' : Satrec R) : Prop :=
  apx (sr_se2 s) (sr_se2 s') hseB /\ apx (sr_se3 s) (sr_se3 s') hseB /\ apx (sr_si2 s) (sr_si2 s') hsiB /\ apx (sr_si3 s) (sr_si3 s') hsiB /\
  apx (sr_ee2 s) (sr_ee2 s') heeB /\ apx (sr_e3 s) (sr_e3 s') heeB /\ apx (sr_xi2 s) (sr_xi2 s') hxiB /\ apx (sr_xi3 s) (sr_xi3 s') hxiB /\
  relm (sr_zmol s) (sr_zmol s') zmB /\ relm (sr_zmos s) (sr_zmos s') zsB /\
  sr_peo s = @L _ B 0 0 /\ sr_peo s' = @L _ ROps 0 0 /\ sr_pinco s = @L _ B 0 0 /\ sr_pinco s' = @L _ ROps 0 0.
Definition high_rec (s : Satrec b64) (s' : Satrec R) : Prop :=
  (sr_method s = MethodD /\ sr_method s' = MethodD) /\ (sr_isimp s = 1%Z /\ sr_isimp s' = 1%Z) /\ high_ok s s' /\ hmoon_ok s s'.

Lemma hguards (r : InitlReturn b64) (r' : InitlReturn R) : apx (ir_omeosq r) (ir_omeosq r') homeB -> apx (ir_no r) (ir_no r') hnoB ->
  (@fle _ B (@L _ B 0 0) (ir_omeosq r) = true /\ @fle _ ROps (@L _ ROps 0 0) (ir_omeosq r') = true) /\
  (@fle _ B (@L _ B 225 0) (@fdiv _ B (@kTWO_PI _ B) (ir_no r)) = true /\ @fle _ ROps (@L _ ROps 225 0) (@fdiv _ ROps (@kTWO_PI _ ROps) (ir_no r')) = true).
Proof.
  intros Jom Jno. split.
  - eapply apx_le_true; [arel|exact Jom|vm_compute; reflexivity].
  - pose proof (rel_flat _ _ _ (rel_two_pi lm)) as HT. eapply apx_le_true; [arel|arel|vm_compute; reflexivity].
Qed.
Lemma hdedt_acc (d : DscomResult b64) (d' : DscomResult R) : hdscom_ok lm d d' -> apx (@dedt_of _ B d) (@dedt_of _ ROps d') hedtB.
Proof.
  intros (_ & _ & _ & _ & _ & _ & _ & _ & H1 & H5 & M1 & M5 & _). unfold dedt_of, dsinit_ZNS, dsinit_ZNL. aflat.
Qed.

Lemma high_intro (s n : Satrec b64) (s' n' : Satrec R) : nk s = nk n -> nk s' = nk n' ->
  apx (sr_ecco n) (sr_ecco n') hin_ecc -> apx (sr_no n) (sr_no n') hnoB -> apx (sr_bstar n) (sr_bstar n') in_bst ->
  apx (sr_argpo n) (sr_argpo n') in_ang -> apx (sr_mo n) (sr_mo n') in_ang -> apx (sr_nodeo n) (sr_nodeo n') in_ang ->
  apx (sr_inclo n) (sr_inclo n') din_inc ->
  apx (sr_cc1 n) (sr_cc1 n') hcc1B -> apx (sr_cc4 n) (sr_cc4 n') hcc4B -> apx (sr_mdot n) (sr_mdot n') hmdotB -> apx (sr_argpdot n) (sr_argpdot n') hargpdotB ->
  apx (sr_nodedot n) (sr_nodedot n') hnodedotB -> apx (sr_nodecf n) (sr_nodecf n') hnodecfB -> apx (sr_t2cof n) (sr_t2cof n') ht2cofB -> apx (sr_dedt s) (sr_dedt s') hedtB ->
  high_ok s s'.
Proof.
  intros K K'. unfold nk in K, K'. injection K as K1 K2 K3 K4 K5 K6 K7 K8 K9 K10 K11 K12 K13 K14. injection K' as J1 J2 J3 J4 J5 J6 J7 J8 J9 J10 J11 J12 J13 J14.
  rewrite <- K1, <- K2, <- K3, <- K4, <- K5, <- K6, <- K7, <- K8, <- K9, <- K10, <- K11, <- K12, <- K13, <- K14.
  rewrite <- J1, <- J2, <- J3, <- J4, <- J5, <- J6, <- J7, <- J8, <- J9, <- J10, <- J11, <- J12, <- J13, <- J14.
  intros. unfold high_ok. do 14 (split; [assumption|]). assumption.
Qed.
Lemma hmoon_intro (s : Satrec b64) (s' : Satrec R) d d' : mk s = md d -> mk s' = md d' -> hdscom_ok lm d d' -> hmoon_ok s s'.
Proof.
  intros K K'. unfold mk, md in K, K'. injection K as K1 K2 K3 K4 K5 K6 K7 K8 K9 K10 K11 K12. injection K' as J1 J2 J3 J4 J5 J6 J7 J8 J9 J10 J11 J12.
  intros (D1 & D2 & D3 & D4 & D5 & D6 & D7 & D8 & _ & _ & _ & _ & Z1 & Z2 & P1 & P2 & P3 & P4). unfold hmoon_ok.
  rewrite K1, K2, K3, K4, K5, K6, K7, K8, K9, K10, K11, K12, J1, J2, J3, J4, J5, J6, J7, J8, J9, J10, J11, J12.
  do 13 (split; [assumption|]). assumption.
Qed.

Lemma high_boot_rest (o : SGP4InitOptions b64) (o' : SGP4InitOptions R) r r' a a' s s' : hinit_ok (in_xecco o') r r' -> sr_ecco a' = in_xecco o' -> sr_no a' = ir_no r' -> sr_con41 a' = ir_con41 r' -> 103135 / 100000 <= ir_rp r' ->
  apx (in_epoch o) (in_epoch o') epochB ->
  apx (sr_ecco a) (sr_ecco a') hin_ecc -> apx (sr_no a) (sr_no a') hnoB -> apx (sr_con41 a) (sr_con41 a') con41B ->
  apx (sr_bstar a) (sr_bstar a') in_bst -> apx (sr_argpo a) (sr_argpo a') in_ang -> apx (sr_mo a) (sr_mo a') in_ang ->
  apx (sr_nodeo a) (sr_nodeo a') in_ang -> apx (sr_inclo a) (sr_inclo a') din_inc ->
  (let n := ne_s (@sgp4init_near _ B r a) in let d := @dd _ B o n in sr_method s = MethodD /\ sr_isimp s = 1%Z /\ nk s = nk n /\ mk s = md d /\ sr_dedt s = @dedt_of _ B d) ->
  (let n := ne_s (@sgp4init_near _ ROps r' a') in let d := @dd _ ROps o' n in sr_method s' = MethodD /\ sr_isimp s' = 1%Z /\ nk s' = nk n /\ mk s' = md d /\ sr_dedt s' = @dedt_of _ ROps d) ->
  high_rec s s'.
Proof.
  intros (_ & Jao & Jci & Jci2 & _ & J42 & Jrt & Jom & _ & Jpo & Jrp & RE & OE & NA & PQ & CS2 & K41) EE EN EK RP Hep He Jno J41 Hbs Harg Hmo Hnode Hi.
  rewrite <- EE in RE, OE, PQ. rewrite <- EN in NA. rewrite <- EK in K41.
  pose proof (near_high lm ACC r r' a a' Jao Jci Jci2 J42 Jrt Jom Jpo Jrp RP RE OE NA PQ K41 CS2 He Jno J41 Hbs Harg) as N.
  pose proof (near_fields (FO := B) r a) as FB. pose proof (near_fields (FO := ROps) r' a') as FR. cbv zeta in FB, FR. unfold hnear_ok in N.
  generalize dependent (ne_s (@sgp4init_near _ B r a)). generalize dependent (ne_s (@sgp4init_near _ ROps r' a')). intros n' FR n N FB EQ EQ'. cbv zeta in EQ, EQ'.
  destruct FB as (C1 & C2 & C3 & C4 & C5 & C6 & C7 & C8 & C9). destruct FR as (D1 & D2 & D3 & D4 & D5 & D6 & D7 & D8 & D9). rewrite <- C1, <- D1 in He. rewrite <- C2, <- D2 in Jno.
  rewrite <- C4, <- D4 in Hbs. rewrite <- C5, <- D5 in Harg. rewrite <- C6, <- D6 in Hmo. rewrite <- C7, <- D7 in Hnode. rewrite <- C8, <- D8 in Hi.
  assert (DK : hdscom_ok lm (@dd _ B o n) (@dd _ ROps o' n')) by (apply (hdscom_acc lm ACC); try assumption; reflexivity).
  generalize dependent (@dd _ B o n). generalize dependent (@dd _ ROps o' n'). intros d' (M' & I' & K1' & K2' & K3') d (M & I & K1 & K2 & K3) DK.
  destruct N as (N1 & N2 & N3 & N4 & N5 & N6 & N7).
  split; [now split|]. split; [now split|]. split; [|exact (hmoon_intro s s' d d' K2 K2' DK)].
  apply (high_intro s n s' n' K1 K1'); try assumption. rewrite K3, K3'. apply hdedt_acc, DK.
Qed.

Lemma high_boot (o : SGP4InitOptions b64) (o' : SGP4InitOptions R) s0 s0' :
  in_opsmode o = in_opsmode o' ->
  apx (in_xno o) (in_xno o') din_no -> apx (in_xinclo o) (in_xinclo o') din_inc ->
  apx (in_xecco o) (in_xecco o') hin_ecc -> apx (in_epoch o) (in_epoch o') epochB ->
  apx (in_xbstar o) (in_xbstar o') in_bst -> apx (in_xargpo o) (in_xargpo o') in_ang ->
  apx (in_xmo o) (in_xmo o') in_ang -> apx (in_xnodeo o) (in_xnodeo o') in_ang -> 103135 / 100000 <= ir_rp (@il _ ROps o') ->
  forall s s', s = @sgp4init_elements _ B o s0 -> s' = @sgp4init_elements _ ROps o' s0' -> high_rec s s'.
Proof.
  intros X1 Hno Hi He Hep Hbs Harg Hmo Hnode RP s s' ES ES'.
  assert (IA : hinit_ok (in_xecco o') (@il _ B o) (@il _ ROps o')).
  { rewrite (il_def (FO := B)), (il_def (FO := ROps)), X1. rewrite (initl_satn (FO := ROps) _ _ (in_satn o') (in_satn o)). apply (initl_high lm ACC); assumption. }
  pose proof (deep_eq (FO := B) o s0) as EQ. pose proof (deep_eq (FO := ROps) o' s0') as EQ'. unfold dn in EQ, EQ'.
  pose proof (s1_fields (FO := B) o s0) as FB. pose proof (s1_fields (FO := ROps) o' s0') as FR. cbv zeta in FB, FR.
  rewrite <- ES in EQ. rewrite <- ES' in EQ'. clear ES ES'.
  revert IA RP EQ EQ' FB FR.
  generalize (@s1 _ B o s0). intros a. generalize (@s1 _ ROps o' s0'). intros a'. generalize (@il _ B o). intros r. generalize (@il _ ROps o'). intros r'.
  intros IA RP EQ EQ' FB FR. pose proof IA as (Jno & _ & _ & _ & J41 & _ & _ & Jom & _).
  destruct (hguards r r' Jom Jno) as ((T1 & T1') & T2 & T2'). specialize (EQ T1 T2). specialize (EQ' T1' T2').
  destruct FB as (B1 & B2 & B3 & B4 & B5 & B6 & B7 & B8 & B9). destruct FR as (R1 & R2 & R3 & R4 & R5 & R6 & R7 & R8 & R9).
  rewrite <- R1, <- B1 in He. rewrite <- R2, <- B2 in Jno. rewrite <- R3, <- B3 in J41. rewrite <- R4, <- B4 in Hbs.
  rewrite <- R5, <- B5 in Harg. rewrite <- R6, <- B6 in Hmo. rewrite <- R7, <- B7 in Hnode. rewrite <- R8, <- B8 in Hi.
  apply (high_boot_rest o o' r r' a a' s s'); try assumption.
Qed.
End S.
