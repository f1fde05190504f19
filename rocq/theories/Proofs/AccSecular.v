(** * Binary64 accuracy of the higher drag terms and of the secular update, up to a day from the epoch *)
From Coq Require Import ZArith QArith Reals Qreals Bool Lra Lia Psatz.
From Flocq Require Import Core IEEE754.BinarySingleNaN.
From Verif.Model Require Import Float Str Satrec Constants Initl Sgp4 Sgp4init.
From Verif.Spec Require Import LibmAccuracy.
From Verif.Inst Require Import RInst RTac B64 B64Facts B64Calc ApxCalc.
From Verif.Proofs Require Import CalcFun CalcPow ApxFun AccInit AccNear.
Local Open Scope R_scope.

Record dbounds := DB { db_d2 : eb; db_d3 : eb; db_d4 : eb; db_t3cof : eb; db_t4cof : eb; db_t5cof : eb }.
Definition drag_ok (b : dbounds) (s : Satrec b64) (s' : Satrec R) : Prop :=
  apx (sr_d2 s) (sr_d2 s') (db_d2 b) /\ apx (sr_d3 s) (sr_d3 s') (db_d3 b) /\ apx (sr_d4 s) (sr_d4 s') (db_d4 b) /\
  apx (sr_t3cof s) (sr_t3cof s') (db_t3cof b) /\ apx (sr_t4cof s) (sr_t4cof s') (db_t4cof b) /\ apx (sr_t5cof s) (sr_t5cof s') (db_t5cof b).
Ltac drag_fields := cbn [sr_d2 sr_d3 sr_d4 sr_t3cof sr_t4cof sr_t5cof set_d2 set_d3 set_d4 set_t3cof set_t4cof set_t5cof].

(** what the secular update needs of the record *)
Definition tday := Eb (-1440) 1440 0 0.
Definition sec_in (T E : eb) (b : nbounds) (d : dbounds) (s : Satrec b64) (s' : Satrec R) : Prop :=
  (sr_isimp s = 0%Z /\ sr_isimp s' = 0%Z) /\
  apx (sr_t s) (sr_t s') T /\ apx (sr_bstar s) (sr_bstar s') in_bst /\
  apx (sr_mo s) (sr_mo s') in_ang /\ apx (sr_argpo s) (sr_argpo s') in_ang /\ apx (sr_nodeo s) (sr_nodeo s') in_ang /\
  apx (sr_ecco s) (sr_ecco s') E /\ apx (sr_no s) (sr_no s') noB /\
  apx (sr_eta s) (sr_eta s') (nb_eta b) /\ apx (sr_cc1 s) (sr_cc1 s') (nb_cc1 b) /\ apx (sr_cc4 s) (sr_cc4 s') (nb_cc4 b) /\ apx (sr_cc5 s) (sr_cc5 s') (nb_cc5 b) /\
  apx (sr_mdot s) (sr_mdot s') (nb_mdot b) /\ apx (sr_argpdot s) (sr_argpdot s') (nb_argpdot b) /\ apx (sr_nodedot s) (sr_nodedot s') (nb_nodedot b) /\
  apx (sr_omgcof s) (sr_omgcof s') (nb_omgcof b) /\ apx (sr_xmcof s) (sr_xmcof s') (nb_xmcof b) /\ apx (sr_nodecf s) (sr_nodecf s') (nb_nodecf b) /\
  apx (sr_t2cof s) (sr_t2cof s') (nb_t2cof b) /\ apx (sr_delmo s) (sr_delmo s') (nb_delmo b) /\ apx (sr_sinmao s) (sr_sinmao s') (nb_sinmao b) /\ drag_ok d s s'.
(** and what it returns, together with eccentricity, semi-major axis and mean motion at the new time *)
Record sbounds := SB { sb_argpm : eb; sb_mm : eb; sb_nodem : eb; sb_tempe : eb; sb_templ : eb; sb_em : eb; sb_am : eb; sb_nm : eb }.
Definition sec_ok (b : sbounds) (c : @Secular b64) (c' : @Secular R) (em : b64) (em' : R) (am : b64) (am' : R) (nm : b64) (nm' : R) : Prop :=
  apx (se_argpm c) (se_argpm c') (sb_argpm b) /\ apx (se_mm c) (se_mm c') (sb_mm b) /\ apx (se_nodem c) (se_nodem c') (sb_nodem b) /\
  apx (se_tempe c) (se_tempe c') (sb_tempe b) /\ apx (se_templ c) (se_templ c') (sb_templ b) /\
  apx em em' (sb_em b) /\ apx am am' (sb_am b) /\ apx nm nm' (sb_nm b).

Section S.
Context (lm : libm) (ACC : accurate lm).
Notation B := (B64Ops lm).
Definition sec_post (b : sbounds) (s : Satrec b64) (s' : Satrec R) (c : @Secular b64) (c' : @Secular R) : Prop :=
  forall em em' am am' nm nm', em = @fsub _ B (sr_ecco s) (se_tempe c) -> em' = @fsub _ ROps (sr_ecco s') (se_tempe c') -> am = @sgp4_am _ B s c -> am' = @sgp4_am _ ROps s' c' ->
  nm = @sgp4_nm _ B am -> nm' = @sgp4_nm _ ROps am' -> sec_ok b c c' em em' am am' nm nm'.
Definition db1 := DB (Eb (-647234 # 10 ^ 15) (647234 # 10 ^ 15) (737 # 10 ^ 14) (217 # 10 ^ 60))
  (Eb (-445707 # 10 ^ 18) (445707 # 10 ^ 18) (112 # 10 ^ 13) (290 # 10 ^ 61))
  (Eb (-355696 # 10 ^ 21) (355696 # 10 ^ 21) (150 # 10 ^ 13) (703 # 10 ^ 63))
  (Eb (-651003 # 10 ^ 15) (651003 # 10 ^ 15) (113 # 10 ^ 18) (480 # 10 ^ 23))
  (Eb (-336952 # 10 ^ 18) (336952 # 10 ^ 18) (225 # 10 ^ 18) (376 # 10 ^ 26))
  (Eb (-215396 # 10 ^ 21) (215396 # 10 ^ 21) (337 # 10 ^ 18) (322 # 10 ^ 29)).
Lemma drag_acc1 ao ao' tsi tsi' sfour sfour' (s : Satrec b64) (s' : Satrec R) :
  sr_isimp s = 0%Z -> sr_isimp s' = 0%Z -> apx ao ao' aoB -> 1034600 / 1000000 <= ao' -> apx tsi tsi' (nb_tsi nb1) -> apx sfour sfour' (nb_sfour nb1) ->
  apx (sr_cc1 s) (sr_cc1 s') (nb_cc1 nb1) ->
  drag_ok db1 (@sgp4init_drag _ B ao tsi sfour s) (@sgp4init_drag _ ROps ao' tsi' sfour' s').
Proof.
  intros I1 I2 Hao AL Htsi Hsf Hcc1. set (P := drag_ok db1). acut Hao (1034600 # 1000000)%Q 2%Q.
  cbv beta delta [sgp4init_drag]. rewrite I1, I2. change (negb (0 =? 1)%Z) with true; cbv iota. astep. lets cc1sq. lets d2. lets temp. lets d3. lets d4. lets t3cof. lets t4cof. lets t5cof.
  do 5 askip. unfold P, drag_ok. drag_fields. asplit.
Qed.
Definition sb1 := SB (Eb (-732518 # 10 ^ 5) (732518 # 10 ^ 5) (113 # 10 ^ 18) (917 # 10 ^ 17))
  (Eb (-112565 # 10 ^ 3) (112565 # 10 ^ 3) (113 # 10 ^ 18) (159 # 10 ^ 15))
  (Eb (-716207 # 10 ^ 5) (716207 # 10 ^ 5) (113 # 10 ^ 18) (105 # 10 ^ 16))
  (Eb (-178985 # 10 ^ 8) (178985 # 10 ^ 8) (113 # 10 ^ 18) (244 # 10 ^ 17))
  (Eb (-899632 # 10 ^ 5) (899632 # 10 ^ 5) (113 # 10 ^ 18) (663 # 10 ^ 13))
  (Eb (-178985 # 10 ^ 8) (188985 # 10 ^ 8) (113 # 10 ^ 18) (245 # 10 ^ 17))
  (Eb (999185 # 10 ^ 6) (194461 # 10 ^ 5) (115 # 10 ^ 15) 0)
  (Eb (274241 # 10 ^ 7) (744575 # 10 ^ 7) (173 # 10 ^ 15) 0).
Lemma sec_acc1 (s : Satrec b64) (s' : Satrec R) : sec_in tday box1 nb1 db1 s s' ->
  sec_post sb1 s s' (@sgp4_secular _ B s) (@sgp4_secular _ ROps s').
Proof.
  intros ((I1 & I2) & Ht & Hbs & Hmo & Hargpo & Hnodeo & He & Hno & Heta & Hcc1 & Hcc4 & Hcc5 & Hmdot & Hargpdot & Hnodedot & Homgcof & Hxmcof & Hnodecf & Ht2cof & Hdelmo & Hsinmao & Hd2 & Hd3 & Hd4 & Ht3cof & Ht4cof & Ht5cof).
  aconst @kXKE. aconst @kX2O3.
  match goal with |- ?G _ _ => set (PP := G) end.
  cbv beta delta [sgp4_secular]. rewrite I1, I2. change (negb (0 =? 1)%Z) with true; cbv iota. lets xmdf. lets argpdf. lets nodedf. astep. astep. lets t2. assert (0 <= t2') by (rewrite Et2; rops; apply Rle_0_sqr). acut Ht2 0%Q 2073601%Q. lets nodem. lets tempa0. lets tempe0. lets templ0.
  lets delomg. lets delmtemp. lets delm. lets temp. lets mm. lets argpm. lets t3. lets t4. assert (0 <= t4') by (rewrite Et4, Et3, Et2; rops; replace (sr_t s' * sr_t s' * sr_t s' * sr_t s') with ((sr_t s' * sr_t s') * (sr_t s' * sr_t s')) by ring; apply Rle_0_sqr). acut Ht4 0%Q 4400000000000%Q. lets tempa. lets tempe. lets templ.
  unfold PP, sec_post. cbn [se_tempe]. intros em em' am am' nm nm' Eem Eem' Eam Eam' Enm Enm'. unfold sgp4_am in Eam, Eam'. cbn [se_tempa] in Eam, Eam'. cbv zeta in Eam, Eam'. unfold sgp4_nm in Enm, Enm'. cbv zeta in Enm, Enm'.
  eassert (Hem : apx em em' _) by (rewrite Eem, Eem'; arel). eassert (Ham : apx am am' _) by (rewrite Eam, Eam'; arel). eassert (Hnm : apx nm nm' _) by (rewrite Enm, Enm'; arel).
  unfold sec_ok. cbn [se_argpm se_mm se_nodem se_tempe se_templ]. asplit.
Qed.
Definition db2 := DB (Eb (-633406 # 10 ^ 15) (633406 # 10 ^ 15) (737 # 10 ^ 14) (216 # 10 ^ 60))
  (Eb (-430510 # 10 ^ 18) (430510 # 10 ^ 18) (112 # 10 ^ 13) (290 # 10 ^ 61))
  (Eb (-339098 # 10 ^ 21) (339098 # 10 ^ 21) (150 # 10 ^ 13) (702 # 10 ^ 63))
  (Eb (-637111 # 10 ^ 15) (637111 # 10 ^ 15) (113 # 10 ^ 18) (470 # 10 ^ 23))
  (Eb (-325475 # 10 ^ 18) (325475 # 10 ^ 18) (225 # 10 ^ 18) (363 # 10 ^ 26))
  (Eb (-205354 # 10 ^ 21) (205354 # 10 ^ 21) (337 # 10 ^ 18) (307 # 10 ^ 29)).
Lemma drag_acc2 ao ao' tsi tsi' sfour sfour' (s : Satrec b64) (s' : Satrec R) :
  sr_isimp s = 0%Z -> sr_isimp s' = 0%Z -> apx ao ao' aoB -> 1034703 / 1000000 <= ao' -> apx tsi tsi' (nb_tsi nb2) -> apx sfour sfour' (nb_sfour nb2) ->
  apx (sr_cc1 s) (sr_cc1 s') (nb_cc1 nb2) ->
  drag_ok db2 (@sgp4init_drag _ B ao tsi sfour s) (@sgp4init_drag _ ROps ao' tsi' sfour' s').
Proof.
  intros I1 I2 Hao AL Htsi Hsf Hcc1. set (P := drag_ok db2). acut Hao (1034703 # 1000000)%Q 2%Q.
  cbv beta delta [sgp4init_drag]. rewrite I1, I2. change (negb (0 =? 1)%Z) with true; cbv iota. astep. lets cc1sq. lets d2. lets temp. lets d3. lets d4. lets t3cof. lets t4cof. lets t5cof.
  do 5 askip. unfold P, drag_ok. drag_fields. asplit.
Qed.
Definition sb2 := SB (Eb (-117772 # 10 ^ 4) (117772 # 10 ^ 4) (113 # 10 ^ 18) (522 # 10 ^ 14))
  (Eb (-117017 # 10 ^ 3) (117017 # 10 ^ 3) (113 # 10 ^ 18) (537 # 10 ^ 14))
  (Eb (-716206 # 10 ^ 5) (716206 # 10 ^ 5) (113 # 10 ^ 18) (104 # 10 ^ 16))
  (Eb (-200958 # 10 ^ 8) (200958 # 10 ^ 8) (113 # 10 ^ 18) (289 # 10 ^ 17))
  (Eb (-880717 # 10 ^ 5) (880717 # 10 ^ 5) (113 # 10 ^ 18) (644 # 10 ^ 13))
  (Eb (-190958 # 10 ^ 8) (300959 # 10 ^ 8) (113 # 10 ^ 18) (289 # 10 ^ 17))
  (Eb (999511 # 10 ^ 6) (194399 # 10 ^ 5) (111 # 10 ^ 15) 0)
  (Eb (274374 # 10 ^ 7) (744211 # 10 ^ 7) (167 # 10 ^ 15) 0).
Lemma sec_acc2 (s : Satrec b64) (s' : Satrec R) : sec_in tday box2 nb2 db2 s s' ->
  sec_post sb2 s s' (@sgp4_secular _ B s) (@sgp4_secular _ ROps s').
Proof.
  intros ((I1 & I2) & Ht & Hbs & Hmo & Hargpo & Hnodeo & He & Hno & Heta & Hcc1 & Hcc4 & Hcc5 & Hmdot & Hargpdot & Hnodedot & Homgcof & Hxmcof & Hnodecf & Ht2cof & Hdelmo & Hsinmao & Hd2 & Hd3 & Hd4 & Ht3cof & Ht4cof & Ht5cof).
  aconst @kXKE. aconst @kX2O3.
  match goal with |- ?G _ _ => set (PP := G) end.
  cbv beta delta [sgp4_secular]. rewrite I1, I2. change (negb (0 =? 1)%Z) with true; cbv iota. lets xmdf. lets argpdf. lets nodedf. astep. astep. lets t2. assert (0 <= t2') by (rewrite Et2; rops; apply Rle_0_sqr). acut Ht2 0%Q 2073601%Q. lets nodem. lets tempa0. lets tempe0. lets templ0.
  lets delomg. lets delmtemp. lets delm. lets temp. lets mm. lets argpm. lets t3. lets t4. assert (0 <= t4') by (rewrite Et4, Et3, Et2; rops; replace (sr_t s' * sr_t s' * sr_t s' * sr_t s') with ((sr_t s' * sr_t s') * (sr_t s' * sr_t s')) by ring; apply Rle_0_sqr). acut Ht4 0%Q 4400000000000%Q. lets tempa. lets tempe. lets templ.
  unfold PP, sec_post. cbn [se_tempe]. intros em em' am am' nm nm' Eem Eem' Eam Eam' Enm Enm'. unfold sgp4_am in Eam, Eam'. cbn [se_tempa] in Eam, Eam'. cbv zeta in Eam, Eam'. unfold sgp4_nm in Enm, Enm'. cbv zeta in Enm, Enm'.
  eassert (Hem : apx em em' _) by (rewrite Eem, Eem'; arel). eassert (Ham : apx am am' _) by (rewrite Eam, Eam'; arel). eassert (Hnm : apx nm nm' _) by (rewrite Enm, Enm'; arel).
  unfold sec_ok. cbn [se_argpm se_mm se_nodem se_tempe se_templ]. asplit.
Qed.
Definition db3 := DB (Eb (-128262 # 10 ^ 14) (128262 # 10 ^ 14) (206 # 10 ^ 13) (207 # 10 ^ 60))
  (Eb (-121558 # 10 ^ 17) (121558 # 10 ^ 17) (310 # 10 ^ 13) (291 # 10 ^ 61))
  (Eb (-133509 # 10 ^ 20) (133509 # 10 ^ 20) (414 # 10 ^ 13) (731 # 10 ^ 63))
  (Eb (-129044 # 10 ^ 14) (129044 # 10 ^ 14) (113 # 10 ^ 18) (266 # 10 ^ 22))
  (Eb (-919310 # 10 ^ 18) (919310 # 10 ^ 18) (225 # 10 ^ 18) (285 # 10 ^ 25))
  (Eb (-808825 # 10 ^ 21) (808825 # 10 ^ 21) (337 # 10 ^ 18) (335 # 10 ^ 28)).
Lemma drag_acc3 ao ao' tsi tsi' sfour sfour' (s : Satrec b64) (s' : Satrec R) :
  sr_isimp s = 0%Z -> sr_isimp s' = 0%Z -> apx ao ao' aoB -> 1035635 / 1000000 <= ao' -> apx tsi tsi' (nb_tsi nb3) -> apx sfour sfour' (nb_sfour nb3) ->
  apx (sr_cc1 s) (sr_cc1 s') (nb_cc1 nb3) ->
  drag_ok db3 (@sgp4init_drag _ B ao tsi sfour s) (@sgp4init_drag _ ROps ao' tsi' sfour' s').
Proof.
  intros I1 I2 Hao AL Htsi Hsf Hcc1. set (P := drag_ok db3). acut Hao (1035635 # 1000000)%Q 2%Q.
  cbv beta delta [sgp4init_drag]. rewrite I1, I2. change (negb (0 =? 1)%Z) with true; cbv iota. astep. lets cc1sq. lets d2. lets temp. lets d3. lets d4. lets t3cof. lets t4cof. lets t5cof.
  do 5 askip. unfold P, drag_ok. drag_fields. asplit.
Qed.
Definition sb3 := SB (Eb (-775374 # 10 ^ 5) (775374 # 10 ^ 5) (113 # 10 ^ 18) (872 # 10 ^ 15))
  (Eb (-112994 # 10 ^ 3) (112994 # 10 ^ 3) (113 # 10 ^ 18) (103 # 10 ^ 14))
  (Eb (-716256 # 10 ^ 5) (716256 # 10 ^ 5) (113 # 10 ^ 18) (227 # 10 ^ 16))
  (Eb (-559084 # 10 ^ 8) (559084 # 10 ^ 8) (113 # 10 ^ 18) (983 # 10 ^ 17))
  (Eb (-189626 # 10 ^ 4) (189626 # 10 ^ 4) (113 # 10 ^ 18) (477 # 10 ^ 12))
  (Eb (-459083 # 10 ^ 8) (255911 # 10 ^ 7) (113 # 10 ^ 18) (984 # 10 ^ 17))
  (Eb (981773 # 10 ^ 6) (197837 # 10 ^ 5) (893 # 10 ^ 15) 0)
  (Eb (267251 # 10 ^ 7) (764470 # 10 ^ 7) (134 # 10 ^ 14) 0).
Lemma sec_acc3 (s : Satrec b64) (s' : Satrec R) : sec_in tday box3 nb3 db3 s s' ->
  sec_post sb3 s s' (@sgp4_secular _ B s) (@sgp4_secular _ ROps s').
Proof.
  intros ((I1 & I2) & Ht & Hbs & Hmo & Hargpo & Hnodeo & He & Hno & Heta & Hcc1 & Hcc4 & Hcc5 & Hmdot & Hargpdot & Hnodedot & Homgcof & Hxmcof & Hnodecf & Ht2cof & Hdelmo & Hsinmao & Hd2 & Hd3 & Hd4 & Ht3cof & Ht4cof & Ht5cof).
  aconst @kXKE. aconst @kX2O3.
  match goal with |- ?G _ _ => set (PP := G) end.
  cbv beta delta [sgp4_secular]. rewrite I1, I2. change (negb (0 =? 1)%Z) with true; cbv iota. lets xmdf. lets argpdf. lets nodedf. astep. astep. lets t2. assert (0 <= t2') by (rewrite Et2; rops; apply Rle_0_sqr). acut Ht2 0%Q 2073601%Q. lets nodem. lets tempa0. lets tempe0. lets templ0.
  lets delomg. lets delmtemp. lets delm. lets temp. lets mm. lets argpm. lets t3. lets t4. assert (0 <= t4') by (rewrite Et4, Et3, Et2; rops; replace (sr_t s' * sr_t s' * sr_t s' * sr_t s') with ((sr_t s' * sr_t s') * (sr_t s' * sr_t s')) by ring; apply Rle_0_sqr). acut Ht4 0%Q 4400000000000%Q. lets tempa. lets tempe. lets templ.
  unfold PP, sec_post. cbn [se_tempe]. intros em em' am am' nm nm' Eem Eem' Eam Eam' Enm Enm'. unfold sgp4_am in Eam, Eam'. cbn [se_tempa] in Eam, Eam'. cbv zeta in Eam, Eam'. unfold sgp4_nm in Enm, Enm'. cbv zeta in Enm, Enm'.
  eassert (Hem : apx em em' _) by (rewrite Eem, Eem'; arel). eassert (Ham : apx am am' _) by (rewrite Eam, Eam'; arel). eassert (Hnm : apx nm nm' _) by (rewrite Enm, Enm'; arel).
  unfold sec_ok. cbn [se_argpm se_mm se_nodem se_tempe se_templ]. asplit.
Qed.
Definition db4 := DB (Eb (-119494 # 10 ^ 14) (119494 # 10 ^ 14) (421 # 10 ^ 14) (120 # 10 ^ 23))
  (Eb (-801944 # 10 ^ 18) (801944 # 10 ^ 18) (636 # 10 ^ 14) (121 # 10 ^ 26))
  (Eb (-623716 # 10 ^ 21) (623716 # 10 ^ 21) (851 # 10 ^ 14) (125 # 10 ^ 29))
  (Eb (-120846 # 10 ^ 14) (120846 # 10 ^ 14) (113 # 10 ^ 18) (629 # 10 ^ 23))
  (Eb (-610825 # 10 ^ 18) (610825 # 10 ^ 18) (225 # 10 ^ 18) (480 # 10 ^ 26))
  (Eb (-380997 # 10 ^ 21) (380997 # 10 ^ 21) (337 # 10 ^ 18) (401 # 10 ^ 29)).
Lemma drag_acc4 ao ao' tsi tsi' sfour sfour' (s : Satrec b64) (s' : Satrec R) :
  sr_isimp s = 0%Z -> sr_isimp s' = 0%Z -> apx ao ao' aoB -> 1055714 / 1000000 <= ao' -> apx tsi tsi' (nb_tsi nb4) -> apx sfour sfour' (nb_sfour nb4) ->
  apx (sr_cc1 s) (sr_cc1 s') (nb_cc1 nb4) ->
  drag_ok db4 (@sgp4init_drag _ B ao tsi sfour s) (@sgp4init_drag _ ROps ao' tsi' sfour' s').
Proof.
  intros I1 I2 Hao AL Htsi Hsf Hcc1. set (P := drag_ok db4). acut Hao (1055714 # 1000000)%Q 2%Q.
  cbv beta delta [sgp4init_drag]. rewrite I1, I2. change (negb (0 =? 1)%Z) with true; cbv iota. astep. lets cc1sq. lets d2. lets temp. lets d3. lets d4. lets t3cof. lets t4cof. lets t5cof.
  do 5 askip. unfold P, drag_ok. drag_fields. asplit.
Qed.
Definition sb4 := SB (Eb (-732570 # 10 ^ 5) (732570 # 10 ^ 5) (113 # 10 ^ 18) (107 # 10 ^ 16))
  (Eb (-112566 # 10 ^ 3) (112566 # 10 ^ 3) (113 # 10 ^ 18) (161 # 10 ^ 15))
  (Eb (-716306 # 10 ^ 5) (716306 # 10 ^ 5) (113 # 10 ^ 18) (119 # 10 ^ 16))
  (Eb (-753740 # 10 ^ 8) (753740 # 10 ^ 8) (113 # 10 ^ 18) (192 # 10 ^ 16))
  (Eb (-166828 # 10 ^ 4) (166828 # 10 ^ 4) (113 # 10 ^ 18) (856 # 10 ^ 13))
  (Eb (124625 # 10 ^ 7) (107539 # 10 ^ 6) (154 # 10 ^ 14) 0)
  (Eb (988916 # 10 ^ 6) (196445 # 10 ^ 5) (145 # 10 ^ 15) 0)
  (Eb (270097 # 10 ^ 7) (756202 # 10 ^ 7) (219 # 10 ^ 15) 0).
Lemma sec_acc4 (s : Satrec b64) (s' : Satrec R) : sec_in tday box4 nb4 db4 s s' ->
  sec_post sb4 s s' (@sgp4_secular _ B s) (@sgp4_secular _ ROps s').
Proof.
  intros ((I1 & I2) & Ht & Hbs & Hmo & Hargpo & Hnodeo & He & Hno & Heta & Hcc1 & Hcc4 & Hcc5 & Hmdot & Hargpdot & Hnodedot & Homgcof & Hxmcof & Hnodecf & Ht2cof & Hdelmo & Hsinmao & Hd2 & Hd3 & Hd4 & Ht3cof & Ht4cof & Ht5cof).
  aconst @kXKE. aconst @kX2O3.
  match goal with |- ?G _ _ => set (PP := G) end.
  cbv beta delta [sgp4_secular]. rewrite I1, I2. change (negb (0 =? 1)%Z) with true; cbv iota. lets xmdf. lets argpdf. lets nodedf. astep. astep. lets t2. assert (0 <= t2') by (rewrite Et2; rops; apply Rle_0_sqr). acut Ht2 0%Q 2073601%Q. lets nodem. lets tempa0. lets tempe0. lets templ0.
  lets delomg. lets delmtemp. lets delm. lets temp. lets mm. lets argpm. lets t3. lets t4. assert (0 <= t4') by (rewrite Et4, Et3, Et2; rops; replace (sr_t s' * sr_t s' * sr_t s' * sr_t s') with ((sr_t s' * sr_t s') * (sr_t s' * sr_t s')) by ring; apply Rle_0_sqr). acut Ht4 0%Q 4400000000000%Q. lets tempa. lets tempe. lets templ.
  unfold PP, sec_post. cbn [se_tempe]. intros em em' am am' nm nm' Eem Eem' Eam Eam' Enm Enm'. unfold sgp4_am in Eam, Eam'. cbn [se_tempa] in Eam, Eam'. cbv zeta in Eam, Eam'. unfold sgp4_nm in Enm, Enm'. cbv zeta in Enm, Enm'.
  eassert (Hem : apx em em' _) by (rewrite Eem, Eem'; arel). eassert (Ham : apx am am' _) by (rewrite Eam, Eam'; arel). eassert (Hnm : apx nm nm' _) by (rewrite Enm, Enm'; arel).
  unfold sec_ok. cbn [se_argpm se_mm se_nodem se_tempe se_templ]. asplit.
Qed.
Definition db5 := DB (Eb (-220054 # 10 ^ 15) (220054 # 10 ^ 15) (384 # 10 ^ 14) (111 # 10 ^ 24))
  (Eb (-356626 # 10 ^ 19) (356626 # 10 ^ 19) (577 # 10 ^ 14) (269 # 10 ^ 28))
  (Eb (-669791 # 10 ^ 23) (669791 # 10 ^ 23) (770 # 10 ^ 14) (673 # 10 ^ 32))
  (Eb (-227920 # 10 ^ 15) (227920 # 10 ^ 15) (113 # 10 ^ 18) (988 # 10 ^ 24))
  (Eb (-280757 # 10 ^ 19) (280757 # 10 ^ 19) (225 # 10 ^ 18) (183 # 10 ^ 27))
  (Eb (-425184 # 10 ^ 23) (425184 # 10 ^ 23) (337 # 10 ^ 18) (370 # 10 ^ 31)).
Lemma drag_acc5 ao ao' tsi tsi' sfour sfour' (s : Satrec b64) (s' : Satrec R) :
  sr_isimp s = 0%Z -> sr_isimp s' = 0%Z -> apx ao ao' aoB -> 1149555 / 1000000 <= ao' -> apx tsi tsi' (nb_tsi nb5) -> apx sfour sfour' (nb_sfour nb5) ->
  apx (sr_cc1 s) (sr_cc1 s') (nb_cc1 nb5) ->
  drag_ok db5 (@sgp4init_drag _ B ao tsi sfour s) (@sgp4init_drag _ ROps ao' tsi' sfour' s').
Proof.
  intros I1 I2 Hao AL Htsi Hsf Hcc1. set (P := drag_ok db5). acut Hao (1149555 # 1000000)%Q 2%Q.
  cbv beta delta [sgp4init_drag]. rewrite I1, I2. change (negb (0 =? 1)%Z) with true; cbv iota. astep. lets cc1sq. lets d2. lets temp. lets d3. lets d4. lets t3cof. lets t4cof. lets t5cof.
  do 5 askip. unfold P, drag_ok. drag_fields. asplit.
Qed.
Definition sb5 := SB (Eb (-732518 # 10 ^ 5) (732518 # 10 ^ 5) (113 # 10 ^ 18) (917 # 10 ^ 17))
  (Eb (-112565 # 10 ^ 3) (112565 # 10 ^ 3) (113 # 10 ^ 18) (159 # 10 ^ 15))
  (Eb (-716256 # 10 ^ 5) (716256 # 10 ^ 5) (113 # 10 ^ 18) (990 # 10 ^ 17))
  (Eb (-531290 # 10 ^ 8) (531290 # 10 ^ 8) (113 # 10 ^ 18) (116 # 10 ^ 16))
  (Eb (-699621 # 10 ^ 5) (699621 # 10 ^ 5) (113 # 10 ^ 18) (173 # 10 ^ 13))
  (Eb (946862 # 10 ^ 7) (255316 # 10 ^ 6) (122 # 10 ^ 15) 0)
  (Eb (100468 # 10 ^ 5) (193407 # 10 ^ 5) (213 # 10 ^ 16) 0)
  (Eb (276487 # 10 ^ 7) (738469 # 10 ^ 7) (331 # 10 ^ 16) 0).
Lemma sec_acc5 (s : Satrec b64) (s' : Satrec R) : sec_in tday box5 nb5 db5 s s' ->
  sec_post sb5 s s' (@sgp4_secular _ B s) (@sgp4_secular _ ROps s').
Proof.
  intros ((I1 & I2) & Ht & Hbs & Hmo & Hargpo & Hnodeo & He & Hno & Heta & Hcc1 & Hcc4 & Hcc5 & Hmdot & Hargpdot & Hnodedot & Homgcof & Hxmcof & Hnodecf & Ht2cof & Hdelmo & Hsinmao & Hd2 & Hd3 & Hd4 & Ht3cof & Ht4cof & Ht5cof).
  aconst @kXKE. aconst @kX2O3.
  match goal with |- ?G _ _ => set (PP := G) end.
  cbv beta delta [sgp4_secular]. rewrite I1, I2. change (negb (0 =? 1)%Z) with true; cbv iota. lets xmdf. lets argpdf. lets nodedf. astep. astep. lets t2. assert (0 <= t2') by (rewrite Et2; rops; apply Rle_0_sqr). acut Ht2 0%Q 2073601%Q. lets nodem. lets tempa0. lets tempe0. lets templ0.
  lets delomg. lets delmtemp. lets delm. lets temp. lets mm. lets argpm. lets t3. lets t4. assert (0 <= t4') by (rewrite Et4, Et3, Et2; rops; replace (sr_t s' * sr_t s' * sr_t s' * sr_t s') with ((sr_t s' * sr_t s') * (sr_t s' * sr_t s')) by ring; apply Rle_0_sqr). acut Ht4 0%Q 4400000000000%Q. lets tempa. lets tempe. lets templ.
  unfold PP, sec_post. cbn [se_tempe]. intros em em' am am' nm nm' Eem Eem' Eam Eam' Enm Enm'. unfold sgp4_am in Eam, Eam'. cbn [se_tempa] in Eam, Eam'. cbv zeta in Eam, Eam'. unfold sgp4_nm in Enm, Enm'. cbv zeta in Enm, Enm'.
  eassert (Hem : apx em em' _) by (rewrite Eem, Eem'; arel). eassert (Ham : apx am am' _) by (rewrite Eam, Eam'; arel). eassert (Hnm : apx nm nm' _) by (rewrite Enm, Enm'; arel).
  unfold sec_ok. cbn [se_argpm se_mm se_nodem se_tempe se_templ]. asplit.
Qed.
Definition db6 := DB (Eb (-487528 # 10 ^ 16) (487528 # 10 ^ 16) (135 # 10 ^ 13) (138 # 10 ^ 61))
  (Eb (-227417 # 10 ^ 20) (227417 # 10 ^ 20) (202 # 10 ^ 13) (289 # 10 ^ 61))
  (Eb (-122939 # 10 ^ 24) (122939 # 10 ^ 24) (269 # 10 ^ 13) (634 # 10 ^ 63))
  (Eb (-534132 # 10 ^ 16) (534132 # 10 ^ 16) (113 # 10 ^ 18) (718 # 10 ^ 24))
  (Eb (-193779 # 10 ^ 20) (193779 # 10 ^ 20) (225 # 10 ^ 18) (391 # 10 ^ 28))
  (Eb (-856449 # 10 ^ 25) (856449 # 10 ^ 25) (337 # 10 ^ 18) (231 # 10 ^ 32)).
Lemma drag_acc6 ao ao' tsi tsi' sfour sfour' (s : Satrec b64) (s' : Satrec R) :
  sr_isimp s = 0%Z -> sr_isimp s' = 0%Z -> apx ao ao' aoB -> 1379466 / 1000000 <= ao' -> apx tsi tsi' (nb_tsi nb6) -> apx sfour sfour' (nb_sfour nb6) ->
  apx (sr_cc1 s) (sr_cc1 s') (nb_cc1 nb6) ->
  drag_ok db6 (@sgp4init_drag _ B ao tsi sfour s) (@sgp4init_drag _ ROps ao' tsi' sfour' s').
Proof.
  intros I1 I2 Hao AL Htsi Hsf Hcc1. set (P := drag_ok db6). acut Hao (1379466 # 1000000)%Q 2%Q.
  cbv beta delta [sgp4init_drag]. rewrite I1, I2. change (negb (0 =? 1)%Z) with true; cbv iota. astep. lets cc1sq. lets d2. lets temp. lets d3. lets d4. lets t3cof. lets t4cof. lets t5cof.
  do 5 askip. unfold P, drag_ok. drag_fields. asplit.
Qed.
Definition sb6 := SB (Eb (-732518 # 10 ^ 5) (732518 # 10 ^ 5) (113 # 10 ^ 18) (917 # 10 ^ 17))
  (Eb (-112565 # 10 ^ 3) (112565 # 10 ^ 3) (113 # 10 ^ 18) (159 # 10 ^ 15))
  (Eb (-716220 # 10 ^ 5) (716220 # 10 ^ 5) (113 # 10 ^ 18) (147 # 10 ^ 16))
  (Eb (-356698 # 10 ^ 8) (356698 # 10 ^ 8) (113 # 10 ^ 18) (763 # 10 ^ 17))
  (Eb (-491641 # 10 ^ 5) (491641 # 10 ^ 5) (113 # 10 ^ 18) (342 # 10 ^ 13))
  (Eb (246430 # 10 ^ 6) (454572 # 10 ^ 6) (312 # 10 ^ 16) 0)
  (Eb (100698 # 10 ^ 5) (192967 # 10 ^ 5) (357 # 10 ^ 16) 0)
  (Eb (277433 # 10 ^ 7) (735939 # 10 ^ 7) (546 # 10 ^ 16) 0).
Lemma sec_acc6 (s : Satrec b64) (s' : Satrec R) : sec_in tday box6 nb6 db6 s s' ->
  sec_post sb6 s s' (@sgp4_secular _ B s) (@sgp4_secular _ ROps s').
Proof.
  intros ((I1 & I2) & Ht & Hbs & Hmo & Hargpo & Hnodeo & He & Hno & Heta & Hcc1 & Hcc4 & Hcc5 & Hmdot & Hargpdot & Hnodedot & Homgcof & Hxmcof & Hnodecf & Ht2cof & Hdelmo & Hsinmao & Hd2 & Hd3 & Hd4 & Ht3cof & Ht4cof & Ht5cof).
  aconst @kXKE. aconst @kX2O3.
  match goal with |- ?G _ _ => set (PP := G) end.
  cbv beta delta [sgp4_secular]. rewrite I1, I2. change (negb (0 =? 1)%Z) with true; cbv iota. lets xmdf. lets argpdf. lets nodedf. astep. astep. lets t2. assert (0 <= t2') by (rewrite Et2; rops; apply Rle_0_sqr). acut Ht2 0%Q 2073601%Q. lets nodem. lets tempa0. lets tempe0. lets templ0.
  lets delomg. lets delmtemp. lets delm. lets temp. lets mm. lets argpm. lets t3. lets t4. assert (0 <= t4') by (rewrite Et4, Et3, Et2; rops; replace (sr_t s' * sr_t s' * sr_t s' * sr_t s') with ((sr_t s' * sr_t s') * (sr_t s' * sr_t s')) by ring; apply Rle_0_sqr). acut Ht4 0%Q 4400000000000%Q. lets tempa. lets tempe. lets templ.
  unfold PP, sec_post. cbn [se_tempe]. intros em em' am am' nm nm' Eem Eem' Eam Eam' Enm Enm'. unfold sgp4_am in Eam, Eam'. cbn [se_tempa] in Eam, Eam'. cbv zeta in Eam, Eam'. unfold sgp4_nm in Enm, Enm'. cbv zeta in Enm, Enm'.
  eassert (Hem : apx em em' _) by (rewrite Eem, Eem'; arel). eassert (Ham : apx am am' _) by (rewrite Eam, Eam'; arel). eassert (Hnm : apx nm nm' _) by (rewrite Enm, Enm'; arel).
  unfold sec_ok. cbn [se_argpm se_mm se_nodem se_tempe se_templ]. asplit.
Qed.
End S.
