(** * Binary64 accuracy of a propagation, from the mean elements to position and velocity *)
From Coq Require Import ZArith QArith Reals Qreals Bool Lra Lia Psatz.
From Flocq Require Import Core IEEE754.BinarySingleNaN.
From Verif.Model Require Import Float Str Satrec Constants Vec3 Initl Sgp4 Sgp4init.
From Verif.Spec Require Import LibmAccuracy.
From Verif.Inst Require Import RInst RTac B64 B64Facts B64Calc ApxCalc Atan2.
From Verif.Proofs Require Import CalcFun CalcPow CalcAngle ApxFun AccInit AccNear AccSecular KeplerFacts AccKepler Str3State AccState.
Local Open Scope R_scope.

Definition twoB (e : Q) : bd := Bd (-62832 # 10000) (62832 # 10000) e.
Definition mean_ok (m : @Mean b64) (m' : @Mean R) : Prop :=
  apx (mn_ep m) (mn_ep m') epB /\ relm (mn_argpp m) (mn_argpp m') (twoB (62 # 10 ^ 13)) /\ relm (mn_nodep m) (mn_nodep m') (twoB (31 # 10 ^ 14)) /\
  relm (mn_mp m) (mn_mp m') (twoB (65 # 10 ^ 12)).

(** Kepler's equation: eccentricity vector and argument *)
Definition amB := sb_am sbC.
Definition nmB := sb_nm sbC.
Definition axB := Eb (-4587 # 10000) (4587 # 10000) 0 (41 # 10 ^ 13).
Definition ayB := Eb (-4603 # 10000) (4603 # 10000) 0 (41 # 10 ^ 13).
Definition uB : bd := twoB (78 # 10 ^ 12).
Definition kin_ok (k : @KeplerIn b64) (k' : @KeplerIn R) : Prop :=
  apx (ki_axnl k) (ki_axnl k') axB /\ apx (ki_aynl k) (ki_aynl k') ayB /\ relm (ki_u k) (ki_u k') uB /\
  ki_axnl k' * ki_axnl k' + ki_aynl k' * ki_aynl k' <= 4605 / 10000 * (4605 / 10000).

(** position in the orbit *)
Definition kscB := Eb (-1) 1 0 (167 # 10 ^ 12).
Definition plB := Eb (76 # 100) (2074 # 1000) (11 # 10 ^ 12) 0.
Definition rlB := Eb (526 # 1000) (303 # 100) (32 # 10 ^ 11) 0.
Definition rdB := Eb (-126 # 100) (126 # 100) 0 (84 # 10 ^ 11).
Definition rvB := Eb (289 # 1000) (274 # 100) (33 # 10 ^ 11) 0.
Definition beB := Eb (887 # 1000) (100001 # 100000) (99 # 10 ^ 13) 0.
Definition suB : bd := Bd (-4) 4 (24 # 10 ^ 10).
Definition s2B := Eb (-1) 1 0 (43 # 10 ^ 10).
Definition c2B := Eb (-1) 1 0 (46 # 10 ^ 10).
Definition t1B := Eb (26 # 100000) (71 # 100000) (11 # 10 ^ 12) 0.
Definition t2B := Eb (12 # 100000) (92 # 100000) (22 # 10 ^ 12) 0.
Definition shq_ok (q : @ShortQ b64) (q' : @ShortQ R) : Prop :=
  apx (q_rl q) (q_rl q') rlB /\ apx (q_rdotl q) (q_rdotl q') rdB /\ apx (q_rvdotl q) (q_rvdotl q') rvB /\ apx (q_betal q) (q_betal q') beB /\
  relm (q_su q) (q_su q') suB /\ apx (q_sin2u q) (q_sin2u q') s2B /\ apx (q_cos2u q) (q_cos2u q') c2B /\ apx (q_temp1 q) (q_temp1 q') t1B /\ apx (q_temp2 q) (q_temp2 q') t2B.

(** the osculating orbit *)
Definition mrB := Eb (51 # 100) (305 # 100) 0 (99 # 10 ^ 11).
Definition osuB : bd := Bd (-41 # 10) (41 # 10) (245 # 10 ^ 11).
Definition xnB : bd := Bd (-629 # 100) (629 # 100) (7 # 10 ^ 12).
Definition xiB := Eb (-1 # 100) (302 # 100) 0 (7 # 10 ^ 12).
Definition mvB := Eb (-127 # 100) (127 # 100) 0 (87 # 10 ^ 11).
Definition rvdB := Eb (28 # 100) (275 # 100) 0 (97 # 10 ^ 11).
Definition posB := Eb (-50000) 50000 0 (12 # 10 ^ 5).
Definition velB := Eb (-100) 100 0 (20 # 10 ^ 8).
Definition osc_ok (o : @Osc b64) (o' : @Osc R) : Prop :=
  apx (os_mrt o) (os_mrt o') mrB /\ relm (os_su o) (os_su o') osuB /\ relm (os_xnode o) (os_xnode o') xnB /\ apx (os_xinc o) (os_xinc o') xiB /\
  apx (os_mvt o) (os_mvt o') mvB /\ apx (os_rvdot o) (os_rvdot o') rvdB.
Definition vec_ok (v : Vec3 b64) (v' : Vec3 R) (A : eb) : Prop := apx (v_x v) (v_x v') A /\ apx (v_y v) (v_y v') A /\ apx (v_z v) (v_z v') A.

Section S.
Context (lm : libm) (ACC : accurate lm).
Notation B := (B64Ops lm).

Lemma mean_acc (s : Satrec b64) (s' : Satrec R) c c' em em' am am' nm nm' : apx (sr_no s) (sr_no s') noB -> sec_ok sbC c c' em em' am am' nm nm' ->
  mean_ok (@sgp4_mean _ B s c em) (@sgp4_mean _ ROps s' c' em').
Proof.
  intros Hno (Hargpm & Hmm & Hnodem & _ & Htempl & Hem & _ & _). cbn [sb_argpm sb_mm sb_nodem sb_templ sb_em sbC] in *.
  unfold sgp4_mean, mean_ok. cbv zeta. cbn [mn_ep mn_argpp mn_nodep mn_mp]. split; [now apply ep_acc|].
  set (argpm := se_argpm c) in *. set (argpm' := se_argpm c') in *. set (nodem := se_nodem c) in *. set (nodem' := se_nodem c') in *. set (mm := se_mm c) in *. set (mm' := se_mm c') in *.
  set (templ := se_templ c) in *. set (templ' := se_templ c') in *. set (no := sr_no s) in *. set (no' := sr_no s') in *. clearbody argpm argpm' nodem nodem' mm mm' templ templ' no no'.
  split; [mwide|]. split; [mwide|].
  eassert (Hml : apx (@fadd _ B mm (@fmul _ B no templ)) (@fadd _ ROps mm' (@fmul _ ROps no' templ')) _) by arel.
  mwide.
Qed.

Lemma kin_acc (s : Satrec b64) (s' : Satrec R) m m' am am' : mean_ok m m' -> apx am am' amB -> apx (sr_aycof s) (sr_aycof s') (nb_aycof nb1) -> apx (sr_xlcof s) (sr_xlcof s') (nb_xlcof nb1) ->
  kin_ok (@sgp4_kepler_in _ B s m am) (@sgp4_kepler_in _ ROps s' m' am').
Proof.
  intros (Hep & Hargpp & Hnodep & Hmp) Ham Hay Hxl. unfold sgp4_kepler_in, kin_ok. cbv zeta. cbn [ki_axnl ki_aynl ki_u].
  set (ep := mn_ep m) in *. set (ep' := mn_ep m') in *. set (argpp := mn_argpp m) in *. set (argpp' := mn_argpp m') in *. set (nodep := mn_nodep m) in *. set (nodep' := mn_nodep m') in *. set (mp := mn_mp m) in *. set (mp' := mn_mp m') in *.
  set (ayc := sr_aycof s) in *. set (ayc' := sr_aycof s') in *. set (xlc := sr_xlcof s) in *. set (xlc' := sr_xlcof s') in *. clearbody ep ep' argpp argpp' nodep nodep' mp mp' ayc ayc' xlc xlc'.
  pose proof (relm_cos_apx lm ACC _ _ _ _ Hargpp eq_refl) as Hc. pose proof (relm_sin_apx lm ACC _ _ _ _ Hargpp eq_refl) as Hs.
  eassert (Ht : apx (@fdiv _ B (@L _ B 1 0) (@fmul _ B am (@fsub _ B (@L _ B 1 0) (@fmul _ B ep ep)))) (@fdiv _ ROps (@L _ ROps 1 0) (@fmul _ ROps am' (@fsub _ ROps (@L _ ROps 1 0) (@fmul _ ROps ep' ep')))) _) by arel.
  set (t := @fdiv _ B _ _) in *. set (t' := @fdiv _ ROps _ _) in *. clearbody t t'.
  split; [aflat|]. split; [aflat|]. eassert (Hx : apx (@fmul _ B (@fmul _ B t xlc) (@fmul _ B ep (@fcos _ B argpp))) (@fmul _ ROps (@fmul _ ROps t' xlc') (@fmul _ ROps ep' (@fcos _ ROps argpp'))) _) by arel.
  split; [mwide|].
  ivl Hep Iep. ivl Ht It. ivl Hay Iay. rops. pose proof (sin2_cos2 argpp') as SC. unfold Rsqr in SC. pose proof (SIN_bound argpp') as SB. set (sn := sin argpp') in *. set (cs := cos argpp') in *. clearbody sn cs.
  assert (TA : - (16 / 10000) <= t' * ayc' <= 16 / 10000) by nra. set (d := t' * ayc') in *. clearbody d.
  replace (ep' * cs * (ep' * cs) + (ep' * sn + d) * (ep' * sn + d)) with (ep' * ep' * (sn * sn + cs * cs) + 2 * (ep' * sn) * d + d * d) by ring. rewrite SC.
  assert (ES : - (4586 / 10000) <= ep' * sn <= 4586 / 10000) by nra. assert (ep' * ep' <= 4586 / 10000 * (4586 / 10000)) by nra. nra.
Qed.

Lemma short_acc ax ay u (ax' ay' u' : R) am am' : apx ax ax' axB -> apx ay ay' ayB -> relm u u' uB -> ax' * ax' + ay' * ay' <= 4605 / 10000 * (4605 / 10000) -> apx am am' amB ->
  let k := @sgp4_kepler _ B ax ay u in let k' := @sgp4_kepler _ ROps ax' ay' u' in
  let h := @sgp4_short _ B k ax ay am in let h' := @sgp4_short _ ROps k' ax' ay' am' in
  apx (sh_pl h) (sh_pl h') plB /\ shq_ok (@sgp4_shortq _ B h k ax ay am) (@sgp4_shortq _ ROps h' k' ax' ay' am').
Proof.
  intros Hax Hay Hu EL Ham k k' h h'.
  assert (Q : Q2R (eer axB) <= 1 / 10000 /\ Q2R (eer ayB) <= 1 / 10000 /\ Q2R (lo uB) >= - (69 / 10) /\ Q2R (hi uB) <= 69 / 10 /\ Q2R (er uB) <= 1 / 100).
  { assert (W : forall q, Qle_bool q (1 # 10000) = true -> Q2R q <= 1 / 10000) by (intros q W; apply qle_true in W; replace (1 / 10000) with (Q2R (1 # 10000)) by qr; exact W).
    split; [apply W; vm_compute; reflexivity|]. split; [apply W; vm_compute; reflexivity|]. cbn [uB twoB lo hi er]. split; [qr|]. split; [qr|].
    eapply Rle_trans; [apply W; vm_compute; reflexivity|lra]. }
  destruct Q as (Q1 & Q2 & Q3 & Q4 & Q5).
  destruct (kepler_close lm ACC ax ay u ax' ay' u' axB ayB uB Hax Hay Hu EL Q1 Q2 Q3 Q4 Q5) as (E & E' & HE & (S1 & C1) & S1' & C1').
  fold k in S1, C1. fold k' in S1', C1'.
  assert (Hs : apx (ko_sineo1 k) (ko_sineo1 k') kscB). { rewrite S1, S1'. eapply apx_weaken; [exact (relm_sin_apx lm ACC _ _ _ _ HE eq_refl)|vm_compute; reflexivity..]. }
  assert (Hc : apx (ko_coseo1 k) (ko_coseo1 k') kscB). { rewrite C1, C1'. eapply apx_weaken; [exact (relm_cos_apx lm ACC _ _ _ _ HE eq_refl)|vm_compute; reflexivity..]. }
  pose proof (cs1 E') as SC. rewrite <- S1', <- C1' in SC. clear S1 C1 S1' C1' HE Hu. 
  unfold h, h', sgp4_shortq, sgp4_short. cbv zeta. cbn [sh_ecose sh_esine sh_el2 sh_pl]. clear h h'.
  set (sn := ko_sineo1 k) in *. set (cs := ko_coseo1 k) in *. set (sn' := ko_sineo1 k') in *. set (cs' := ko_coseo1 k') in *. clearbody sn cs sn' cs'. clear k k'.
  set (e' := sqrt (ax' * ax' + ay' * ay')). assert (P' : 0 <= ax' * ax' + ay' * ay') by nra. pose proof (sqrt_pos (ax' * ax' + ay' * ay')) as E0'. pose proof (sqrt_sqrt _ P') as E2'. fold e' in E0', E2'.
  assert (E1' : e' <= 4605 / 10000) by nra.
  pose proof (dot_le ax' ay' e' ltac:(lra) (eq_sym E2') cs' sn' ltac:(lra)) as DC. pose proof (dot_le ax' ay' e' ltac:(lra) (eq_sym E2') sn' (- cs') ltac:(lra)) as DS.
  assert (BC : - (4605 / 10000) <= @fadd _ ROps (@fmul _ ROps ax' cs') (@fmul _ ROps ay' sn') <= 4605 / 10000) by (apply Rabs_le_inv in DC; rops; lra).
  assert (BS : - (4605 / 10000) <= @fsub _ ROps (@fmul _ ROps ax' sn') (@fmul _ ROps ay' cs') <= 4605 / 10000) by (apply Rabs_le_inv in DS; rops; lra).
  assert (BE : 0 <= @fadd _ ROps (@fmul _ ROps ax' ax') (@fmul _ ROps ay' ay') <= 2121 / 10000) by (rops; lra). clear DC DS.
  assert (HU := uk_unit ax' ay' cs' sn' (sqrt (1 - (ax' * ax' + ay' * ay'))) SC (sqrt_pos _) ltac:(rewrite sqrt_sqrt by lra; ring)). cbv zeta in HU.
  clear e' E0' E2' E1'.
  eassert (Hec : apx (@fadd _ B (@fmul _ B ax cs) (@fmul _ B ay sn)) (@fadd _ ROps (@fmul _ ROps ax' cs') (@fmul _ ROps ay' sn')) _) by arel.
  eassert (Hes : apx (@fsub _ B (@fmul _ B ax sn) (@fmul _ B ay cs)) (@fsub _ ROps (@fmul _ ROps ax' sn') (@fmul _ ROps ay' cs')) _) by arel.
  eassert (Hel : apx (@fadd _ B (@fmul _ B ax ax) (@fmul _ B ay ay)) (@fadd _ ROps (@fmul _ ROps ax' ax') (@fmul _ ROps ay' ay')) _) by arel.
  assert (RC : ax' * cs' + ay' * sn' = @fadd _ ROps (@fmul _ ROps ax' cs') (@fmul _ ROps ay' sn')) by reflexivity.
  assert (RS : ax' * sn' - ay' * cs' = @fsub _ ROps (@fmul _ ROps ax' sn') (@fmul _ ROps ay' cs')) by reflexivity.
  assert (RE : ax' * ax' + ay' * ay' = @fadd _ ROps (@fmul _ ROps ax' ax') (@fmul _ ROps ay' ay')) by reflexivity.
  rewrite RC, RS, RE in HU. clear RC RS RE P' EL.
  set (ec := @fadd _ B (@fmul _ B ax cs) _) in *. set (es := @fsub _ B (@fmul _ B ax sn) _) in *. set (el := @fadd _ B (@fmul _ B ax ax) _) in *.
  set (ec' := @fadd _ ROps (@fmul _ ROps ax' cs') _) in *. set (es' := @fsub _ ROps (@fmul _ ROps ax' sn') _) in *. set (el' := @fadd _ ROps (@fmul _ ROps ax' ax') _) in *.
  clearbody ec es el ec' es' el'. ashrink Hec (-4605 # 10000)%Q (4605 # 10000)%Q. ashrink Hes (-4605 # 10000)%Q (4605 # 10000)%Q. ashrink Hel 0%Q (2121 # 10000)%Q.
  eassert (Hpl : apx (@fmul _ B am (@fsub _ B (@L _ B 1 0) el)) (@fmul _ ROps am' (@fsub _ ROps (@L _ ROps 1 0) el')) _) by arel.
  split; [awide|]. set (pl := @fmul _ B am (@fsub _ B _ el)) in *. set (pl' := @fmul _ ROps am' (@fsub _ ROps _ el')) in *. clearbody pl pl'.
  eassert (Hrl : apx (@fmul _ B am (@fsub _ B (@L _ B 1 0) ec)) (@fmul _ ROps am' (@fsub _ ROps (@L _ ROps 1 0) ec')) _) by arel.
  assert (RL : @fmul _ ROps am' (@fsub _ ROps (@L _ ROps 1 0) ec') = am' * (1 - ec')) by (rops; reflexivity).
  set (rl := @fmul _ B am (@fsub _ B _ ec)) in *. set (rl' := @fmul _ ROps am' (@fsub _ ROps _ ec')) in *. clearbody rl rl'.
  eassert (Hbe : apx (@fsqrt _ B (@fsub _ B (@L _ B 1 0) el)) (@fsqrt _ ROps (@fsub _ ROps (@L _ ROps 1 0) el')) _) by arel.
  assert (RB : @fsqrt _ ROps (@fsub _ ROps (@L _ ROps 1 0) el') = sqrt (1 - el')) by (rops; reflexivity).
  set (be := @fsqrt _ B _) in *. set (be' := @fsqrt _ ROps (@fsub _ ROps _ el')) in *. rewrite <- RB in HU. clearbody be be'.
  eassert (Ht : apx (@fdiv _ B es (@fadd _ B (@L _ B 1 0) be)) (@fdiv _ ROps es' (@fadd _ ROps (@L _ ROps 1 0) be')) _) by arel.
  assert (RT : @fdiv _ ROps es' (@fadd _ ROps (@L _ ROps 1 0) be') = es' / (1 + be')) by (rops; reflexivity). rewrite <- RT in HU.
  set (t := @fdiv _ B es _) in *. set (t' := @fdiv _ ROps es' _) in *. clearbody t t'.
  eassert (Hsu : apx (@fmul _ B (@fdiv _ B am rl) (@fsub _ B (@fsub _ B sn ay) (@fmul _ B ax t))) (@fmul _ ROps (@fdiv _ ROps am' rl') (@fsub _ ROps (@fsub _ ROps sn' ay') (@fmul _ ROps ax' t'))) _) by arel.
  eassert (Hcu : apx (@fmul _ B (@fdiv _ B am rl) (@fadd _ B (@fsub _ B cs ax) (@fmul _ B ay t))) (@fmul _ ROps (@fdiv _ ROps am' rl') (@fadd _ ROps (@fsub _ ROps cs' ax') (@fmul _ ROps ay' t'))) _) by arel.
  ivl Ham Iam.
  assert (UN : @fmul _ ROps (@fdiv _ ROps am' rl') (@fsub _ ROps (@fsub _ ROps sn' ay') (@fmul _ ROps ax' t')) * @fmul _ ROps (@fdiv _ ROps am' rl') (@fsub _ ROps (@fsub _ ROps sn' ay') (@fmul _ ROps ax' t')) +
    @fmul _ ROps (@fdiv _ ROps am' rl') (@fadd _ ROps (@fsub _ ROps cs' ax') (@fmul _ ROps ay' t')) * @fmul _ ROps (@fdiv _ ROps am' rl') (@fadd _ ROps (@fsub _ ROps cs' ax') (@fmul _ ROps ay' t')) = 1).
  { rops. rewrite RL. set (X := sn' - ay' - ax' * t') in *. set (Y := cs' - ax' + ay' * t') in *. clearbody X Y.
    assert (A : am' / (am' * (1 - ec')) = / (1 - ec')) by (field; lra). rewrite A.
    replace (/ (1 - ec') * X * (/ (1 - ec') * X) + / (1 - ec') * Y * (/ (1 - ec') * Y)) with ((X ^ 2 + Y ^ 2) * (/ (1 - ec') * / (1 - ec'))) by ring. rewrite HU. field. lra. }
  set (su := @fmul _ B (@fdiv _ B am rl) (@fsub _ B _ _)) in *. set (cu := @fmul _ B (@fdiv _ B am rl) (@fadd _ B _ _)) in *.
  set (su' := @fmul _ ROps (@fdiv _ ROps am' rl') (@fsub _ ROps _ _)) in *. set (cu' := @fmul _ ROps (@fdiv _ ROps am' rl') (@fadd _ ROps _ _)) in *. clearbody su cu su' cu'.
  assert (Bsu : -1 <= su' <= 1) by nra. assert (Bcu : -1 <= cu' <= 1) by nra. ashrink Hsu (-1)%Q 1%Q. ashrink Hcu (-1)%Q 1%Q.
  unfold shq_ok. cbn [q_rl q_rdotl q_rvdotl q_betal q_su q_sin2u q_cos2u q_temp1 q_temp2].
  assert (B3 : -1 <= @fmul _ ROps (@fadd _ ROps cu' cu') su' <= 1).
  { pose proof (Rle_0_sqr (cu' + su')) as W1. pose proof (Rle_0_sqr (cu' - su')) as W2. unfold Rsqr in W1, W2. rops. lra. }
  assert (B4 : -1 <= @fsub _ ROps (@L _ ROps 1 0) (@fmul _ ROps (@fmul _ ROps (@L _ ROps 2 0) su') su') <= 1).
  { pose proof (Rle_0_sqr su') as W1. pose proof (Rle_0_sqr cu') as W2. unfold Rsqr in W1, W2. rops. lra. }
  eassert (K3 : apx (@fmul _ B (@fadd _ B cu cu) su) (@fmul _ ROps (@fadd _ ROps cu' cu') su') _) by arel.
  eassert (K4 : apx (@fsub _ B (@L _ B 1 0) (@fmul _ B (@fmul _ B (@L _ B 2 0) su) su)) (@fsub _ ROps (@L _ ROps 1 0) (@fmul _ ROps (@fmul _ ROps (@L _ ROps 2 0) su') su')) _) by arel.
  ashrink K3 (-1)%Q 1%Q. ashrink K4 (-1)%Q 1%Q.
  split; [awide|]. split; [aflat|]. split; [awide|]. split; [awide|]. split.
  { eapply relm_weaken; [apply (relm_atan2 lm ACC _ _ _ _ _ _ Hsu Hcu UN)|vm_compute; reflexivity..].
    rewrite <- Q2R_plus. apply Rle_trans with (Q2R (1 # 1000)); [apply qle_true; vm_compute; reflexivity|qr]. }
  split; [aflat|]. split; [aflat|]. split; awide.
Qed.

Lemma rel_flat x a A : rel x a A -> apx x a (Eb (lo A) (hi A) 0 (er A)).
Proof. intros H. pose proof (er_pos _ _ _ H). destruct H as (F & I & E). split; [exact F|]. split; [exact I|]. cbn [rr ab]. rewrite Q2R_0. split; [split; [lra|assumption]|]. lra. Qed.
Ltac asum := eapply apx_weaken; [apply rel_flat; eapply rel_add; [apply apx_rel; arel|apply apx_rel; arel|ccomp]|vm_compute; reflexivity..].
Lemma osc_acc (s : Satrec b64) (s' : Satrec R) q q' nodep nodep' xincp xincp' nm nm' :
  shq_ok q q' -> apx (sr_con41 s) (sr_con41 s') con41B -> apx (sr_x1mth2 s) (sr_x1mth2 s') (nb_x1mth2 nb1) -> apx (sr_x7thm1 s) (sr_x7thm1 s') (nb_x7thm1 nb1) ->
  relm nodep nodep' (twoB (31 # 10 ^ 14)) -> apx xincp xincp' in_inc -> apx nm nm' nmB ->
  osc_ok (@sgp4_osc _ B s q nodep xincp (@fsin _ B xincp) (@fcos _ B xincp) nm) (@sgp4_osc _ ROps s' q' nodep' xincp' (@fsin _ ROps xincp') (@fcos _ ROps xincp') nm').
Proof.
  intros (Hrl & Hrd & Hrv & Hbe & Hsu & Hs2 & Hc2 & Ht1 & Ht2) H41 H1 H7 Hnd Hi Hnm. unfold sgp4_osc, osc_ok. cbv zeta. cbn [os_mrt os_su os_xnode os_xinc os_mvt os_rvdot].
  aconst @kXKE.
  split; [asum|]. split; [mwide|]. split; [mwide|]. split; [aflat|]. split; [aflat|asum].
Qed.

Lemma posvel_acc o o' : osc_ok o o' -> vec_ok (g4_position (@sgp4_posvel _ B o)) (g4_position (@sgp4_posvel _ ROps o')) posB /\ vec_ok (g4_velocity (@sgp4_posvel _ B o)) (g4_velocity (@sgp4_posvel _ ROps o')) velB.
Proof.
  intros (Hmr & Hsu & Hxn & Hxi & Hmv & Hrv). unfold sgp4_posvel, vec_ok. cbv zeta. cbn [g4_position g4_velocity v_x v_y v_z].
  pose proof (relm_sin_apx lm ACC _ _ _ _ Hsu eq_refl) as S1. pose proof (relm_cos_apx lm ACC _ _ _ _ Hsu eq_refl) as C1.
  pose proof (relm_sin_apx lm ACC _ _ _ _ Hxn eq_refl) as S2. pose proof (relm_cos_apx lm ACC _ _ _ _ Hxn eq_refl) as C2.
  aconst @kXKE. aconst @kEARTH_RADIUS.
  split; (split; [aflat|]; split; aflat).
Qed.
End S.
