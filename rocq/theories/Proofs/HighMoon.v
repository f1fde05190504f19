(** * Binary64 accuracy of the lunar and solar coefficients of highly eccentric deep-space orbits *)
From Coq Require Import ZArith QArith Reals Qreals Bool Lra Lia Psatz.
From Flocq Require Import Core IEEE754.BinarySingleNaN.
From Verif.Model Require Import Float Str Satrec Constants Dscom.
From Verif.Spec Require Import LibmAccuracy.
From Verif.Inst Require Import RInst RTac B64 B64Facts B64Calc ApxCalc Atan2.
From Verif.Proofs Require Import CalcFun CalcPow CalcAngle ApxFun AccInit AccNear AccKepler AccState DeepKozai DeepMoon HighKozai.
Local Open Scope R_scope.

Section S.
Context (lm : libm) (ACC : accurate lm).
Notation B := (B64Ops lm).
Definition hemsqB := Eb (15 # 100) (556 # 1000) 0 (4 # 10 ^ 15).
Definition hs5B := Eb (-102 # 100) (102 # 100) 0 (12 # 10 ^ 10).
Definition hz11B := Eb (-22908 # 1000) (22908 # 1000) 0 (93 # 10 ^ 10).
Definition hz12B := Eb (-45816 # 1000) (45816 # 1000) 0 (186 # 10 ^ 10).
Definition hpass_ok (p : @DscomPass b64) (p' : @DscomPass R) : Prop :=
  apx (dp_s5 p) (dp_s5 p') hs5B /\ apx (dp_s6 p) (dp_s6 p') hs5B /\ apx (dp_s7 p) (dp_s7 p') hs5B /\
  apx (dp_z11 p) (dp_z11 p') hz11B /\ apx (dp_z12 p) (dp_z12 p') hz12B /\ apx (dp_z13 p) (dp_z13 p') hz11B.
Lemma hpass_acc sinim sinim' cosim cosim' sinomm sinomm' cosomm cosomm' em em' emsq emsq' betasq betasq' rtemsq rtemsq' xnoi xnoi' (b : @DscomBody b64) (b' : @DscomBody R) :
  apx sinim sinim' trB -> apx cosim cosim' trB -> apx sinomm sinomm' trB -> apx cosomm cosomm' trB ->
  apx emsq emsq' hemsqB ->  apx (db_zcosg b) (db_zcosg b') zgB -> apx (db_zsing b) (db_zsing b') zgB -> apx (db_zcosi b) (db_zcosi b') zrB -> apx (db_zsini b) (db_zsini b') zrB ->
  apx (db_zcosh b) (db_zcosh b') zhB -> apx (db_zsinh b) (db_zsinh b') zhB ->
  sinim' * sinim' + cosim' * cosim' = 1 -> sinomm' * sinomm' + cosomm' * cosomm' = 1 ->
  db_zcosg b' * db_zcosg b' + db_zsing b' * db_zsing b' <= 1000001 / 1000000 -> db_zcosi b' * db_zcosi b' + db_zsini b' * db_zsini b' <= 1000001 / 1000000 ->
  db_zcosh b' * db_zcosh b' + db_zsinh b' * db_zsinh b' = 1 ->
  hpass_ok (@dscom_pass _ B sinim cosim sinomm cosomm em emsq betasq rtemsq xnoi b) (@dscom_pass _ ROps sinim' cosim' sinomm' cosomm' em' emsq' betasq' rtemsq' xnoi' b').
Proof.
  intros Hsinim Hcosim Hsinomm Hcosomm Hemsq Hcg Hsg Hci Hsi Hch Hsh Ui Uo Ug Uz Uh. cbv beta delta [dscom_pass]. set (P := hpass_ok). do 7 askip.
  lets a1. lets a3. lets a7. lets a8. lets a9. lets a10.
  assert (V1 : a1' * a1' + a7' * a7' + a8' * a8' <= 101 / 100).
  { rewrite Ea1, Ea7, Ea8. rops. set (cg := db_zcosg b') in *. set (sg := db_zsing b') in *. set (ci := db_zcosi b') in *. set (si := db_zsini b') in *. set (ch := db_zcosh b') in *. set (sh := db_zsinh b') in *.
    replace ((cg * ch + sg * ci * sh) * (cg * ch + sg * ci * sh) + (- cg * sh + sg * ci * ch) * (- cg * sh + sg * ci * ch) + sg * si * (sg * si)) with ((cg * cg + sg * sg * (ci * ci)) * (ch * ch + sh * sh) + sg * sg * (si * si)) by ring. rewrite Uh. clearbody cg sg ci si. nra. }
  assert (V2 : a3' * a3' + a9' * a9' + a10' * a10' <= 101 / 100).
  { rewrite Ea3, Ea9, Ea10. rops. set (cg := db_zcosg b') in *. set (sg := db_zsing b') in *. set (ci := db_zcosi b') in *. set (si := db_zsini b') in *. set (ch := db_zcosh b') in *. set (sh := db_zsinh b') in *.
    replace ((- sg * ch + cg * ci * sh) * (- sg * ch + cg * ci * sh) + (sg * sh + cg * ci * ch) * (sg * sh + cg * ci * ch) + cg * si * (cg * si)) with ((sg * sg + cg * cg * (ci * ci)) * (ch * ch + sh * sh) + cg * cg * (si * si)) by ring. rewrite Uh. clearbody cg sg ci si. nra. }
  assert (K : forall x, x * x <= 101 / 100 -> - (1005 / 1000) <= x <= 1005 / 1000) by (clear; intros; split; nra).
  assert (SQ : forall x : R, 0 <= x * x) by (clear; intros; nra). pose proof (SQ a1') as P1. pose proof (SQ a3') as P3. pose proof (SQ a7') as P7. pose proof (SQ a8') as P8. pose proof (SQ a9') as P9. pose proof (SQ a10') as P10.
  assert (K1 := K a1' ltac:(clear - V1 V2 P1 P3 P7 P8 P9 P10; lra)). assert (K3 := K a3' ltac:(clear - V1 V2 P1 P3 P7 P8 P9 P10; lra)). assert (K7 := K a7' ltac:(clear - V1 V2 P1 P3 P7 P8 P9 P10; lra)). assert (K9 := K a9' ltac:(clear - V1 V2 P1 P3 P7 P8 P9 P10; lra)).
  acut Ha1 (-1005 # 1000)%Q (1005 # 1000)%Q. acut Ha3 (-1005 # 1000)%Q (1005 # 1000)%Q. acut Ha7 (-1005 # 1000)%Q (1005 # 1000)%Q. acut Ha9 (-1005 # 1000)%Q (1005 # 1000)%Q.
  lets a2. lets a4. lets a5. lets a6.
  assert (W1 : a2' * a2' + a5' * a5' = a7' * a7' + a8' * a8').
  { rewrite Ea2, Ea5. rops. replace ((cosim' * a7' + sinim' * a8') * (cosim' * a7' + sinim' * a8') + (- sinim' * a7' + cosim' * a8') * (- sinim' * a7' + cosim' * a8')) with ((sinim' * sinim' + cosim' * cosim') * (a7' * a7' + a8' * a8')) by ring. rewrite Ui. ring. }
  assert (W2 : a4' * a4' + a6' * a6' = a9' * a9' + a10' * a10').
  { rewrite Ea4, Ea6. rops. replace ((cosim' * a9' + sinim' * a10') * (cosim' * a9' + sinim' * a10') + (- sinim' * a9' + cosim' * a10') * (- sinim' * a9' + cosim' * a10')) with ((sinim' * sinim' + cosim' * cosim') * (a9' * a9' + a10' * a10')) by ring. rewrite Ui. ring. }
  pose proof (SQ a2') as P2. pose proof (SQ a4') as P4. pose proof (SQ a5') as P5. pose proof (SQ a6') as P6.
  assert (K2 := K a2' ltac:(clear - V1 V2 W1 W2 P1 P2 P3 P4 P5 P6 P7 P8 P9 P10; lra)). assert (K4 := K a4' ltac:(clear - V1 V2 W1 W2 P1 P2 P3 P4 P5 P6 P7 P8 P9 P10; lra)). assert (K5 := K a5' ltac:(clear - V1 V2 W1 W2 P1 P2 P3 P4 P5 P6 P7 P8 P9 P10; lra)). assert (K6 := K a6' ltac:(clear - V1 V2 W1 W2 P1 P2 P3 P4 P5 P6 P7 P8 P9 P10; lra)).
  acut Ha2 (-1005 # 1000)%Q (1005 # 1000)%Q. acut Ha4 (-1005 # 1000)%Q (1005 # 1000)%Q. acut Ha5 (-1005 # 1000)%Q (1005 # 1000)%Q. acut Ha6 (-1005 # 1000)%Q (1005 # 1000)%Q.
  lets x1. lets x2. lets x3. lets x4.
  assert (X1 : x1' * x1' + x3' * x3' = a1' * a1' + a2' * a2').
  { rewrite Ex1, Ex3. rops. replace ((a1' * cosomm' + a2' * sinomm') * (a1' * cosomm' + a2' * sinomm') + (- a1' * sinomm' + a2' * cosomm') * (- a1' * sinomm' + a2' * cosomm')) with ((sinomm' * sinomm' + cosomm' * cosomm') * (a1' * a1' + a2' * a2')) by ring. rewrite Uo. ring. }
  assert (X2 : x2' * x2' + x4' * x4' = a3' * a3' + a4' * a4').
  { rewrite Ex2, Ex4. rops. replace ((a3' * cosomm' + a4' * sinomm') * (a3' * cosomm' + a4' * sinomm') + (- a3' * sinomm' + a4' * cosomm') * (- a3' * sinomm' + a4' * cosomm')) with ((sinomm' * sinomm' + cosomm' * cosomm') * (a3' * a3' + a4' * a4')) by ring. rewrite Uo. ring. }
  assert (Y1 : x1' * x1' + x3' * x3' <= 101 / 100) by (clear - V1 W1 X1 P5; lra). assert (Y2 : x2' * x2' + x4' * x4' <= 101 / 100) by (clear - V2 W2 X2 P6; lra).
  pose proof (SQ x1') as R1. pose proof (SQ x2') as R2. pose proof (SQ x3') as R3. pose proof (SQ x4') as R4.
  assert (L1 := K x1' ltac:(clear - Y1 Y2 R1 R2 R3 R4; lra)). assert (L2 := K x2' ltac:(clear - Y1 Y2 R1 R2 R3 R4; lra)). assert (L3 := K x3' ltac:(clear - Y1 Y2 R1 R2 R3 R4; lra)). assert (L4 := K x4' ltac:(clear - Y1 Y2 R1 R2 R3 R4; lra)).
  acut Hx1 (-1005 # 1000)%Q (1005 # 1000)%Q. acut Hx2 (-1005 # 1000)%Q (1005 # 1000)%Q. acut Hx3 (-1005 # 1000)%Q (1005 # 1000)%Q. acut Hx4 (-1005 # 1000)%Q (1005 # 1000)%Q.
  lets x5. lets x6. lets x7. lets x8. do 6 askip. lets z11. lets z12. lets z13. do 6 askip. do 4 askip. lets s5. lets s6. lets s7.
  assert (T5 : - (101 / 100) <= s5' <= 101 / 100) by (rewrite Es5; rops; pose proof (SQ (x1' + x3')); pose proof (SQ (x1' - x3')); pose proof (SQ (x2' + x4')); pose proof (SQ (x2' - x4')); lra).
  assert (T6 : - (101 / 100) <= s6' <= 101 / 100) by (rewrite Es6; rops; pose proof (SQ (x2' + x3')); pose proof (SQ (x2' - x3')); pose proof (SQ (x1' + x4')); pose proof (SQ (x1' - x4')); lra).
  assert (T7 : - (101 / 100) <= s7' <= 101 / 100) by (rewrite Es7; rops; pose proof (SQ (x2' + x4')); pose proof (SQ (x2' - x4')); pose proof (SQ (x1' + x3')); pose proof (SQ (x1' - x3')); lra).
  acut Hs5 (-101 # 100)%Q (101 # 100)%Q. acut Hs6 (-101 # 100)%Q (101 # 100)%Q. acut Hs7 (-101 # 100)%Q (101 # 100)%Q.
  unfold P, hpass_ok. cbn [dp_s5 dp_s6 dp_s7 dp_z11 dp_z12 dp_z13]. do 5 (split; [aflat|]). aflat.
Qed.

Lemma hsq_acc x a : apx x a hin_ecc -> apx (@fpowi _ B x 2) (@fpowi _ ROps a 2) (Eb (16 # 100) (555026 # 1000000) 0 (3 # 10 ^ 15)).
Proof.
  intros H. pose proof (apx_rel _ _ _ H) as (_ & I & D). destruct H as (F & _). cbn [lo hi er] in I, D.
  assert (E : Q2R (eer hin_ecc) <= 2 / 10000000000000000) by (apply Rle_trans with (Q2R (2 # 10000000000000000)); [apply qle_true; vm_compute; reflexivity|unfold Q2R; cbn [Qnum Qden]; lra]).
  unfold Q2R in I. cbn [Qnum Qden el eh hin_ecc] in I. assert (D' := Rle_trans _ _ _ D E). clear D E. apply Rabs_le_inv in D'.
  cbn [fpowi ROps B64Ops]. change 2%Z with (Z.of_nat 2). rewrite <- pow_powerRZ. set (v := B2R x) in *.
  assert (V : 39 / 100 <= v <= 75 / 100) by lra. assert (V2 : 0 <= v ^ 2 <= 57 / 100) by nra.
  assert (AV : Rabs (v ^ 2 - a ^ 2) <= 3 / 10000000000000000).
  { replace (v ^ 2 - a ^ 2) with ((v - a) * (v + a)) by ring. set (d := v - a) in *. assert (0 <= v + a <= 15 / 10) by lra. set (s := v + a) in *. clearbody d s. apply Rabs_le. nra. }
  assert (P1 : / 2 ^ 50 <= 1 / 1000000000000000) by lra. assert (P2 : / 2 ^ 200 <= / 2 ^ 60) by (apply Rinv_le_contravar; [apply pow_lt; lra|apply Rle_pow; [lra|lia]]). assert (P3 : / 2 ^ 60 <= 1 / 1000000000000000000) by lra.
  destruct (acc_powi lm ACC x 2 F ltac:(lia)) as (FZ & ER).
  { fold v. rewrite Rabs_pos_eq by lra. apply Rle_trans with 1; [lra|]. apply pow_R1_Rle. lra. }
  fold v in ER. rewrite (Rabs_pos_eq (v ^ 2)) in ER by lra. unfold Rdiv at 1 in ER.
  assert (v ^ 2 * / 2 ^ 50 <= 57 / 100 * (1 / 1000000000000000)) by (apply Rmult_le_compat; [lra|left; apply Rinv_0_lt_compat, pow_lt; lra|lra|exact P1]).
  change (10 ^ 15)%positive with 1000000000000000%positive.
  split; [exact FZ|]. cbn [el eh rr ab]. rewrite !Q2R_0. split; [unfold Q2R; cbn [Qnum Qden]; split; nra|]. split; [split; [lra|unfold Q2R; cbn [Qnum Qden]; lra]|].
  rewrite Rmult_0_l, Rplus_0_l. set (z := B2R (lm_powi lm x (Z.of_nat 2))) in *. clearbody z. replace (z - a ^ 2) with ((z - v ^ 2) + (v ^ 2 - a ^ 2)) by ring.
  eapply Rle_trans; [apply Rabs_triang|]. apply Rle_trans with (15 / 10000000000000000); [lra|]. unfold Q2R. cbn [Qnum Qden]. lra.
Qed.

(** ** All the coefficients that a propagated state depends on *)
Definition hseB := Eb (-1145 # 10 ^ 5) (1145 # 10 ^ 5) 0 (14 # 10 ^ 12).
Definition hsiB := Eb (-514 # 10 ^ 4) (514 # 10 ^ 4) 0 (22 # 10 ^ 12).
Definition heeB := Eb (-1838 # 10 ^ 6) (1838 # 10 ^ 6) 0 (22 # 10 ^ 13).
Definition hxiB := Eb (-825 # 10 ^ 5) (825 # 10 ^ 5) 0 (34 # 10 ^ 13).
Definition hss1B := Eb (-5609 # 10 ^ 6) 0 0 (5 # 10 ^ 17).
Definition hs1B := Eb (-9009 # 10 ^ 7) 0 0 (8 # 10 ^ 18).
Definition zmB := Bd (-7) 7 (1 # 10 ^ 9).
Definition zsB := Bd (-7) 7 (6 # 10 ^ 11).
Definition hdscom_ok (d : DscomResult b64) (d' : DscomResult R) : Prop :=
  apx (dr_se2 d) (dr_se2 d') hseB /\ apx (dr_se3 d) (dr_se3 d') hseB /\ apx (dr_si2 d) (dr_si2 d') hsiB /\ apx (dr_si3 d) (dr_si3 d') hsiB /\
  apx (dr_ee2 d) (dr_ee2 d') heeB /\ apx (dr_e3 d) (dr_e3 d') heeB /\ apx (dr_xi2 d) (dr_xi2 d') hxiB /\ apx (dr_xi3 d) (dr_xi3 d') hxiB /\
  apx (dr_ss1 d) (dr_ss1 d') hss1B /\ apx (dr_ss5 d) (dr_ss5 d') hs5B /\ apx (dr_s1 d) (dr_s1 d') hs1B /\ apx (dr_s5 d) (dr_s5 d') hs5B /\
  relm (dr_zmol d) (dr_zmol d') zmB /\ relm (dr_zmos d) (dr_zmos d') zsB /\
  dr_peo d = @L _ B 0 0 /\ dr_peo d' = @L _ ROps 0 0 /\ dr_pinco d = @L _ B 0 0 /\ dr_pinco d' = @L _ ROps 0 0.
Lemma half_R e b : 0 <= b -> b * b = 1 - e * e -> e * b <= 1 / 2.
Proof. intros H1 H2. assert (0 <= (e - b) * (e - b)) by apply Rle_0_sqr. lra. Qed.
Lemma s1_R c x e b C X : 0 <= c <= C -> 0 <= x <= X -> 0 <= e -> 0 <= b -> e * b <= 1 / 2 -> - (C * X * (15 / 2)) <= - (15) * e * (c * x * b) <= 0.
Proof.
  intros H1 H2 H3 H4 H5. assert (0 <= c * x <= C * X) by (split; [apply Rmult_le_pos; lra|apply Rmult_le_compat; lra]). assert (0 <= e * b) by (apply Rmult_le_pos; lra).
  set (w := c * x) in *. set (h := e * b) in *. replace (- (15) * e * (w * b)) with (- (15 * (w * h))) by (unfold h; ring). clearbody w h.
  assert (0 <= w * h) by (apply Rmult_le_pos; lra). assert (w * h <= C * X * (1 / 2)) by (apply Rmult_le_compat; lra). lra.
Qed.
Lemma hdscom_acc (o : DscomOptions b64) (o' : DscomOptions R) :
  apx (co_epoch o) (co_epoch o') epochB -> co_tc o = @L _ B 0 0 -> co_tc o' = @L _ ROps 0 0 ->
  apx (co_ep o) (co_ep o') hin_ecc -> apx (co_np o) (co_np o') hnoB ->
  apx (co_inclp o) (co_inclp o') din_inc -> apx (co_nodep o) (co_nodep o') in_ang -> apx (co_argpp o) (co_argpp o') in_ang ->
  hdscom_ok (@dscom _ B o) (@dscom _ ROps o').
Proof.
  intros Hep T T' He Hn Hi Hno Hw. cbv beta delta [dscom]. set (P := hdscom_ok). askip. askip.
  lets snodm. lets cnodm. lets sinomm. lets cosomm. lets sinim. lets cosim. pose proof (hsq_acc _ _ He) as Hsq. lets emsq. lets betasq. lets rtemsq. ivl He Ie. assert (EB : co_ep o' * rtemsq' <= 1 / 2 /\ 0 <= rtemsq').
  { assert (E2 : emsq' = co_ep o' * co_ep o') by (rewrite Eemsq; cbn [fpowi ROps]; change 2%Z with (Z.of_nat 2); rewrite <- pow_powerRZ; ring).
    assert (SQ : rtemsq' = sqrt (1 - co_ep o' * co_ep o')) by (rewrite Ertemsq, Ebetasq, E2; rops; reflexivity).
    split; [apply half_R; rewrite SQ; [apply sqrt_pos|apply sqrt_def; nra]|rewrite SQ; apply sqrt_pos]. }
  do 5 askip.
  pose proof (lunar_acc lm ACC o o' Hep T T') as LU. askip. set (lu := @dscom_lunar _ B o) in *. set (lu' := @dscom_lunar _ ROps o') in *. clearbody lu lu'.
  destruct LU as (Lday & Lgam & Lci & Lsi & Lsh & Lch & Lcg & Lsg & Ui & Uh & Ug).
  do 8 askip. lets zcosgs. lets zsings. lets zcosis. lets zsinis. do 2 askip. lets ccs. lets xnoi. ivl Hxnoi Ixn. ivl Hccs Icc.
  assert (Uo : sinomm' * sinomm' + cosomm' * cosomm' = 1) by (rewrite Esinomm, Ecosomm; cbn [fsin fcos ROps]; pose proof (sin2_cos2 (co_argpp o')) as Q; unfold Rsqr in Q; lra).
  assert (Um : sinim' * sinim' + cosim' * cosim' = 1) by (rewrite Esinim, Ecosim; cbn [fsin fcos ROps]; pose proof (sin2_cos2 (co_inclp o')) as Q; unfold Rsqr in Q; lra).
  assert (Un : cnodm' * cnodm' + snodm' * snodm' = 1) by (rewrite Esnodm, Ecnodm; cbn [fsin fcos ROps]; pose proof (sin2_cos2 (co_nodep o')) as Q; unfold Rsqr in Q; lra).
  assert (Tsinim : apx sinim sinim' trB) by awide. assert (Tcosim : apx cosim cosim' trB) by awide. assert (Tsinomm : apx sinomm sinomm' trB) by awide. assert (Tcosomm : apx cosomm cosomm' trB) by awide.
  assert (Tsnodm : apx snodm snodm' trB) by awide. assert (Tcnodm : apx cnodm cnodm' trB) by awide.
  assert (Temsq : apx emsq emsq' hemsqB) by aflat.
  askip. set (bs := MkDscomBody zcosgs zsings _ _ _ _ _). set (bs' := MkDscomBody zcosgs' zsings' _ _ _ _ _).
  assert (PS : hpass_ok (@dscom_pass _ B sinim cosim sinomm cosomm (co_ep o) emsq betasq rtemsq xnoi bs) (@dscom_pass _ ROps sinim' cosim' sinomm' cosomm' (co_ep o') emsq' betasq' rtemsq' xnoi' bs')).
  { apply hpass_acc; try assumption; unfold bs, bs'; cbn [db_zcosg db_zsing db_zcosi db_zsini db_zcosh db_zsinh].
    - aflat.
    - aflat.
    - aflat.
    - aflat.
    - awide.
    - awide.
    - rewrite Ezcosgs, Ezsings. unfold dscom_ZCOSGS, dscom_ZSINGS. rops. lra.
    - rewrite Ezcosis, Ezsinis. unfold dscom_ZCOSIS, dscom_ZSINIS. rops. lra. }
  eassert (PS1 : apx (dp_s1 (@dscom_pass _ B sinim cosim sinomm cosomm (co_ep o) emsq betasq rtemsq xnoi bs)) (dp_s1 (@dscom_pass _ ROps sinim' cosim' sinomm' cosomm' (co_ep o') emsq' betasq' rtemsq' xnoi' bs')) _) by (unfold dscom_pass; cbn [dp_s1 bs bs' db_cc]; arel).
  assert (PV1 : - (56085 / 10000000) <= dp_s1 (@dscom_pass _ ROps sinim' cosim' sinomm' cosomm' (co_ep o') emsq' betasq' rtemsq' xnoi' bs') <= 0).
  { unfold dscom_pass. cbn [dp_s1 bs' db_cc]. rops. pose proof (s1_R ccs' xnoi' (co_ep o') rtemsq' (298648 / 100000000000) (2503882 / 10000) ltac:(lra) ltac:(lra) ltac:(lra) ltac:(lra) ltac:(lra)). lra. }
  acut PS1 (-56085 # 10000000)%Q 0%Q.
  eassert (PS2 : apx (dp_s2 (@dscom_pass _ B sinim cosim sinomm cosomm (co_ep o) emsq betasq rtemsq xnoi bs)) (dp_s2 (@dscom_pass _ ROps sinim' cosim' sinomm' cosomm' (co_ep o') emsq' betasq' rtemsq' xnoi' bs')) _) by (unfold dscom_pass; cbn [dp_s2 bs bs' db_cc]; arel).
  destruct PS as (PS5 & PS6 & PS7 & PZ11 & PZ12 & PZ13).
  set (ps := @dscom_pass _ B sinim cosim sinomm cosomm (co_ep o) emsq betasq rtemsq xnoi bs) in *. set (ps' := @dscom_pass _ ROps sinim' cosim' sinomm' cosomm' (co_ep o') emsq' betasq' rtemsq' xnoi' bs') in *. clearbody ps ps'.
  do 19 askip. do 4 askip. lets zcosh. lets zsinh. lets ccl. ivl Hccl Icl.
  assert (Un2 : zcosh' * zcosh' + zsinh' * zsinh' = 1).
  { rewrite Ezcosh, Ezsinh. rops. replace (_ + _) with ((dl_zcoshl lu' * dl_zcoshl lu' + dl_zsinhl lu' * dl_zsinhl lu') * (cnodm' * cnodm' + snodm' * snodm')) by ring. rewrite Un, Uh. ring. }
  assert (UC : -1 <= zcosh' <= 1) by (clear - Un2; split; nra). assert (US : -1 <= zsinh' <= 1) by (clear - Un2; split; nra). acut Hzcosh (-1)%Q 1%Q. acut Hzsinh (-1)%Q 1%Q.
  askip. set (bl := MkDscomBody (dl_zcosgl lu) _ _ _ _ _ _). set (bl' := MkDscomBody (dl_zcosgl lu') _ _ _ _ _ _).
  assert (PL : hpass_ok (@dscom_pass _ B sinim cosim sinomm cosomm (co_ep o) emsq betasq rtemsq xnoi bl) (@dscom_pass _ ROps sinim' cosim' sinomm' cosomm' (co_ep o') emsq' betasq' rtemsq' xnoi' bl')).
  { apply hpass_acc; try assumption; unfold bl, bl'; cbn [db_zcosg db_zsing db_zcosi db_zsini db_zcosh db_zsinh]; try assumption.
    - aflat.
    - aflat.
    - lra.
    - lra. }
  eassert (PL1 : apx (dp_s1 (@dscom_pass _ B sinim cosim sinomm cosomm (co_ep o) emsq betasq rtemsq xnoi bl)) (dp_s1 (@dscom_pass _ ROps sinim' cosim' sinomm' cosomm' (co_ep o') emsq' betasq' rtemsq' xnoi' bl')) _) by (unfold dscom_pass; cbn [dp_s1 bl bl' db_cc]; arel).
  assert (PV2 : - (900827 / 1000000000) <= dp_s1 (@dscom_pass _ ROps sinim' cosim' sinomm' cosomm' (co_ep o') emsq' betasq' rtemsq' xnoi' bl') <= 0).
  { unfold dscom_pass. cbn [dp_s1 bl' db_cc]. rops. pose proof (s1_R ccl' xnoi' (co_ep o') rtemsq' (479682 / 1000000000000) (2503882 / 10000) ltac:(lra) ltac:(lra) ltac:(lra) ltac:(lra) ltac:(lra)). lra. }
  acut PL1 (-900827 # 1000000000)%Q 0%Q.
  eassert (PL2 : apx (dp_s2 (@dscom_pass _ B sinim cosim sinomm cosomm (co_ep o) emsq betasq rtemsq xnoi bl)) (dp_s2 (@dscom_pass _ ROps sinim' cosim' sinomm' cosomm' (co_ep o') emsq' betasq' rtemsq' xnoi' bl')) _) by (unfold dscom_pass; cbn [dp_s2 bl bl' db_cc]; arel).
  destruct PL as (PL5 & PL6 & PL7 & QZ11 & QZ12 & QZ13).
  set (pl := @dscom_pass _ B sinim cosim sinomm cosomm (co_ep o) emsq betasq rtemsq xnoi bl) in *. set (pl' := @dscom_pass _ ROps sinim' cosim' sinomm' cosomm' (co_ep o') emsq' betasq' rtemsq' xnoi' bl') in *. clearbody pl pl'.
  do 19 askip. askip. set (zsun := @frem _ B _ _). set (zsun' := @frem _ ROps _ _). eassert (Hzl : relm zsun zsun' _) by (unfold zsun, zsun'; mrel).
  askip. set (zmoon := @frem _ B _ _). set (zmoon' := @frem _ ROps _ _). eassert (Hzs : relm zmoon zmoon' _) by (unfold zmoon, zmoon'; mrel). clearbody zsun zsun' zmoon zmoon'.
  lets se2. lets se3. lets si2. lets si3. do 8 askip. lets ee2. lets e3. lets xi2. lets xi3. do 8 askip.
  assert (Wzl : relm zsun zsun' zsB) by (eapply relm_weaken; [exact Hzl|vm_compute; reflexivity..]). assert (Wzs : relm zmoon zmoon' zmB) by (eapply relm_weaken; [exact Hzs|vm_compute; reflexivity..]).
  unfold P, hdscom_ok. cbn [dr_e3 dr_ee2 dr_peo dr_pinco dr_se2 dr_se3 dr_si2 dr_si3 dr_xi2 dr_xi3 dr_s1 dr_s5 dr_ss1 dr_ss5 dr_zmol dr_zmos].
  split; [aflat|]. split; [aflat|]. split; [aflat|]. split; [aflat|]. split; [aflat|]. split; [aflat|]. split; [aflat|]. split; [aflat|].
  split; [aflat|]. split; [assumption|]. split; [aflat|]. split; [assumption|]. repeat split; assumption.
Qed.
End S.
