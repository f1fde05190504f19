(** * Binary64 accuracy of the lunar and solar coefficients of deep-space orbits *)
From Coq Require Import ZArith QArith Reals Qreals Bool Lra Lia Psatz.
From Flocq Require Import Core IEEE754.BinarySingleNaN.
From Verif.Model Require Import Float Str Satrec Constants Dscom.
From Verif.Spec Require Import LibmAccuracy.
From Verif.Inst Require Import RInst RTac B64 B64Facts B64Calc ApxCalc Atan2.
From Verif.Proofs Require Import CalcFun CalcPow CalcAngle ApxFun AccInit AccNear AccKepler AccState DeepKozai.
Local Open Scope R_scope.

(** ** Exact bounds *)
Lemma moon_point s c z h : s * s + c * c = 1 -> 3139 / 10000 <= z <= 4787 / 10000 -> 95 / 100 <= h <= 1 ->
  1 / 5 <= (39785416 / 100000000 * s / z) * (39785416 / 100000000 * s / z) +
           (h * c + 91744867 / 100000000 * (89683511 / 1000000000 * s / z) * s) * (h * c + 91744867 / 100000000 * (89683511 / 1000000000 * s / z) * s).
Proof.
  intros U Hz Hh. assert (Z0 : 0 < / z) by (apply Rinv_0_lt_compat; lra). assert (ZI : z * / z = 1) by (apply Rinv_r; lra). unfold Rdiv. set (i := / z) in *. clearbody i.
  assert (I1 : 2088 / 1000 <= i) by nra. assert (I2 : i <= 3186 / 1000) by nra.
  destruct (Rle_lt_dec (36 / 100) (s * s)) as [C|C].
  - set (v := h * c + _). assert (0 <= v * v) by nra. clearbody v.
    replace (39785416 * / 100000000 * s * i * (39785416 * / 100000000 * s * i)) with ((39785416 / 100000000 * (39785416 / 100000000)) * ((s * s) * (i * i))) by (unfold Rdiv; ring).
    assert (435 / 100 <= i * i) by nra. assert (1566 / 1000 <= (s * s) * (i * i)) by nra. lra.
  - set (u := 39785416 * / 100000000 * s * i). assert (0 <= u * u) by nra. clearbody u.
    replace (h * c + 91744867 * / 100000000 * (89683511 * / 1000000000 * s * i) * s) with (h * c + (91744867 / 100000000 * (89683511 / 1000000000)) * ((s * s) * i)) by (unfold Rdiv; ring).
    assert (Q : 0 <= (s * s) * i <= 1147 / 1000) by nra. set (q := (s * s) * i) in *. clearbody q.
    set (w := 91744867 / 100000000 * (89683511 / 1000000000) * q). assert (W : 0 <= w <= 95 / 1000) by (unfold w; lra). clearbody w.
    assert (CC : 64 / 100 <= c * c) by lra. assert (HH : 9025 / 10000 <= h * h) by nra. assert (HC : 577 / 1000 <= (h * c) * (h * c)) by (replace ((h * c) * (h * c)) with ((h * h) * (c * c)) by ring; nra). set (p := h * c) in *. clearbody p.
    assert (4 / 10 <= (p + w) * (p + w)); [|lra].
    assert (PP : 759 / 1000 <= p \/ p <= - (759 / 1000)) by (destruct (Rle_lt_dec (759 / 1000) p); [left; lra|right; apply Rnot_lt_le; intros PL; nra]). destruct PP; nra.
Qed.

Section S.
Context (lm : libm) (ACC : accurate lm).
Notation B := (B64Ops lm).

(** direction of a point away from the origin *)
Definition atanG (Y X : eb) : bd := Bd (-4) 4 (upq ((26 # 10) * (eer Y + eer X) + (1 # 1000000000000000))).
Lemma relm_atan2_far y x b a Y X : apx y b Y -> apx x a X -> 1 / 5 <= b * b + a * a -> Q2R (eer Y) + Q2R (eer X) <= 1 / 1000 ->
  relm (@fatan2 _ B y x) (@fatan2 _ ROps b a) (atanG Y X).
Proof.
  intros Hy Hx U D. pose proof (apx_rel _ _ _ Hy) as Ry. pose proof (apx_rel _ _ _ Hx) as Rx. pose proof (er_pos _ _ _ Ry) as Py. pose proof (er_pos _ _ _ Rx) as Px.
  destruct Ry as (Fy & _ & Dy). destruct Rx as (Fx & _ & Dx). cbn [er] in *. set (dy := Q2R (eer Y)) in *. set (dx := Q2R (eer X)) in *.
  assert (S1 : 4 / 10 <= sqrt (a * a + b * b)).
  { rewrite <- (sqrt_Rsqr (4 / 10)) by lra. apply sqrt_le_1_alt. unfold Rsqr. lra. }
  destruct (atan2_close b a (B2R y) (B2R x) (dy + dx)) as [k K]; [lra| |lra|].
  { apply Rabs_le_inv in Dy, Dx. nra. }
  set (rho := sqrt (a * a + b * b)) in *. assert (KB : (dy + dx) / (rho - (dy + dx)) <= 255 / 100 * (dy + dx)).
  { apply (Rmult_le_reg_r (rho - (dy + dx))); [lra|]. unfold Rdiv at 1. rewrite Rmult_assoc, Rinv_l by lra. nra. }
  assert (NZ : B2R y <> 0 \/ B2R x <> 0).
  { destruct (Req_dec (B2R y) 0) as [Zy|]; [|now left]. right. intros Zx. rewrite Zy in Dy. rewrite Zx in Dx. apply Rabs_le_inv in Dy, Dx. nra. }
  destruct (acc_atan2 lm ACC y x Fy Fx NZ) as [FZ V]. cbn [fatan2 ROps B64Ops].
  pose proof (Ratan2_range (B2R y) (B2R x)) as RG. pose proof pi_num as PN. assert (U50 : / 2 ^ 50 <= 1 / 1000000000000000) by lra.
  assert (M : exists j : Z, Rabs (B2R (lm_atan2 lm y x) - (Ratan2 b a + 2 * PI * IZR j)) <= 255 / 100 * (dy + dx) + 1 / 1000000000000000 /\ Rabs (B2R (lm_atan2 lm y x)) <= 32 / 10).
  { destruct V as [V|(V1 & V2 & V3)].
    - exists k. split.
      + replace (B2R (lm_atan2 lm y x) - (Ratan2 b a + 2 * PI * IZR k)) with ((B2R (lm_atan2 lm y x) - Ratan2 (B2R y) (B2R x)) + (Ratan2 (B2R y) (B2R x) - Ratan2 b a - 2 * PI * IZR k)) by ring.
        eapply Rle_trans; [apply Rabs_triang|]. lra.
      + apply Rabs_le_inv in V. apply Rabs_le. lra.
    - assert (A : Ratan2 (B2R y) (B2R x) = PI).
      { unfold Ratan2. rewrite V1. rewrite Rlt_bool_false by lra. rewrite Rlt_bool_true by lra. rewrite Rle_bool_true by lra. unfold Rdiv. rewrite Rmult_0_l, atan_0. lra. }
      rewrite A in K. exists (k - 1)%Z. rewrite minus_IZR. split.
      + replace (B2R (lm_atan2 lm y x) - (Ratan2 b a + 2 * PI * (IZR k - 1))) with ((B2R (lm_atan2 lm y x) + PI) + (PI - Ratan2 b a - 2 * PI * IZR k)) by ring.
        eapply Rle_trans; [apply Rabs_triang|]. lra.
      + apply Rabs_le_inv in V3. apply Rabs_le. lra. }
  destruct M as (j & M1 & M2). exists j. split; [exact FZ|]. unfold atanG. cbn [lo hi er]. split.
  - assert (Rabs (B2R (lm_atan2 lm y x) - (Ratan2 b a + 2 * PI * IZR j)) <= 1 / 10) by lra. apply Rabs_le_inv in H, M2. qr.
  - eapply Rle_trans; [exact M1|]. eapply Rle_trans; [|apply upq_ge]. rewrite Q2R_plus, Q2R_mult, Q2R_plus. fold dy dx. unfold Q2R at 1 2. cbn [Qnum Qden]. lra.
Qed.

Definition epochB := Eb 0 40000 0 (1 # 10 ^ 9).
Definition dayB := Eb (18261) (58262) (57 # 10 ^ 15) 0.
Definition gamB := Eb (413 # 10) (1192 # 10) (58 # 10 ^ 15) 0.
Definition zrB := Eb (-1) 1 0 (16 # 10 ^ 13).
Definition zgB := Eb (-1) 1 0 (52 # 10 ^ 12).
Definition lunar_ok (l : @DscomLunar b64) (l' : @DscomLunar R) : Prop :=
  apx (dl_day l) (dl_day l') dayB /\ apx (dl_gam l) (dl_gam l') gamB /\
  apx (dl_zcosil l) (dl_zcosil l') zrB /\ apx (dl_zsinil l) (dl_zsinil l') zrB /\ apx (dl_zsinhl l) (dl_zsinhl l') zrB /\ apx (dl_zcoshl l) (dl_zcoshl l') zrB /\
  apx (dl_zcosgl l) (dl_zcosgl l') zgB /\ apx (dl_zsingl l) (dl_zsingl l') zgB /\
  dl_zcosil l' * dl_zcosil l' + dl_zsinil l' * dl_zsinil l' = 1 /\ dl_zcoshl l' * dl_zcoshl l' + dl_zsinhl l' * dl_zsinhl l' = 1 /\ dl_zcosgl l' * dl_zcosgl l' + dl_zsingl l' * dl_zsingl l' = 1.
Lemma lunar_acc (o : DscomOptions b64) (o' : DscomOptions R) : apx (co_epoch o) (co_epoch o') epochB -> co_tc o = @L _ B 0 0 -> co_tc o' = @L _ ROps 0 0 ->
  lunar_ok (@dscom_lunar _ B o) (@dscom_lunar _ ROps o').
Proof.
  intros He T T'. cbv beta delta [dscom_lunar]. rewrite T, T'. set (P := lunar_ok).
  lets day. askip. set (xn := @frem _ B _ _). set (xn' := @frem _ ROps _ _).
  eassert (Hxn : relm xn xn' _) by (unfold xn, xn'; mrel).
  eassert (Hs : apx (@fsin _ B xn) (@fsin _ ROps xn') _) by (eapply (relm_sin_apx lm ACC); [exact Hxn|ccomp]).
  eassert (Hc : apx (@fcos _ B xn) (@fcos _ ROps xn') _) by (eapply (relm_cos_apx lm ACC); [exact Hxn|ccomp]).
  lets stem. lets ctem. lets zcosil. lets zsinil. lets zsinhl. lets zcoshl. lets gam. lets zx. lets zy.
  ivl Hzcosil Icz. ivl Hzsinil Isz. ivl Hzsinhl Ish.
  assert (SC : stem' * stem' + ctem' * ctem' = 1) by (rewrite Estem, Ectem; cbn [fsin fcos ROps]; pose proof (sin2_cos2 xn') as Q; unfold Rsqr in Q; lra).
  assert (SI : zcosil' * zcosil' + zsinil' * zsinil' = 1) by (rewrite Ezsinil; rops; rewrite sqrt_sqrt by nra; ring).
  assert (SH : zcoshl' * zcoshl' + zsinhl' * zsinhl' = 1) by (rewrite Ezcoshl; rops; rewrite sqrt_sqrt by nra; ring).
  ivl Hzcoshl Ich. assert (CH1 : zcoshl' <= 1) by nra. acut Hzcoshl (95 # 100)%Q 1%Q.
  assert (FAR : 1 / 5 <= zx' * zx' + zy' * zy').
  { pose proof (moon_point stem' ctem' zsinil' zcoshl' SC ltac:(lra) ltac:(lra)) as Q. rewrite Ezx, Ezy, Ezsinhl. rops. eapply Rle_trans; [exact Q|right; field; lra]. }
  askip. set (at1 := @fatan2 _ B _ _). set (at1' := @fatan2 _ ROps _ _).
  eassert (Hat : relm at1 at1' (Bd (-4) 4 (4 # 10 ^ 11))).
  { eapply relm_weaken; [eapply relm_atan2_far; [exact Hzx|exact Hzy|exact FAR|]|vm_compute; reflexivity..]. rewrite <- Q2R_plus. apply Rle_trans with (Q2R (1 # 1000)); [apply qle_true; vm_compute; reflexivity|qr]. }
  askip. set (g := @fadd _ B at1 _). set (g' := @fadd _ ROps at1' _).
  eassert (Hg : relm g g' _) by (unfold g, g'; mrel).
  eassert (Hgs : apx (@fsin _ B g) (@fsin _ ROps g') _) by (eapply (relm_sin_apx lm ACC); [exact Hg|ccomp]).
  eassert (Hgc : apx (@fcos _ B g) (@fcos _ ROps g') _) by (eapply (relm_cos_apx lm ACC); [exact Hg|ccomp]).
  lets zcosgl. lets zsingl.
  assert (GC : zcosgl' * zcosgl' + zsingl' * zsingl' = 1) by (rewrite Ezcosgl, Ezsingl; cbn [fsin fcos ROps]; pose proof (sin2_cos2 g') as Q; unfold Rsqr in Q; lra).
  unfold P, lunar_ok. cbn [dl_day dl_zcosil dl_zsinil dl_zsinhl dl_zcoshl dl_gam dl_zcosgl dl_zsingl].
  assert (Hzcosil2 : apx zcosil zcosil' zrB) by (clear - Hzcosil; aflat). assert (Hzsinil2 : apx zsinil zsinil' zrB) by (clear - Hzsinil; aflat).
  assert (Hzsinhl2 : apx zsinhl zsinhl' zrB) by (clear - Hzsinhl; aflat). assert (Hzcoshl2 : apx zcoshl zcoshl' zrB) by (clear - Hzcoshl; aflat).
  split; [awide|]. split; [awide|]. do 4 (split; [assumption|]). split; [awide|]. split; [awide|]. repeat split; assumption.
Qed.

(** ** One body *)
Definition trB := Eb (-1) 1 0 (46 # 10 ^ 16).
Definition zhB := Eb (-1) 1 0 (36 # 10 ^ 13).
Definition emsqB := Eb 0 (1765 # 10000) 0 (11 # 10 ^ 16).
Definition s5B := Eb (-102 # 100) (102 # 100) 0 (12 # 10 ^ 10).
Definition z11B := Eb (-115 # 10) (115 # 10) 0 (42 # 10 ^ 10).
Definition z12B := Eb (-23) 23 0 (84 # 10 ^ 10).
Definition pass_ok (p : @DscomPass b64) (p' : @DscomPass R) : Prop :=
  apx (dp_s5 p) (dp_s5 p') s5B /\ apx (dp_s6 p) (dp_s6 p') s5B /\ apx (dp_s7 p) (dp_s7 p') s5B /\
  apx (dp_z11 p) (dp_z11 p') z11B /\ apx (dp_z12 p) (dp_z12 p') z12B /\ apx (dp_z13 p) (dp_z13 p') z11B.
Lemma pass_acc sinim sinim' cosim cosim' sinomm sinomm' cosomm cosomm' em em' emsq emsq' betasq betasq' rtemsq rtemsq' xnoi xnoi' (b : @DscomBody b64) (b' : @DscomBody R) :
  apx sinim sinim' trB -> apx cosim cosim' trB -> apx sinomm sinomm' trB -> apx cosomm cosomm' trB ->
  apx emsq emsq' emsqB ->  apx (db_zcosg b) (db_zcosg b') zgB -> apx (db_zsing b) (db_zsing b') zgB -> apx (db_zcosi b) (db_zcosi b') zrB -> apx (db_zsini b) (db_zsini b') zrB ->
  apx (db_zcosh b) (db_zcosh b') zhB -> apx (db_zsinh b) (db_zsinh b') zhB ->
  sinim' * sinim' + cosim' * cosim' = 1 -> sinomm' * sinomm' + cosomm' * cosomm' = 1 ->
  db_zcosg b' * db_zcosg b' + db_zsing b' * db_zsing b' <= 1000001 / 1000000 -> db_zcosi b' * db_zcosi b' + db_zsini b' * db_zsini b' <= 1000001 / 1000000 ->
  db_zcosh b' * db_zcosh b' + db_zsinh b' * db_zsinh b' = 1 ->
  pass_ok (@dscom_pass _ B sinim cosim sinomm cosomm em emsq betasq rtemsq xnoi b) (@dscom_pass _ ROps sinim' cosim' sinomm' cosomm' em' emsq' betasq' rtemsq' xnoi' b').
Proof.
  intros Hsinim Hcosim Hsinomm Hcosomm Hemsq Hcg Hsg Hci Hsi Hch Hsh Ui Uo Ug Uz Uh. cbv beta delta [dscom_pass]. set (P := pass_ok). do 7 askip.
  lets a1. lets a3. lets a7. lets a8. lets a9. lets a10.
  assert (V1 : a1' * a1' + a7' * a7' + a8' * a8' <= 101 / 100).
  { rewrite Ea1, Ea7, Ea8. rops. set (cg := db_zcosg b') in *. set (sg := db_zsing b') in *. set (ci := db_zcosi b') in *. set (si := db_zsini b') in *. set (ch := db_zcosh b') in *. set (sh := db_zsinh b') in *.
    replace ((cg * ch + sg * ci * sh) * (cg * ch + sg * ci * sh) + (- cg * sh + sg * ci * ch) * (- cg * sh + sg * ci * ch) + sg * si * (sg * si)) with ((cg * cg + sg * sg * (ci * ci)) * (ch * ch + sh * sh) + sg * sg * (si * si)) by ring. rewrite Uh. clearbody cg sg ci si. nra. }
  assert (V2 : a3' * a3' + a9' * a9' + a10' * a10' <= 101 / 100).
  { rewrite Ea3, Ea9, Ea10. rops. set (cg := db_zcosg b') in *. set (sg := db_zsing b') in *. set (ci := db_zcosi b') in *. set (si := db_zsini b') in *. set (ch := db_zcosh b') in *. set (sh := db_zsinh b') in *.
    replace ((- sg * ch + cg * ci * sh) * (- sg * ch + cg * ci * sh) + (sg * sh + cg * ci * ch) * (sg * sh + cg * ci * ch) + cg * si * (cg * si)) with ((sg * sg + cg * cg * (ci * ci)) * (ch * ch + sh * sh) + cg * cg * (si * si)) by ring. rewrite Uh. clearbody cg sg ci si. nra. }
  assert (K : forall x, x * x <= 101 / 100 -> - (1005 / 1000) <= x <= 1005 / 1000) by (clear; intros; split; nra).
  assert (SQ : forall x : R, 0 <= x * x) by (clear; intros; nra). pose proof (SQ a1') as P1. pose proof (SQ a3') as P3. pose proof (SQ a7') as P7. pose proof (SQ a8') as P8. pose proof (SQ a9') as P9. pose proof (SQ a10') as P10.
  assert (K1 := K a1' ltac:(clear - V1 V2 P1 P3 P7 P8 P9 P10; lra)). assert (K3 := K a3' ltac:(clear - V1 V2 P1 P3 P7 P8 P9 P10; lra)). assert (K7 := K a7' ltac:(clear - V1 V2 P1 P3 P7 P8 P9 P10; lra)). assert (K9 := K a9' ltac:(clear - V1 V2 P1 P3 P7 P8 P9 P10; lra)).
  acut Ha1 (-1005 # 1000)%Q (1005 # 1000)%Q. acut Ha3 (-1005 # 1000)%Q (1005 # 1000)%Q. acut Ha7 (-1005 # 1000)%Q (1005 # 1000)%Q. acut Ha9 (-1005 # 1000)%Q (1005 # 1000)%Q.
  lets a2. lets a4. lets a5. lets a6.
  assert (W1 : a2' * a2' + a5' * a5' = a7' * a7' + a8' * a8').
  { rewrite Ea2, Ea5. rops. replace ((cosim' * a7' + sinim' * a8') * (cosim' * a7' + sinim' * a8') + (- sinim' * a7' + cosim' * a8') * (- sinim' * a7' + cosim' * a8')) with ((sinim' * sinim' + cosim' * cosim') * (a7' * a7' + a8' * a8')) by ring. rewrite Ui. ring. }
  assert (W2 : a4' * a4' + a6' * a6' = a9' * a9' + a10' * a10').
  { rewrite Ea4, Ea6. rops. replace ((cosim' * a9' + sinim' * a10') * (cosim' * a9' + sinim' * a10') + (- sinim' * a9' + cosim' * a10') * (- sinim' * a9' + cosim' * a10')) with ((sinim' * sinim' + cosim' * cosim') * (a9' * a9' + a10' * a10')) by ring. rewrite Ui. ring. }
  pose proof (SQ a2') as P2. pose proof (SQ a4') as P4. pose proof (SQ a5') as P5. pose proof (SQ a6') as P6.
  assert (K2 := K a2' ltac:(clear - V1 V2 W1 W2 P1 P2 P3 P4 P5 P6 P7 P8 P9 P10; lra)). assert (K4 := K a4' ltac:(clear - V1 V2 W1 W2 P1 P2 P3 P4 P5 P6 P7 P8 P9 P10; lra)). assert (K5 := K a5' ltac:(clear - V1 V2 W1 W2 P1 P2 P3 P4 P5 P6 P7 P8 P9 P10; lra)). assert (K6 := K a6' ltac:(clear - V1 V2 W1 W2 P1 P2 P3 P4 P5 P6 P7 P8 P9 P10; lra)).
  acut Ha2 (-1005 # 1000)%Q (1005 # 1000)%Q. acut Ha4 (-1005 # 1000)%Q (1005 # 1000)%Q. acut Ha5 (-1005 # 1000)%Q (1005 # 1000)%Q. acut Ha6 (-1005 # 1000)%Q (1005 # 1000)%Q.
  lets x1. lets x2. lets x3. lets x4.
  assert (X1 : x1' * x1' + x3' * x3' = a1' * a1' + a2' * a2').
  { rewrite Ex1, Ex3. rops. replace ((a1' * cosomm' + a2' * sinomm') * (a1' * cosomm' + a2' * sinomm') + (- a1' * sinomm' + a2' * cosomm') * (- a1' * sinomm' + a2' * cosomm')) with ((sinomm' * sinomm' + cosomm' * cosomm') * (a1' * a1' + a2' * a2')) by ring. rewrite Uo. ring. }
  assert (X2 : x2' * x2' + x4' * x4' = a3' * a3' + a4' * a4').
  { rewrite Ex2, Ex4. rops. replace ((a3' * cosomm' + a4' * sinomm') * (a3' * cosomm' + a4' * sinomm') + (- a3' * sinomm' + a4' * cosomm') * (- a3' * sinomm' + a4' * cosomm')) with ((sinomm' * sinomm' + cosomm' * cosomm') * (a3' * a3' + a4' * a4')) by ring. rewrite Uo. ring. }
  assert (Y1 : x1' * x1' + x3' * x3' <= 101 / 100) by (clear - V1 W1 X1 P5; lra). assert (Y2 : x2' * x2' + x4' * x4' <= 101 / 100) by (clear - V2 W2 X2 P6; lra).
  pose proof (SQ x1') as R1. pose proof (SQ x2') as R2. pose proof (SQ x3') as R3. pose proof (SQ x4') as R4.
  assert (L1 := K x1' ltac:(clear - Y1 Y2 R1 R2 R3 R4; lra)). assert (L2 := K x2' ltac:(clear - Y1 Y2 R1 R2 R3 R4; lra)). assert (L3 := K x3' ltac:(clear - Y1 Y2 R1 R2 R3 R4; lra)). assert (L4 := K x4' ltac:(clear - Y1 Y2 R1 R2 R3 R4; lra)).
  acut Hx1 (-1005 # 1000)%Q (1005 # 1000)%Q. acut Hx2 (-1005 # 1000)%Q (1005 # 1000)%Q. acut Hx3 (-1005 # 1000)%Q (1005 # 1000)%Q. acut Hx4 (-1005 # 1000)%Q (1005 # 1000)%Q.
  lets x5. lets x6. lets x7. lets x8. do 6 askip. lets z11. lets z12. lets z13. do 6 askip. do 4 askip. lets s5. lets s6. lets s7.
  assert (T5 : - (101 / 100) <= s5' <= 101 / 100) by (rewrite Es5; rops; pose proof (SQ (x1' + x3')); pose proof (SQ (x1' - x3')); pose proof (SQ (x2' + x4')); pose proof (SQ (x2' - x4')); lra).
  assert (T6 : - (101 / 100) <= s6' <= 101 / 100) by (rewrite Es6; rops; pose proof (SQ (x2' + x3')); pose proof (SQ (x2' - x3')); pose proof (SQ (x1' + x4')); pose proof (SQ (x1' - x4')); lra).
  assert (T7 : - (101 / 100) <= s7' <= 101 / 100) by (rewrite Es7; rops; pose proof (SQ (x2' + x4')); pose proof (SQ (x2' - x4')); pose proof (SQ (x1' + x3')); pose proof (SQ (x1' - x3')); lra).
  acut Hs5 (-101 # 100)%Q (101 # 100)%Q. acut Hs6 (-101 # 100)%Q (101 # 100)%Q. acut Hs7 (-101 # 100)%Q (101 # 100)%Q.
  unfold P, pass_ok. cbn [dp_s5 dp_s6 dp_s7 dp_z11 dp_z12 dp_z13]. do 5 (split; [aflat|]). aflat.
Qed.

Lemma sq_acc x a : apx x a din_ecc -> apx (@fpowi _ B x 2) (@fpowi _ ROps a 2) (Eb 0 (1764 # 10000) 0 (1 # 10 ^ 15)).
Proof.
  intros H. pose proof (apx_rel _ _ _ H) as (_ & I & D). destruct H as (F & _). cbn [lo hi er] in I, D.
  assert (E : Q2R (eer din_ecc) <= 1 / 10000000000000000) by (apply Rle_trans with (Q2R (1 # 10000000000000000)); [apply qle_true; vm_compute; reflexivity|unfold Q2R; cbn [Qnum Qden]; lra]).
  unfold Q2R in I. cbn [Qnum Qden el eh din_ecc] in I. assert (D' := Rle_trans _ _ _ D E). clear D E. apply Rabs_le_inv in D'.
  cbn [fpowi ROps B64Ops]. change 2%Z with (Z.of_nat 2). rewrite <- pow_powerRZ. set (v := B2R x) in *.
  assert (V : - (1 / 1000000) <= v <= 43 / 100) by lra. assert (V2 : 0 <= v ^ 2 <= 19 / 100) by nra.
  assert (AV : Rabs (v ^ 2 - a ^ 2) <= 1 / 10000000000000000).
  { replace (v ^ 2 - a ^ 2) with ((v - a) * (v + a)) by ring. set (d := v - a) in *. assert (- (1 / 1000000) <= v + a <= 86 / 100) by lra. set (s := v + a) in *. clearbody d s. apply Rabs_le. nra. }
  assert (P1 : / 2 ^ 50 <= 1 / 1000000000000000) by lra. assert (P2 : / 2 ^ 200 <= / 2 ^ 60) by (apply Rinv_le_contravar; [apply pow_lt; lra|apply Rle_pow; [lra|lia]]). assert (P3 : / 2 ^ 60 <= 1 / 1000000000000000000) by lra.
  destruct (acc_powi lm ACC x 2 F ltac:(lia)) as (FZ & ER).
  { fold v. rewrite Rabs_pos_eq by lra. apply Rle_trans with 1; [lra|]. apply pow_R1_Rle. lra. }
  fold v in ER. rewrite (Rabs_pos_eq (v ^ 2)) in ER by lra. unfold Rdiv at 1 in ER.
  assert (v ^ 2 * / 2 ^ 50 <= 19 / 100 * (1 / 1000000000000000)) by (apply Rmult_le_compat; [lra|left; apply Rinv_0_lt_compat, pow_lt; lra|lra|exact P1]).
  change (10 ^ 15)%positive with 1000000000000000%positive.
  split; [exact FZ|]. cbn [el eh rr ab]. rewrite !Q2R_0. split; [unfold Q2R; cbn [Qnum Qden]; split; nra|]. split; [split; [lra|unfold Q2R; cbn [Qnum Qden]; lra]|].
  rewrite Rmult_0_l, Rplus_0_l. set (z := B2R (lm_powi lm x (Z.of_nat 2))) in *. clearbody z. replace (z - a ^ 2) with ((z - v ^ 2) + (v ^ 2 - a ^ 2)) by ring.
  eapply Rle_trans; [apply Rabs_triang|]. apply Rle_trans with (5 / 10000000000000000); [lra|]. unfold Q2R. cbn [Qnum Qden]. lra.
Qed.

(** ** All the coefficients that a propagated state depends on *)
Definition seB := Eb (-97 # 10000) (97 # 10000) 0 (12 # 10 ^ 12).
Definition siB := Eb (-19 # 1000) (19 # 1000) 0 (70 # 10 ^ 13).
Definition eeB := Eb (-16 # 10000) (16 # 10000) 0 (19 # 10 ^ 13).
Definition xiB := Eb (-31 # 10000) (31 # 10000) 0 (12 # 10 ^ 13).
Definition ss1B := Eb (-471 # 100000) 0 0 (15 # 10 ^ 18).
Definition s1B := Eb (-757 # 1000000) 0 0 (25 # 10 ^ 19).
Definition zmB := Bd (-7) 7 (1 # 10 ^ 9).
Definition zsB := Bd (-7) 7 (6 # 10 ^ 11).
Definition dscom_ok (d : DscomResult b64) (d' : DscomResult R) : Prop :=
  apx (dr_se2 d) (dr_se2 d') seB /\ apx (dr_se3 d) (dr_se3 d') seB /\ apx (dr_si2 d) (dr_si2 d') siB /\ apx (dr_si3 d) (dr_si3 d') siB /\
  apx (dr_ee2 d) (dr_ee2 d') eeB /\ apx (dr_e3 d) (dr_e3 d') eeB /\ apx (dr_xi2 d) (dr_xi2 d') xiB /\ apx (dr_xi3 d) (dr_xi3 d') xiB /\
  apx (dr_ss1 d) (dr_ss1 d') ss1B /\ apx (dr_ss5 d) (dr_ss5 d') s5B /\ apx (dr_s1 d) (dr_s1 d') s1B /\ apx (dr_s5 d) (dr_s5 d') s5B /\
  relm (dr_zmol d) (dr_zmol d') zmB /\ relm (dr_zmos d) (dr_zmos d') zsB /\
  dr_peo d = @L _ B 0 0 /\ dr_peo d' = @L _ ROps 0 0 /\ dr_pinco d = @L _ B 0 0 /\ dr_pinco d' = @L _ ROps 0 0.
Lemma dscom_acc (o : DscomOptions b64) (o' : DscomOptions R) :
  apx (co_epoch o) (co_epoch o') epochB -> co_tc o = @L _ B 0 0 -> co_tc o' = @L _ ROps 0 0 ->
  apx (co_ep o) (co_ep o') din_ecc -> apx (co_np o) (co_np o') dnoB ->
  apx (co_inclp o) (co_inclp o') din_inc -> apx (co_nodep o) (co_nodep o') in_ang -> apx (co_argpp o) (co_argpp o') in_ang ->
  dscom_ok (@dscom _ B o) (@dscom _ ROps o').
Proof.
  intros Hep T T' He Hn Hi Hno Hw. cbv beta delta [dscom]. set (P := dscom_ok). askip. askip.
  lets snodm. lets cnodm. lets sinomm. lets cosomm. lets sinim. lets cosim. pose proof (sq_acc _ _ He) as Hsq. lets emsq. lets betasq. lets rtemsq. do 5 askip.
  pose proof (lunar_acc o o' Hep T T') as LU. askip. set (lu := @dscom_lunar _ B o) in *. set (lu' := @dscom_lunar _ ROps o') in *. clearbody lu lu'.
  destruct LU as (Lday & Lgam & Lci & Lsi & Lsh & Lch & Lcg & Lsg & Ui & Uh & Ug).
  do 8 askip. lets zcosgs. lets zsings. lets zcosis. lets zsinis. do 2 askip. lets ccs. lets xnoi.
  assert (Uo : sinomm' * sinomm' + cosomm' * cosomm' = 1) by (rewrite Esinomm, Ecosomm; cbn [fsin fcos ROps]; pose proof (sin2_cos2 (co_argpp o')) as Q; unfold Rsqr in Q; lra).
  assert (Um : sinim' * sinim' + cosim' * cosim' = 1) by (rewrite Esinim, Ecosim; cbn [fsin fcos ROps]; pose proof (sin2_cos2 (co_inclp o')) as Q; unfold Rsqr in Q; lra).
  assert (Un : cnodm' * cnodm' + snodm' * snodm' = 1) by (rewrite Esnodm, Ecnodm; cbn [fsin fcos ROps]; pose proof (sin2_cos2 (co_nodep o')) as Q; unfold Rsqr in Q; lra).
  assert (Tsinim : apx sinim sinim' trB) by awide. assert (Tcosim : apx cosim cosim' trB) by awide. assert (Tsinomm : apx sinomm sinomm' trB) by awide. assert (Tcosomm : apx cosomm cosomm' trB) by awide.
  assert (Tsnodm : apx snodm snodm' trB) by awide. assert (Tcnodm : apx cnodm cnodm' trB) by awide.
  assert (Temsq : apx emsq emsq' emsqB) by aflat.
  askip. set (bs := MkDscomBody zcosgs zsings _ _ _ _ _). set (bs' := MkDscomBody zcosgs' zsings' _ _ _ _ _).
  assert (PS : pass_ok (@dscom_pass _ B sinim cosim sinomm cosomm (co_ep o) emsq betasq rtemsq xnoi bs) (@dscom_pass _ ROps sinim' cosim' sinomm' cosomm' (co_ep o') emsq' betasq' rtemsq' xnoi' bs')).
  { apply pass_acc; try assumption; unfold bs, bs'; cbn [db_zcosg db_zsing db_zcosi db_zsini db_zcosh db_zsinh].
    - aflat.
    - aflat.
    - aflat.
    - aflat.
    - awide.
    - awide.
    - rewrite Ezcosgs, Ezsings. unfold dscom_ZCOSGS, dscom_ZSINGS. rops. lra.
    - rewrite Ezcosis, Ezsinis. unfold dscom_ZCOSIS, dscom_ZSINIS. rops. lra. }
  eassert (PS1 : apx (dp_s1 (@dscom_pass _ B sinim cosim sinomm cosomm (co_ep o) emsq betasq rtemsq xnoi bs)) (dp_s1 (@dscom_pass _ ROps sinim' cosim' sinomm' cosomm' (co_ep o') emsq' betasq' rtemsq' xnoi' bs')) _) by (unfold dscom_pass; cbn [dp_s1 bs bs' db_cc]; arel).
  eassert (PS2 : apx (dp_s2 (@dscom_pass _ B sinim cosim sinomm cosomm (co_ep o) emsq betasq rtemsq xnoi bs)) (dp_s2 (@dscom_pass _ ROps sinim' cosim' sinomm' cosomm' (co_ep o') emsq' betasq' rtemsq' xnoi' bs')) _) by (unfold dscom_pass; cbn [dp_s2 bs bs' db_cc]; arel).
  destruct PS as (PS5 & PS6 & PS7 & PZ11 & PZ12 & PZ13).
  set (ps := @dscom_pass _ B sinim cosim sinomm cosomm (co_ep o) emsq betasq rtemsq xnoi bs) in *. set (ps' := @dscom_pass _ ROps sinim' cosim' sinomm' cosomm' (co_ep o') emsq' betasq' rtemsq' xnoi' bs') in *. clearbody ps ps'.
  do 19 askip. do 4 askip. lets zcosh. lets zsinh. lets ccl.
  assert (Un2 : zcosh' * zcosh' + zsinh' * zsinh' = 1).
  { rewrite Ezcosh, Ezsinh. rops. replace (_ + _) with ((dl_zcoshl lu' * dl_zcoshl lu' + dl_zsinhl lu' * dl_zsinhl lu') * (cnodm' * cnodm' + snodm' * snodm')) by ring. rewrite Un, Uh. ring. }
  assert (UC : -1 <= zcosh' <= 1) by (clear - Un2; split; nra). assert (US : -1 <= zsinh' <= 1) by (clear - Un2; split; nra). acut Hzcosh (-1)%Q 1%Q. acut Hzsinh (-1)%Q 1%Q.
  askip. set (bl := MkDscomBody (dl_zcosgl lu) _ _ _ _ _ _). set (bl' := MkDscomBody (dl_zcosgl lu') _ _ _ _ _ _).
  assert (PL : pass_ok (@dscom_pass _ B sinim cosim sinomm cosomm (co_ep o) emsq betasq rtemsq xnoi bl) (@dscom_pass _ ROps sinim' cosim' sinomm' cosomm' (co_ep o') emsq' betasq' rtemsq' xnoi' bl')).
  { apply pass_acc; try assumption; unfold bl, bl'; cbn [db_zcosg db_zsing db_zcosi db_zsini db_zcosh db_zsinh]; try assumption.
    - aflat.
    - aflat.
    - lra.
    - lra. }
  eassert (PL1 : apx (dp_s1 (@dscom_pass _ B sinim cosim sinomm cosomm (co_ep o) emsq betasq rtemsq xnoi bl)) (dp_s1 (@dscom_pass _ ROps sinim' cosim' sinomm' cosomm' (co_ep o') emsq' betasq' rtemsq' xnoi' bl')) _) by (unfold dscom_pass; cbn [dp_s1 bl bl' db_cc]; arel).
  eassert (PL2 : apx (dp_s2 (@dscom_pass _ B sinim cosim sinomm cosomm (co_ep o) emsq betasq rtemsq xnoi bl)) (dp_s2 (@dscom_pass _ ROps sinim' cosim' sinomm' cosomm' (co_ep o') emsq' betasq' rtemsq' xnoi' bl')) _) by (unfold dscom_pass; cbn [dp_s2 bl bl' db_cc]; arel).
  destruct PL as (PL5 & PL6 & PL7 & QZ11 & QZ12 & QZ13).
  set (pl := @dscom_pass _ B sinim cosim sinomm cosomm (co_ep o) emsq betasq rtemsq xnoi bl) in *. set (pl' := @dscom_pass _ ROps sinim' cosim' sinomm' cosomm' (co_ep o') emsq' betasq' rtemsq' xnoi' bl') in *. clearbody pl pl'.
  do 19 askip. askip. set (zsun := @frem _ B _ _). set (zsun' := @frem _ ROps _ _). eassert (Hzl : relm zsun zsun' _) by (unfold zsun, zsun'; mrel).
  askip. set (zmoon := @frem _ B _ _). set (zmoon' := @frem _ ROps _ _). eassert (Hzs : relm zmoon zmoon' _) by (unfold zmoon, zmoon'; mrel). clearbody zsun zsun' zmoon zmoon'.
  lets se2. lets se3. lets si2. lets si3. do 8 askip. lets ee2. lets e3. lets xi2. lets xi3. do 8 askip.
  assert (Wzl : relm zsun zsun' zsB) by (eapply relm_weaken; [exact Hzl|vm_compute; reflexivity..]). assert (Wzs : relm zmoon zmoon' zmB) by (eapply relm_weaken; [exact Hzs|vm_compute; reflexivity..]).
  unfold P, dscom_ok. cbn [dr_e3 dr_ee2 dr_peo dr_pinco dr_se2 dr_se3 dr_si2 dr_si3 dr_xi2 dr_xi3 dr_s1 dr_s5 dr_ss1 dr_ss5 dr_zmol dr_zmos].
  split; [aflat|]. split; [aflat|]. split; [aflat|]. split; [aflat|]. split; [aflat|]. split; [aflat|]. split; [aflat|]. split; [aflat|].
  split; [aflat|]. split; [assumption|]. split; [aflat|]. split; [assumption|]. repeat split; assumption.
Qed.
End S.
