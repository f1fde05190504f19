(** * Binary64 accuracy of a deep-space propagation, from the mean elements to position and velocity *)
From Coq Require Import ZArith QArith Reals Qreals Bool Lra Lia Psatz.
From Flocq Require Import Core IEEE754.BinarySingleNaN.
From Verif.Model Require Import Float Str Satrec Constants Vec3 Initl Sgp4 Sgp4init.
From Verif.Spec Require Import LibmAccuracy Sgp4Spec StateSpec.
From Verif.Inst Require Import RInst RTac B64 B64Facts B64Calc ApxCalc Atan2.
From Verif.Proofs Require Import CalcFun CalcPow CalcAngle ApxFun AccInit AccNear AccSecular KeplerFacts AccKepler Str3State AccState AccTail Sgp4Errors StateFacts AccSgp4 DeepKozai DeepNear DeepMoon DeepBoot DeepSec DeepPer.
Local Open Scope R_scope.

Lemma cos_281 : - (9464 / 10000) <= cos (28121 / 10000).
Proof.
  pose proof pi_num as P. assert (E : cos (28121 / 10000) = - cos (PI - 28121 / 10000)) by (replace (PI - 28121 / 10000) with (Ropp (28121 / 10000) + PI) by ring; rewrite neg_cos, cos_neg; ring).
  rewrite E. pose proof (pre_cos_bound (PI - 28121 / 10000) 0 ltac:(lra) ltac:(lra)) as [_ U]. cbn in U. unfold cos_approx, cos_term in U. cbn in U.
  set (x := PI - 28121 / 10000) in *. assert (32949 / 100000 <= x <= 3295 / 10000) by (unfold x; lra). clearbody x. assert (Q : 10856 / 100000 <= x * x <= 10858 / 100000) by nra. replace (x * (x * (x * (x * 1)))) with ((x * x) * (x * x)) in U by ring. replace (x * (x * 1)) with (x * x) in U by ring. set (q := x * x) in *. clearbody q. assert (q * q <= 118 / 10000) by nra. lra.
Qed.

Definition dsiB := Eb (-1) 1 0 (23 # 10 ^ 12).
Definition dciB := Eb (-9464 # 10000) 1 0 (23 # 10 ^ 12).
Definition dayB := Eb (-118 # 100000) (118 # 100000) 0 (28 # 10 ^ 15).
Definition dxlB := Eb (-9 # 100) (9 # 100) 0 (43 # 10 ^ 12).
Definition d41B := Eb (-1000001 # 1000000) (2000001 # 1000000) 0 (15 # 10 ^ 11).
Definition d1mB := Eb (-1 # 1000000) (1000001 # 1000000) 0 (48 # 10 ^ 12).
Definition d7mB := Eb (-1000001 # 1000000) (6000001 # 1000000) 0 (34 # 10 ^ 11).

(** Kepler's equation: eccentricity vector and argument *)
Definition daxB := Eb (-428 # 1000) (428 # 1000) 0 (11 # 10 ^ 12).
Definition dayvB := Eb (-4287 # 10000) (4287 # 10000) 0 (11 # 10 ^ 12).
Definition duB : bd := twoB (16 # 10 ^ 12).
Definition dkin_ok (k : @KeplerIn b64) (k' : @KeplerIn R) : Prop :=
  apx (ki_axnl k) (ki_axnl k') daxB /\ apx (ki_aynl k) (ki_aynl k') dayvB /\ relm (ki_u k) (ki_u k') duB /\
  ki_axnl k' * ki_axnl k' + ki_aynl k' * ki_aynl k' <= 4287 / 10000 * (4287 / 10000).

(** position in the orbit *)
Definition dkscB := Eb (-1) 1 0 (78 # 10 ^ 12).
Definition dplB := Eb (1567 # 1000) (7023 # 1000) (24 # 10 ^ 12) 0.
Definition drlB := Eb (1097 # 1000) (10033 # 1000) (17 # 10 ^ 11) 0.
Definition drdB := Eb (-104 # 100) (104 # 100) 0 (39 # 10 ^ 11).
Definition drvB := Eb (124 # 1000) (242 # 100) (19 # 10 ^ 11) 0.
Definition dbeB := Eb (903 # 1000) (100001 # 100000) (24 # 10 ^ 12) 0.
Definition dsuB : bd := Bd (-4) 4 (8 # 10 ^ 10).
Definition ds2B := Eb (-1) 1 0 (14 # 10 ^ 10).
Definition dc2B := Eb (-1) 1 0 (15 # 10 ^ 10).
Definition dt1B := Eb (77 # 1000000) (346 # 1000000) (24 # 10 ^ 12) 0.
Definition dt2B := Eb (109 # 10000000) (221 # 1000000) (48 # 10 ^ 12) 0.
Definition dshq_ok (q : @ShortQ b64) (q' : @ShortQ R) : Prop :=
  apx (q_rl q) (q_rl q') drlB /\ apx (q_rdotl q) (q_rdotl q') drdB /\ apx (q_rvdotl q) (q_rvdotl q') drvB /\ apx (q_betal q) (q_betal q') dbeB /\
  relm (q_su q) (q_su q') dsuB /\ apx (q_sin2u q) (q_sin2u q') ds2B /\ apx (q_cos2u q) (q_cos2u q') dc2B /\ apx (q_temp1 q) (q_temp1 q') dt1B /\ apx (q_temp2 q) (q_temp2 q') dt2B.

(** the osculating orbit *)
Definition dmrB := Eb (1094 # 1000) (1005 # 100) 0 (18 # 10 ^ 10).
Definition dosuB : bd := Bd (-41 # 10) (41 # 10) (82 # 10 ^ 11).
Definition dxnB : bd := Bd (-629 # 100) (629 # 100) (1 # 10 ^ 12).
Definition dxiB := Eb (-1 # 100) (283 # 100) 0 (24 # 10 ^ 12).
Definition dmvB := Eb (-105 # 100) (105 # 100) 0 (41 # 10 ^ 11).
Definition drvdB := Eb (12 # 100) (243 # 100) 0 (48 # 10 ^ 11).
Definition dposB := Eb (-200000) 200000 0 (14 # 10 ^ 5).
Definition dvelB := Eb (-100) 100 0 (60 # 10 ^ 9).
Definition dosc_ok (o : @Osc b64) (o' : @Osc R) : Prop :=
  apx (os_mrt o) (os_mrt o') dmrB /\ relm (os_su o) (os_su o') dosuB /\ relm (os_xnode o) (os_xnode o') dxnB /\ apx (os_xinc o) (os_xinc o') dxiB /\
  apx (os_mvt o) (os_mvt o') dmvB /\ apx (os_rvdot o) (os_rvdot o') drvdB.

Section S.
Context (lm : libm) (ACC : accurate lm).
Notation B := (B64Ops lm).

(** sine and cosine of the inclination in use, and what depends on them alone *)
Lemma dsc_acc i (i' : R) : apx i i' dinB -> apx (@fsin _ B i) (@fsin _ ROps i') dsiB /\ apx (@fcos _ B i) (@fcos _ ROps i') dciB.
Proof.
  intros Hi. ivl Hi Ii. pose proof (apx_relm _ _ _ Hi) as Hm.
  pose proof (relm_cos_apx lm ACC _ _ _ _ Hm eq_refl) as Hc. pose proof (relm_sin_apx lm ACC _ _ _ _ Hm eq_refl) as Hs.
  split; [eapply apx_weaken; [exact Hs|vm_compute; reflexivity..]|].
  assert (C : - (9464 / 10000) <= @fcos _ ROps i' <= 1).
  { split; [|rops; apply COS_bound]. eapply Rle_trans; [apply cos_281|]. rops. pose proof pi_num as P. apply cos_decr_1; lra. }
  set (c := @fcos _ B i) in *. set (c' := @fcos _ ROps i') in *. clearbody c c'. ashrink Hc (-9464 # 10000)%Q 1%Q. awide.
Qed.
Lemma dcoef_acc sn (sn' : R) cs (cs' : R) : apx sn sn' dsiB -> apx cs cs' dciB ->
  apx (@fmul _ B (@fmul _ B (@fneg _ B (@L _ B 5 1)) (@kJ3OJ2 _ B)) sn) (@fmul _ ROps (@fmul _ ROps (@fneg _ ROps (@L _ ROps 5 1)) (@kJ3OJ2 _ ROps)) sn') dayB /\
  apx (@fdiv _ B (@fmul _ B (@fmul _ B (@fmul _ B (@fneg _ B (@L _ B 25 2)) (@kJ3OJ2 _ B)) sn) (@fadd _ B (@L _ B 3 0) (@fmul _ B (@L _ B 5 0) cs)))
         (if @flt _ B (@L _ B 15 13) (@fabs _ B (@fadd _ B cs (@L _ B 1 0))) then @fadd _ B (@L _ B 1 0) cs else @L _ B 15 13))
      (@fdiv _ ROps (@fmul _ ROps (@fmul _ ROps (@fmul _ ROps (@fneg _ ROps (@L _ ROps 25 2)) (@kJ3OJ2 _ ROps)) sn') (@fadd _ ROps (@L _ ROps 3 0) (@fmul _ ROps (@L _ ROps 5 0) cs')))
         (if @flt _ ROps (@L _ ROps 15 13) (@fabs _ ROps (@fadd _ ROps cs' (@L _ ROps 1 0))) then @fadd _ ROps (@L _ ROps 1 0) cs' else @L _ ROps 15 13)) dxlB /\
  apx (@fsub _ B (@fmul _ B (@L _ B 3 0) (@fmul _ B cs cs)) (@L _ B 1 0)) (@fsub _ ROps (@fmul _ ROps (@L _ ROps 3 0) (@fmul _ ROps cs' cs')) (@L _ ROps 1 0)) d41B /\
  apx (@fsub _ B (@L _ B 1 0) (@fmul _ B cs cs)) (@fsub _ ROps (@L _ ROps 1 0) (@fmul _ ROps cs' cs')) d1mB /\
  apx (@fsub _ B (@fmul _ B (@L _ B 7 0) (@fmul _ B cs cs)) (@L _ B 1 0)) (@fsub _ ROps (@fmul _ ROps (@L _ ROps 7 0) (@fmul _ ROps cs' cs')) (@L _ ROps 1 0)) d7mB.
Proof.
  intros Hs Hc. aconst @kJ3OJ2. ivl Hc Ic.
  assert (G : @flt _ B (@L _ B 15 13) (@fabs _ B (@fadd _ B cs (@L _ B 1 0))) = true /\ @flt _ ROps (@L _ ROps 15 13) (@fabs _ ROps (@fadd _ ROps cs' (@L _ ROps 1 0))) = true).
  { eapply apx_lt_true; [arel|arel|vm_compute; reflexivity]. }
  rewrite (proj1 G), (proj2 G). clear G.
  split; [aflat|]. split; [aflat|].
  eassert (H2 : apx (@fmul _ B cs cs) (@fmul _ ROps cs' cs') _) by arel.
  assert (C2 : 0 <= @fmul _ ROps cs' cs' <= 1) by (rops; nra).
  set (c2 := @fmul _ B cs cs) in *. set (c2' := @fmul _ ROps cs' cs') in *. clearbody c2 c2'. ashrink H2 0%Q 1%Q.
  split; [aflat|]. split; aflat.
Qed.

Lemma dkin_acc (s : Satrec b64) (s' : Satrec R) m m' am am' : dmean_ok m m' -> apx am am' damB -> apx (sr_aycof s) (sr_aycof s') dayB -> apx (sr_xlcof s) (sr_xlcof s') dxlB ->
  dkin_ok (@sgp4_kepler_in _ B s m am) (@sgp4_kepler_in _ ROps s' m' am').
Proof.
  intros (Hep & Hargpp & Hnodep & Hmp) Ham Hay Hxl. unfold sgp4_kepler_in, dkin_ok. cbv zeta. cbn [ki_axnl ki_aynl ki_u].
  set (ep := mn_ep m) in *. set (ep' := mn_ep m') in *. set (argpp := mn_argpp m) in *. set (argpp' := mn_argpp m') in *. set (nodep := mn_nodep m) in *. set (nodep' := mn_nodep m') in *. set (mp := mn_mp m) in *. set (mp' := mn_mp m') in *.
  set (ayc := sr_aycof s) in *. set (ayc' := sr_aycof s') in *. set (xlc := sr_xlcof s) in *. set (xlc' := sr_xlcof s') in *. clearbody ep ep' argpp argpp' nodep nodep' mp mp' ayc ayc' xlc xlc'.
  pose proof (relm_cos_apx lm ACC _ _ _ _ Hargpp eq_refl) as Hc. pose proof (relm_sin_apx lm ACC _ _ _ _ Hargpp eq_refl) as Hs.
  eassert (Ht : apx (@fdiv _ B (@L _ B 1 0) (@fmul _ B am (@fsub _ B (@L _ B 1 0) (@fmul _ B ep ep)))) (@fdiv _ ROps (@L _ ROps 1 0) (@fmul _ ROps am' (@fsub _ ROps (@L _ ROps 1 0) (@fmul _ ROps ep' ep')))) _) by arel.
  set (t := @fdiv _ B _ _) in *. set (t' := @fdiv _ ROps _ _) in *. clearbody t t'.
  split; [aflat|]. split; [aflat|]. eassert (Hx : apx (@fmul _ B (@fmul _ B t xlc) (@fmul _ B ep (@fcos _ B argpp))) (@fmul _ ROps (@fmul _ ROps t' xlc') (@fmul _ ROps ep' (@fcos _ ROps argpp'))) _) by arel.
  split; [mwide|].
  ivl Hep Iep. ivl Ht It. ivl Hay Iay. rops. pose proof (sin2_cos2 argpp') as SC. unfold Rsqr in SC. pose proof (SIN_bound argpp') as SB. set (sn := sin argpp') in *. set (cs := cos argpp') in *. clearbody sn cs.
  assert (TA : - (76 / 100000) <= t' * ayc' <= 76 / 100000) by nra. set (d := t' * ayc') in *. clearbody d.
  replace (ep' * cs * (ep' * cs) + (ep' * sn + d) * (ep' * sn + d)) with (ep' * ep' * (sn * sn + cs * cs) + 2 * (ep' * sn) * d + d * d) by ring. rewrite SC.
  assert (ES : - (4279 / 10000) <= ep' * sn <= 4279 / 10000) by nra. assert (ep' * ep' <= 4279 / 10000 * (4279 / 10000)) by nra. nra.
Qed.

Lemma dshort_acc ax ay u (ax' ay' u' : R) am am' : apx ax ax' daxB -> apx ay ay' dayvB -> relm u u' duB -> ax' * ax' + ay' * ay' <= 4287 / 10000 * (4287 / 10000) -> apx am am' damB ->
  let k := @sgp4_kepler _ B ax ay u in let k' := @sgp4_kepler _ ROps ax' ay' u' in
  let h := @sgp4_short _ B k ax ay am in let h' := @sgp4_short _ ROps k' ax' ay' am' in
  apx (sh_pl h) (sh_pl h') dplB /\ dshq_ok (@sgp4_shortq _ B h k ax ay am) (@sgp4_shortq _ ROps h' k' ax' ay' am').
Proof.
  intros Hax Hay Hu EL Ham k k' h h'.
  assert (Q : Q2R (eer daxB) <= 1 / 10000 /\ Q2R (eer dayvB) <= 1 / 10000 /\ Q2R (lo duB) >= - (69 / 10) /\ Q2R (hi duB) <= 69 / 10 /\ Q2R (er duB) <= 1 / 100).
  { assert (W : forall q, Qle_bool q (1 # 10000) = true -> Q2R q <= 1 / 10000) by (intros q W; apply qle_true in W; replace (1 / 10000) with (Q2R (1 # 10000)) by qr; exact W).
    split; [apply W; vm_compute; reflexivity|]. split; [apply W; vm_compute; reflexivity|]. cbn [duB twoB lo hi er]. split; [qr|]. split; [qr|].
    eapply Rle_trans; [apply W; vm_compute; reflexivity|lra]. }
  assert (EL0 : ax' * ax' + ay' * ay' <= 4605 / 10000 * (4605 / 10000)) by (eapply Rle_trans; [exact EL|lra]).
  destruct Q as (Q1 & Q2 & Q3 & Q4 & Q5).
  destruct (kepler_close lm ACC ax ay u ax' ay' u' daxB dayvB duB Hax Hay Hu EL0 Q1 Q2 Q3 Q4 Q5) as (E & E' & HE & (S1 & C1) & S1' & C1').
  fold k in S1, C1. fold k' in S1', C1'.
  assert (Hs : apx (ko_sineo1 k) (ko_sineo1 k') dkscB). { rewrite S1, S1'. eapply apx_weaken; [exact (relm_sin_apx lm ACC _ _ _ _ HE eq_refl)|vm_compute; reflexivity..]. }
  assert (Hc : apx (ko_coseo1 k) (ko_coseo1 k') dkscB). { rewrite C1, C1'. eapply apx_weaken; [exact (relm_cos_apx lm ACC _ _ _ _ HE eq_refl)|vm_compute; reflexivity..]. }
  pose proof (cs1 E') as SC. rewrite <- S1', <- C1' in SC. clear S1 C1 S1' C1' HE Hu. 
  unfold h, h', sgp4_shortq, sgp4_short. cbv zeta. cbn [sh_ecose sh_esine sh_el2 sh_pl]. clear h h'.
  set (sn := ko_sineo1 k) in *. set (cs := ko_coseo1 k) in *. set (sn' := ko_sineo1 k') in *. set (cs' := ko_coseo1 k') in *. clearbody sn cs sn' cs'. clear k k'.
  set (e' := sqrt (ax' * ax' + ay' * ay')). assert (P' : 0 <= ax' * ax' + ay' * ay') by nra. pose proof (sqrt_pos (ax' * ax' + ay' * ay')) as E0'. pose proof (sqrt_sqrt _ P') as E2'. fold e' in E0', E2'.
  assert (E1' : e' <= 4287 / 10000) by nra.
  pose proof (dot_le ax' ay' e' ltac:(lra) (eq_sym E2') cs' sn' ltac:(lra)) as DC. pose proof (dot_le ax' ay' e' ltac:(lra) (eq_sym E2') sn' (- cs') ltac:(lra)) as DS.
  assert (BC : - (4287 / 10000) <= @fadd _ ROps (@fmul _ ROps ax' cs') (@fmul _ ROps ay' sn') <= 4287 / 10000) by (apply Rabs_le_inv in DC; rops; lra).
  assert (BS : - (4287 / 10000) <= @fsub _ ROps (@fmul _ ROps ax' sn') (@fmul _ ROps ay' cs') <= 4287 / 10000) by (apply Rabs_le_inv in DS; rops; lra).
  assert (BE : 0 <= @fadd _ ROps (@fmul _ ROps ax' ax') (@fmul _ ROps ay' ay') <= 1838 / 10000) by (rops; lra). clear DC DS.
  assert (HU := uk_unit ax' ay' cs' sn' (sqrt (1 - (ax' * ax' + ay' * ay'))) SC (sqrt_pos _) ltac:(rewrite sqrt_sqrt by lra; ring)). cbv zeta in HU.
  clear e' E0' E2' E1'.
  eassert (Hec : apx (@fadd _ B (@fmul _ B ax cs) (@fmul _ B ay sn)) (@fadd _ ROps (@fmul _ ROps ax' cs') (@fmul _ ROps ay' sn')) _) by arel.
  eassert (Hes : apx (@fsub _ B (@fmul _ B ax sn) (@fmul _ B ay cs)) (@fsub _ ROps (@fmul _ ROps ax' sn') (@fmul _ ROps ay' cs')) _) by arel.
  eassert (Hel : apx (@fadd _ B (@fmul _ B ax ax) (@fmul _ B ay ay)) (@fadd _ ROps (@fmul _ ROps ax' ax') (@fmul _ ROps ay' ay')) _) by arel.
  assert (RC : ax' * cs' + ay' * sn' = @fadd _ ROps (@fmul _ ROps ax' cs') (@fmul _ ROps ay' sn')) by reflexivity.
  assert (RS : ax' * sn' - ay' * cs' = @fsub _ ROps (@fmul _ ROps ax' sn') (@fmul _ ROps ay' cs')) by reflexivity.
  assert (RE : ax' * ax' + ay' * ay' = @fadd _ ROps (@fmul _ ROps ax' ax') (@fmul _ ROps ay' ay')) by reflexivity.
  rewrite RC, RS, RE in HU. clear RC RS RE P' EL.
  set (ec := @fadd _ B (@fmul _ B ax cs) _) in *. set (es := @fsub _ B (@fmul _ B ax sn) _) in *. set (el := @fadd _ B (@fmul _ B ax ax) _) in *.
  set (ec' := @fadd _ ROps (@fmul _ ROps ax' cs') _) in *. set (es' := @fsub _ ROps (@fmul _ ROps ax' sn') _) in *. set (el' := @fadd _ ROps (@fmul _ ROps ax' ax') _) in *.
  clearbody ec es el ec' es' el'. ashrink Hec (-4287 # 10000)%Q (4287 # 10000)%Q. ashrink Hes (-4287 # 10000)%Q (4287 # 10000)%Q. ashrink Hel 0%Q (1838 # 10000)%Q.
  eassert (Hpl : apx (@fmul _ B am (@fsub _ B (@L _ B 1 0) el)) (@fmul _ ROps am' (@fsub _ ROps (@L _ ROps 1 0) el')) _) by arel.
  split; [awide|]. set (pl := @fmul _ B am (@fsub _ B _ el)) in *. set (pl' := @fmul _ ROps am' (@fsub _ ROps _ el')) in *. clearbody pl pl'.
  eassert (Hrl : apx (@fmul _ B am (@fsub _ B (@L _ B 1 0) ec)) (@fmul _ ROps am' (@fsub _ ROps (@L _ ROps 1 0) ec')) _) by arel.
  assert (RL : @fmul _ ROps am' (@fsub _ ROps (@L _ ROps 1 0) ec') = am' * (1 - ec')) by (rops; reflexivity).
  set (rl := @fmul _ B am (@fsub _ B _ ec)) in *. set (rl' := @fmul _ ROps am' (@fsub _ ROps _ ec')) in *. clearbody rl rl'.
  eassert (Hq : apx (@fdiv _ B am rl) (@fdiv _ ROps am' rl') _) by arel. ivl Ham Iam.
  assert (BQ : 69 / 100 <= @fdiv _ ROps am' rl' <= 1751 / 1000).
  { rops. rewrite RL. assert (A : am' / (am' * (1 - ec')) = / (1 - ec')) by (field; lra). rewrite A.
    replace (69 / 100) with (/ (100 / 69)) by field. replace (1751 / 1000) with (/ (1000 / 1751)) by field. split; apply Rinv_le_contravar; lra. }
  ashrink Hq (69 # 100)%Q (1751 # 1000)%Q.
  eassert (Hbe : apx (@fsqrt _ B (@fsub _ B (@L _ B 1 0) el)) (@fsqrt _ ROps (@fsub _ ROps (@L _ ROps 1 0) el')) _) by arel.
  assert (RB : @fsqrt _ ROps (@fsub _ ROps (@L _ ROps 1 0) el') = sqrt (1 - el')) by (rops; reflexivity).
  set (be := @fsqrt _ B _) in *. set (be' := @fsqrt _ ROps (@fsub _ ROps _ el')) in *. rewrite <- RB in HU. clearbody be be'.
  eassert (Ht : apx (@fdiv _ B es (@fadd _ B (@L _ B 1 0) be)) (@fdiv _ ROps es' (@fadd _ ROps (@L _ ROps 1 0) be')) _) by arel.
  assert (RT : @fdiv _ ROps es' (@fadd _ ROps (@L _ ROps 1 0) be') = es' / (1 + be')) by (rops; reflexivity). rewrite <- RT in HU.
  set (t := @fdiv _ B es _) in *. set (t' := @fdiv _ ROps es' _) in *. clearbody t t'.
  eassert (Hsu : apx (@fmul _ B (@fdiv _ B am rl) (@fsub _ B (@fsub _ B sn ay) (@fmul _ B ax t))) (@fmul _ ROps (@fdiv _ ROps am' rl') (@fsub _ ROps (@fsub _ ROps sn' ay') (@fmul _ ROps ax' t'))) _) by arel.
  eassert (Hcu : apx (@fmul _ B (@fdiv _ B am rl) (@fadd _ B (@fsub _ B cs ax) (@fmul _ B ay t))) (@fmul _ ROps (@fdiv _ ROps am' rl') (@fadd _ ROps (@fsub _ ROps cs' ax') (@fmul _ ROps ay' t'))) _) by arel.
  assert (UN : @fmul _ ROps (@fdiv _ ROps am' rl') (@fsub _ ROps (@fsub _ ROps sn' ay') (@fmul _ ROps ax' t')) * @fmul _ ROps (@fdiv _ ROps am' rl') (@fsub _ ROps (@fsub _ ROps sn' ay') (@fmul _ ROps ax' t')) +
    @fmul _ ROps (@fdiv _ ROps am' rl') (@fadd _ ROps (@fsub _ ROps cs' ax') (@fmul _ ROps ay' t')) * @fmul _ ROps (@fdiv _ ROps am' rl') (@fadd _ ROps (@fsub _ ROps cs' ax') (@fmul _ ROps ay' t')) = 1).
  { rops. rewrite RL. set (X := sn' - ay' - ax' * t') in *. set (Y := cs' - ax' + ay' * t') in *. clearbody X Y.
    assert (A : am' / (am' * (1 - ec')) = / (1 - ec')) by (field; lra). rewrite A.
    replace (/ (1 - ec') * X * (/ (1 - ec') * X) + / (1 - ec') * Y * (/ (1 - ec') * Y)) with ((X ^ 2 + Y ^ 2) * (/ (1 - ec') * / (1 - ec'))) by ring. rewrite HU. field. lra. }
  set (su := @fmul _ B (@fdiv _ B am rl) (@fsub _ B _ _)) in *. set (cu := @fmul _ B (@fdiv _ B am rl) (@fadd _ B _ _)) in *.
  set (su' := @fmul _ ROps (@fdiv _ ROps am' rl') (@fsub _ ROps _ _)) in *. set (cu' := @fmul _ ROps (@fdiv _ ROps am' rl') (@fadd _ ROps _ _)) in *. clearbody su cu su' cu'.
  assert (Bsu : -1 <= su' <= 1) by nra. assert (Bcu : -1 <= cu' <= 1) by nra. ashrink Hsu (-1)%Q 1%Q. ashrink Hcu (-1)%Q 1%Q.
  unfold dshq_ok. cbn [q_rl q_rdotl q_rvdotl q_betal q_su q_sin2u q_cos2u q_temp1 q_temp2].
  assert (B3 : -1 <= @fmul _ ROps (@fadd _ ROps cu' cu') su' <= 1).
  { pose proof (Rle_0_sqr (cu' + su')) as W1. pose proof (Rle_0_sqr (cu' - su')) as W2. unfold Rsqr in W1, W2. rops. lra. }
  assert (B4 : -1 <= @fsub _ ROps (@L _ ROps 1 0) (@fmul _ ROps (@fmul _ ROps (@L _ ROps 2 0) su') su') <= 1).
  { pose proof (Rle_0_sqr su') as W1. pose proof (Rle_0_sqr cu') as W2. unfold Rsqr in W1, W2. rops. lra. }
  eassert (K3 : apx (@fmul _ B (@fadd _ B cu cu) su) (@fmul _ ROps (@fadd _ ROps cu' cu') su') _) by arel.
  eassert (K4 : apx (@fsub _ B (@L _ B 1 0) (@fmul _ B (@fmul _ B (@L _ B 2 0) su) su)) (@fsub _ ROps (@L _ ROps 1 0) (@fmul _ ROps (@fmul _ ROps (@L _ ROps 2 0) su') su')) _) by arel.
  ashrink K3 (-1)%Q 1%Q. ashrink K4 (-1)%Q 1%Q.
  split; [awide|]. split; [aflat|]. split; [awide|]. split; [awide|]. split.
  { eapply relm_weaken; [apply (relm_atan2 lm ACC _ _ _ _ _ _ Hsu Hcu UN)|vm_compute; reflexivity..].
    rewrite <- Q2R_plus. apply Rle_trans with (Q2R (1 # 1000)); [apply qle_true; vm_compute; reflexivity|qr]. }
  split; [aflat|]. split; [aflat|]. split; awide.
Qed.

Ltac asum := eapply apx_weaken; [apply rel_flat; eapply rel_add; [apply apx_rel; arel|apply apx_rel; arel|ccomp]|vm_compute; reflexivity..].
Lemma dosc_acc (s : Satrec b64) (s' : Satrec R) q q' nodep nodep' xincp xincp' nm nm' :
  dshq_ok q q' -> apx (sr_con41 s) (sr_con41 s') d41B -> apx (sr_x1mth2 s) (sr_x1mth2 s') d1mB -> apx (sr_x7thm1 s) (sr_x7thm1 s') d7mB ->
  relm nodep nodep' (twoB (2 # 10 ^ 14)) -> apx xincp xincp' dinB -> apx nm nm' dnmB ->
  dosc_ok (@sgp4_osc _ B s q nodep xincp (@fsin _ B xincp) (@fcos _ B xincp) nm) (@sgp4_osc _ ROps s' q' nodep' xincp' (@fsin _ ROps xincp') (@fcos _ ROps xincp') nm').
Proof.
  intros (Hrl & Hrd & Hrv & Hbe & Hsu & Hs2 & Hc2 & Ht1 & Ht2) H41 H1 H7 Hnd Hi Hnm. destruct (dsc_acc _ _ Hi) as (Hsi & Hci). unfold sgp4_osc, dosc_ok. cbv zeta. cbn [os_mrt os_su os_xnode os_xinc os_mvt os_rvdot].
  aconst @kXKE.
  split; [asum|]. split; [mwide|]. split; [mwide|]. split; [aflat|]. split; [aflat|asum].
Qed.

Lemma dposvel_acc o o' : dosc_ok o o' -> vec_ok (g4_position (@sgp4_posvel _ B o)) (g4_position (@sgp4_posvel _ ROps o')) dposB /\ vec_ok (g4_velocity (@sgp4_posvel _ B o)) (g4_velocity (@sgp4_posvel _ ROps o')) dvelB.
Proof.
  intros (Hmr & Hsu & Hxn & Hxi & Hmv & Hrv). unfold sgp4_posvel, vec_ok. cbv zeta. cbn [g4_position g4_velocity v_x v_y v_z].
  pose proof (relm_sin_apx lm ACC _ _ _ _ Hsu eq_refl) as S1. pose proof (relm_cos_apx lm ACC _ _ _ _ Hsu eq_refl) as C1.
  pose proof (relm_sin_apx lm ACC _ _ _ _ Hxn eq_refl) as S2. pose proof (relm_cos_apx lm ACC _ _ _ _ Hxn eq_refl) as C2.
  aconst @kXKE. aconst @kEARTH_RADIUS.
  split; (split; [aflat|]; split; aflat).
Qed.
End S.
