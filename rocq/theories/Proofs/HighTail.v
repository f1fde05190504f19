(** * Binary64 accuracy of the propagation of a highly eccentric orbit, from the mean elements to position and velocity *)
From Coq Require Import ZArith QArith Reals Qreals Bool Lra Lia Psatz.
From Flocq Require Import Core IEEE754.BinarySingleNaN.
From Verif.Model Require Import Float Str Satrec Constants Vec3 Initl Sgp4 Sgp4init.
From Verif.Spec Require Import LibmAccuracy Sgp4Spec StateSpec.
From Verif.Inst Require Import RInst RTac B64 B64Facts B64Calc ApxCalc Atan2.
From Verif.Proofs Require Import CalcFun CalcPow CalcAngle ApxFun AccInit AccNear AccSecular KeplerFacts AccKepler Str3State AccState AccTail Sgp4Errors StateFacts AccSgp4 DeepKozai DeepNear DeepMoon DeepBoot DeepSec DeepPer AccKeplerHigh HighKozai HighNear HighMoon HighBoot HighSec HighPer HighLip.
Local Open Scope R_scope.

Lemma cos_283 : - (9519 / 10000) <= cos (283 / 100).
Proof.
  pose proof pi_num as P. assert (E : cos (283 / 100) = - cos (PI - 283 / 100)) by (replace (PI - 283 / 100) with (Ropp (283 / 100) + PI) by ring; rewrite neg_cos, cos_neg; ring).
  rewrite E. pose proof (pre_cos_bound (PI - 283 / 100) 0 ltac:(lra) ltac:(lra)) as [_ U]. cbn in U. unfold cos_approx, cos_term in U. cbn in U.
  set (x := PI - 283 / 100) in *. assert (31159 / 100000 <= x <= 3116 / 10000) by (unfold x; lra). clearbody x. assert (Q : 9708 / 100000 <= x * x <= 971 / 10000) by nra. replace (x * (x * (x * (x * 1)))) with ((x * x) * (x * x)) in U by ring. replace (x * (x * 1)) with (x * x) in U by ring. set (q := x * x) in *. clearbody q. assert (q * q <= 943 / 100000) by nra. lra.
Qed.

Definition hsinB := Eb (-1) 1 0 (60 # 10 ^ 12).
Definition hciB := Eb (-9519 # 10000) 1 0 (60 # 10 ^ 12).
Definition hayB := Eb (-116946 # 10 ^ 8) (116946 # 10 ^ 8) 0 (709 # 10 ^ 16).
Definition hxlB := Eb (-972522 # 10 ^ 7) (972522 # 10 ^ 7) 0 (133 # 10 ^ 12).
Definition h41B := Eb (-100002 # 10 ^ 5) (200003 # 10 ^ 5) 0 (364 # 10 ^ 12).
Definition h1mB := Eb 0 (100002 # 10 ^ 5) 0 (122 # 10 ^ 12).
Definition h7mB := Eb (-100002 # 10 ^ 5) (600007 # 10 ^ 5) 0 (849 # 10 ^ 12).

(** Kepler's equation: eccentricity vector and argument *)
Definition haxB := Eb (-763858 # 10 ^ 6) (763858 # 10 ^ 6) 0 (233 # 10 ^ 13).
Definition hayvB := Eb (-765349 # 10 ^ 6) (765349 # 10 ^ 6) 0 (239 # 10 ^ 13).
Definition huB : bd := twoB (56 # 10 ^ 11).
Definition hkin_ok (k : @KeplerIn b64) (k' : @KeplerIn R) : Prop :=
  apx (ki_axnl k) (ki_axnl k') haxB /\ apx (ki_aynl k) (ki_aynl k') hayvB /\ relm (ki_u k) (ki_u k') huB /\
  ki_axnl k' * ki_axnl k' + ki_aynl k' * ki_aynl k' <= 7654 / 10000 * (7654 / 10000).

(** position in the orbit *)
Definition hkscB := Eb (-1) 1 0 (5 # 10 ^ 16).
Definition hplB := Eb (779938 # 10 ^ 6) (716648 # 10 ^ 5) (177 # 10 ^ 12) 0.
Definition trlB := Eb (441794 # 10 ^ 6) (126517 # 10 ^ 4) (204 # 10 ^ 12) 0.
Definition trdB := Eb (-463788 # 10 ^ 5) (463788 # 10 ^ 5) 0 (124 # 10 ^ 11).
Definition trvB := Eb (698045 # 10 ^ 7) (605942 # 10 ^ 5) (381 # 10 ^ 12) (629 # 10 ^ 63).
Definition hbeB := Eb (643546 # 10 ^ 6) (100002 # 10 ^ 5) (177 # 10 ^ 12) 0.
Definition tsuB : bd := Bd (-4) 4 (35 # 10 ^ 10).
Definition ts2B := Eb (-100001 # 10 ^ 5) (100001 # 10 ^ 5) 0 (266 # 10 ^ 11).
Definition tc2B := Eb (-100001 # 10 ^ 5) (100001 # 10 ^ 5) 0 (287 # 10 ^ 11).
Definition ht1B := Eb (755343 # 10 ^ 10) (694049 # 10 ^ 9) (177 # 10 ^ 12) 0.
Definition ht2B := Eb (105400 # 10 ^ 10) (889868 # 10 ^ 9) (353 # 10 ^ 12) (629 # 10 ^ 63).
(** rounding alone, the eccentric anomaly being the same *)
Definition tshq_ok (q : @ShortQ b64) (q' : @ShortQ R) : Prop :=
  apx (q_rl q) (q_rl q') trlB /\ apx (q_rdotl q) (q_rdotl q') trdB /\ apx (q_rvdotl q) (q_rvdotl q') trvB /\ apx (q_betal q) (q_betal q') hbeB /\
  relm (q_su q) (q_su q') tsuB /\ apx (q_sin2u q) (q_sin2u q') ts2B /\ apx (q_cos2u q) (q_cos2u q') tc2B /\ apx (q_temp1 q) (q_temp1 q') ht1B /\ apx (q_temp2 q) (q_temp2 q') ht2B.
(** with the error of the eccentric anomaly *)
Definition hdE : Q := 27 # 10 ^ 10.
Definition shiftB (A : eb) (d : Q) : eb := Eb (el A - d) (eh A + d) 0 (upq (eer A + d)).
Definition hrlB := shiftB trlB ((55 # 10) * hdE).
Definition hrdB := shiftB trdB ((312 # 100) * hdE).
Definition hrvB := shiftB trvB ((1016 # 100) * hdE).
Definition hsuB : bd := Bd (-5) 5 (upq (er tsuB + (3925 # 1000) * hdE)).
Definition hs2B := shiftB ts2B (11 * hdE).
Definition hc2B := shiftB tc2B (11 * hdE).
Definition hshq_ok (q : @ShortQ b64) (q' : @ShortQ R) : Prop :=
  apx (q_rl q) (q_rl q') hrlB /\ apx (q_rdotl q) (q_rdotl q') hrdB /\ apx (q_rvdotl q) (q_rvdotl q') hrvB /\ apx (q_betal q) (q_betal q') hbeB /\
  relm (q_su q) (q_su q') hsuB /\ apx (q_sin2u q) (q_sin2u q') hs2B /\ apx (q_cos2u q) (q_cos2u q') hc2B /\ apx (q_temp1 q) (q_temp1 q') ht1B /\ apx (q_temp2 q) (q_temp2 q') ht2B.

(** the osculating orbit *)
Definition hmrB := Eb (440263 # 10 ^ 6) (126691 # 10 ^ 4) 0 (177 # 10 ^ 10).
Definition hosuB : bd := Bd (-500139 # 10 ^ 5) (500139 # 10 ^ 5) (143 # 10 ^ 10).
Definition hxnB : bd := Bd (-628460 # 10 ^ 5) (628460 # 10 ^ 5) (448 # 10 ^ 13).
Definition hxincB := Eb (-133483 # 10 ^ 8) (283137 # 10 ^ 5) 0 (105 # 10 ^ 12).
Definition hmvB := Eb (-463820 # 10 ^ 5) (463820 # 10 ^ 5) 0 (977 # 10 ^ 11).
Definition hrvdB := Eb (691323 # 10 ^ 7) (606056 # 10 ^ 5) 0 (301 # 10 ^ 10).
Definition hposB := Eb (-200000) 200000 0 (26 # 10 ^ 4).
Definition hvelB := Eb (-200) 200 0 (32 # 10 ^ 7).
Definition hosc_ok (o : @Osc b64) (o' : @Osc R) : Prop :=
  apx (os_mrt o) (os_mrt o') hmrB /\ relm (os_su o) (os_su o') hosuB /\ relm (os_xnode o) (os_xnode o') hxnB /\ apx (os_xinc o) (os_xinc o') hxincB /\
  apx (os_mvt o) (os_mvt o') hmvB /\ apx (os_rvdot o) (os_rvdot o') hrvdB.

Section S.
Context (lm : libm) (ACC : accurate lm).
Notation B := (B64Ops lm).

(** sine and cosine of the inclination in use, and what depends on them alone *)
Lemma hsc_acc i (i' : R) : apx i i' hinB -> apx (@fsin _ B i) (@fsin _ ROps i') hsinB /\ apx (@fcos _ B i) (@fcos _ ROps i') hciB.
Proof.
  intros Hi. ivl Hi Ii. pose proof (apx_relm _ _ _ Hi) as Hm.
  pose proof (relm_cos_apx lm ACC _ _ _ _ Hm eq_refl) as Hc. pose proof (relm_sin_apx lm ACC _ _ _ _ Hm eq_refl) as Hs.
  split; [eapply apx_weaken; [exact Hs|vm_compute; reflexivity..]|].
  assert (C : - (9519 / 10000) <= @fcos _ ROps i' <= 1).
  { split; [|rops; apply COS_bound]. eapply Rle_trans; [apply cos_283|]. rops. pose proof pi_num as P. apply cos_decr_1; lra. }
  set (c := @fcos _ B i) in *. set (c' := @fcos _ ROps i') in *. clearbody c c'. ashrink Hc (-9519 # 10000)%Q 1%Q. awide.
Qed.
Lemma hcoef_acc sn (sn' : R) cs (cs' : R) : apx sn sn' hsinB -> apx cs cs' hciB ->
  apx (@fmul _ B (@fmul _ B (@fneg _ B (@L _ B 5 1)) (@kJ3OJ2 _ B)) sn) (@fmul _ ROps (@fmul _ ROps (@fneg _ ROps (@L _ ROps 5 1)) (@kJ3OJ2 _ ROps)) sn') hayB /\
  apx (@fdiv _ B (@fmul _ B (@fmul _ B (@fmul _ B (@fneg _ B (@L _ B 25 2)) (@kJ3OJ2 _ B)) sn) (@fadd _ B (@L _ B 3 0) (@fmul _ B (@L _ B 5 0) cs)))
         (if @flt _ B (@L _ B 15 13) (@fabs _ B (@fadd _ B cs (@L _ B 1 0))) then @fadd _ B (@L _ B 1 0) cs else @L _ B 15 13))
      (@fdiv _ ROps (@fmul _ ROps (@fmul _ ROps (@fmul _ ROps (@fneg _ ROps (@L _ ROps 25 2)) (@kJ3OJ2 _ ROps)) sn') (@fadd _ ROps (@L _ ROps 3 0) (@fmul _ ROps (@L _ ROps 5 0) cs')))
         (if @flt _ ROps (@L _ ROps 15 13) (@fabs _ ROps (@fadd _ ROps cs' (@L _ ROps 1 0))) then @fadd _ ROps (@L _ ROps 1 0) cs' else @L _ ROps 15 13)) hxlB /\
  apx (@fsub _ B (@fmul _ B (@L _ B 3 0) (@fmul _ B cs cs)) (@L _ B 1 0)) (@fsub _ ROps (@fmul _ ROps (@L _ ROps 3 0) (@fmul _ ROps cs' cs')) (@L _ ROps 1 0)) h41B /\
  apx (@fsub _ B (@L _ B 1 0) (@fmul _ B cs cs)) (@fsub _ ROps (@L _ ROps 1 0) (@fmul _ ROps cs' cs')) h1mB /\
  apx (@fsub _ B (@fmul _ B (@L _ B 7 0) (@fmul _ B cs cs)) (@L _ B 1 0)) (@fsub _ ROps (@fmul _ ROps (@L _ ROps 7 0) (@fmul _ ROps cs' cs')) (@L _ ROps 1 0)) h7mB.
Proof.
  intros Hs Hc. aconst @kJ3OJ2. ivl Hc Ic.
  assert (G : @flt _ B (@L _ B 15 13) (@fabs _ B (@fadd _ B cs (@L _ B 1 0))) = true /\ @flt _ ROps (@L _ ROps 15 13) (@fabs _ ROps (@fadd _ ROps cs' (@L _ ROps 1 0))) = true).
  { eapply apx_lt_true; [arel|arel|vm_compute; reflexivity]. }
  rewrite (proj1 G), (proj2 G). clear G.
  split; [aflat|]. split; [aflat|].
  eassert (H2 : apx (@fmul _ B cs cs) (@fmul _ ROps cs' cs') _) by arel.
  assert (C2 : 0 <= @fmul _ ROps cs' cs' <= 1) by (rops; nra).
  set (c2 := @fmul _ B cs cs) in *. set (c2' := @fmul _ ROps cs' cs') in *. clearbody c2 c2'. ashrink H2 0%Q 1%Q.
  split; [aflat|]. split; aflat.
Qed.

Lemma hkin_acc (s : Satrec b64) (s' : Satrec R) m m' am am' : hmean_ok m m' -> apx am am' hamB -> apx (sr_aycof s) (sr_aycof s') hayB -> apx (sr_xlcof s) (sr_xlcof s') hxlB ->
  hkin_ok (@sgp4_kepler_in _ B s m am) (@sgp4_kepler_in _ ROps s' m' am').
Proof.
  intros (Hep & Hargpp & Hnodep & Hmp) Ham Hay Hxl. unfold sgp4_kepler_in, hkin_ok. cbv zeta. cbn [ki_axnl ki_aynl ki_u].
  set (ep := mn_ep m) in *. set (ep' := mn_ep m') in *. set (argpp := mn_argpp m) in *. set (argpp' := mn_argpp m') in *. set (nodep := mn_nodep m) in *. set (nodep' := mn_nodep m') in *. set (mp := mn_mp m) in *. set (mp' := mn_mp m') in *.
  set (ayc := sr_aycof s) in *. set (ayc' := sr_aycof s') in *. set (xlc := sr_xlcof s) in *. set (xlc' := sr_xlcof s') in *. clearbody ep ep' argpp argpp' nodep nodep' mp mp' ayc ayc' xlc xlc'.
  pose proof (relm_cos_apx lm ACC _ _ _ _ Hargpp eq_refl) as Hc. pose proof (relm_sin_apx lm ACC _ _ _ _ Hargpp eq_refl) as Hs.
  eassert (Ht : apx (@fdiv _ B (@L _ B 1 0) (@fmul _ B am (@fsub _ B (@L _ B 1 0) (@fmul _ B ep ep)))) (@fdiv _ ROps (@L _ ROps 1 0) (@fmul _ ROps am' (@fsub _ ROps (@L _ ROps 1 0) (@fmul _ ROps ep' ep')))) _) by arel.
  set (t := @fdiv _ B _ _) in *. set (t' := @fdiv _ ROps _ _) in *. clearbody t t'.
  split; [aflat|]. split; [aflat|]. eassert (Hx : apx (@fmul _ B (@fmul _ B t xlc) (@fmul _ B ep (@fcos _ B argpp))) (@fmul _ ROps (@fmul _ ROps t' xlc') (@fmul _ ROps ep' (@fcos _ ROps argpp'))) _) by arel.
  split; [mwide|].
  ivl Hep Iep. ivl Ht It. ivl Hay Iay. rops. pose proof (sin2_cos2 argpp') as SC. unfold Rsqr in SC. pose proof (SIN_bound argpp') as SB. set (sn := sin argpp') in *. set (cs := cos argpp') in *. clearbody sn cs.
  assert (TA : - (1505 / 1000000) <= t' * ayc' <= 1505 / 1000000) by nra. set (d := t' * ayc') in *. clearbody d.
  replace (ep' * cs * (ep' * cs) + (ep' * sn + d) * (ep' * sn + d)) with (ep' * ep' * (sn * sn + cs * cs) + 2 * (ep' * sn) * d + d * d) by ring. rewrite SC.
  assert (ES : - (76385 / 100000) <= ep' * sn <= 76385 / 100000) by nra. assert (ep' * ep' <= 76385 / 100000 * (76385 / 100000)) by nra. nra.
Qed.

Lemma hshortq_acc ax ay (ax' ay' : R) am am' k k' : apx ax ax' haxB -> apx ay ay' hayvB -> ax' * ax' + ay' * ay' <= 7654 / 10000 * (7654 / 10000) -> apx am am' hamB ->
  apx (ko_sineo1 k) (ko_sineo1 k') hkscB -> apx (ko_coseo1 k) (ko_coseo1 k') hkscB -> ko_coseo1 k' * ko_coseo1 k' + ko_sineo1 k' * ko_sineo1 k' = 1 ->
  let h := @sgp4_short _ B k ax ay am in let h' := @sgp4_short _ ROps k' ax' ay' am' in
  apx (sh_pl h) (sh_pl h') hplB /\ tshq_ok (@sgp4_shortq _ B h k ax ay am) (@sgp4_shortq _ ROps h' k' ax' ay' am').
Proof.
  intros Hax Hay EL Ham Hs Hc SC h h'.
  unfold h, h', sgp4_shortq, sgp4_short. cbv zeta. cbn [sh_ecose sh_esine sh_el2 sh_pl]. clear h h'.
  set (sn := ko_sineo1 k) in *. set (cs := ko_coseo1 k) in *. set (sn' := ko_sineo1 k') in *. set (cs' := ko_coseo1 k') in *. clearbody sn cs sn' cs'. clear k k'.
  set (e' := sqrt (ax' * ax' + ay' * ay')). assert (P' : 0 <= ax' * ax' + ay' * ay') by nra. pose proof (sqrt_pos (ax' * ax' + ay' * ay')) as E0'. pose proof (sqrt_sqrt _ P') as E2'. fold e' in E0', E2'.
  assert (E1' : e' <= 7654 / 10000) by nra.
  pose proof (dot_le ax' ay' e' ltac:(lra) (eq_sym E2') cs' sn' ltac:(lra)) as DC. pose proof (dot_le ax' ay' e' ltac:(lra) (eq_sym E2') sn' (- cs') ltac:(lra)) as DS.
  assert (BC : - (7654 / 10000) <= @fadd _ ROps (@fmul _ ROps ax' cs') (@fmul _ ROps ay' sn') <= 7654 / 10000) by (apply Rabs_le_inv in DC; rops; lra).
  assert (BS : - (7654 / 10000) <= @fsub _ ROps (@fmul _ ROps ax' sn') (@fmul _ ROps ay' cs') <= 7654 / 10000) by (apply Rabs_le_inv in DS; rops; lra).
  assert (BE : 0 <= @fadd _ ROps (@fmul _ ROps ax' ax') (@fmul _ ROps ay' ay') <= 58584 / 100000) by (rops; lra). clear DC DS.
  assert (HU := uk_unit ax' ay' cs' sn' (sqrt (1 - (ax' * ax' + ay' * ay'))) SC (sqrt_pos _) ltac:(rewrite sqrt_sqrt by lra; ring)). cbv zeta in HU.
  clear e' E0' E2' E1'.
  eassert (Hec : apx (@fadd _ B (@fmul _ B ax cs) (@fmul _ B ay sn)) (@fadd _ ROps (@fmul _ ROps ax' cs') (@fmul _ ROps ay' sn')) _) by arel.
  eassert (Hes : apx (@fsub _ B (@fmul _ B ax sn) (@fmul _ B ay cs)) (@fsub _ ROps (@fmul _ ROps ax' sn') (@fmul _ ROps ay' cs')) _) by arel.
  eassert (Hel : apx (@fadd _ B (@fmul _ B ax ax) (@fmul _ B ay ay)) (@fadd _ ROps (@fmul _ ROps ax' ax') (@fmul _ ROps ay' ay')) _) by arel.
  assert (RC : ax' * cs' + ay' * sn' = @fadd _ ROps (@fmul _ ROps ax' cs') (@fmul _ ROps ay' sn')) by reflexivity.
  assert (RS : ax' * sn' - ay' * cs' = @fsub _ ROps (@fmul _ ROps ax' sn') (@fmul _ ROps ay' cs')) by reflexivity.
  assert (RE : ax' * ax' + ay' * ay' = @fadd _ ROps (@fmul _ ROps ax' ax') (@fmul _ ROps ay' ay')) by reflexivity.
  rewrite RC, RS, RE in HU. clear RC RS RE P' EL.
  set (ec := @fadd _ B (@fmul _ B ax cs) _) in *. set (es := @fsub _ B (@fmul _ B ax sn) _) in *. set (el := @fadd _ B (@fmul _ B ax ax) _) in *.
  set (ec' := @fadd _ ROps (@fmul _ ROps ax' cs') _) in *. set (es' := @fsub _ ROps (@fmul _ ROps ax' sn') _) in *. set (el' := @fadd _ ROps (@fmul _ ROps ax' ax') _) in *.
  clearbody ec es el ec' es' el'. ashrink Hec (-7654 # 10000)%Q (7654 # 10000)%Q. ashrink Hes (-7654 # 10000)%Q (7654 # 10000)%Q. ashrink Hel 0%Q (58584 # 100000)%Q.
  eassert (Hpl : apx (@fmul _ B am (@fsub _ B (@L _ B 1 0) el)) (@fmul _ ROps am' (@fsub _ ROps (@L _ ROps 1 0) el')) _) by arel.
  split; [awide|]. set (pl := @fmul _ B am (@fsub _ B _ el)) in *. set (pl' := @fmul _ ROps am' (@fsub _ ROps _ el')) in *. clearbody pl pl'.
  eassert (Hrl : apx (@fmul _ B am (@fsub _ B (@L _ B 1 0) ec)) (@fmul _ ROps am' (@fsub _ ROps (@L _ ROps 1 0) ec')) _) by arel.
  assert (RL : @fmul _ ROps am' (@fsub _ ROps (@L _ ROps 1 0) ec') = am' * (1 - ec')) by (rops; reflexivity).
  set (rl := @fmul _ B am (@fsub _ B _ ec)) in *. set (rl' := @fmul _ ROps am' (@fsub _ ROps _ ec')) in *. clearbody rl rl'.
  eassert (Hq : apx (@fdiv _ B am rl) (@fdiv _ ROps am' rl') _) by arel. ivl Ham Iam.
  assert (BQ : 56 / 100 <= @fdiv _ ROps am' rl' <= 4263 / 1000).
  { rops. rewrite RL. assert (A : am' / (am' * (1 - ec')) = / (1 - ec')) by (field; lra). rewrite A.
    replace (56 / 100) with (/ (100 / 56)) by field. replace (4263 / 1000) with (/ (1000 / 4263)) by field. split; apply Rinv_le_contravar; lra. }
  ashrink Hq (56 # 100)%Q (4263 # 1000)%Q.
  eassert (Hbe : apx (@fsqrt _ B (@fsub _ B (@L _ B 1 0) el)) (@fsqrt _ ROps (@fsub _ ROps (@L _ ROps 1 0) el')) _) by arel.
  assert (RB : @fsqrt _ ROps (@fsub _ ROps (@L _ ROps 1 0) el') = sqrt (1 - el')) by (rops; reflexivity).
  set (be := @fsqrt _ B _) in *. set (be' := @fsqrt _ ROps (@fsub _ ROps _ el')) in *. rewrite <- RB in HU. clearbody be be'.
  eassert (Ht : apx (@fdiv _ B es (@fadd _ B (@L _ B 1 0) be)) (@fdiv _ ROps es' (@fadd _ ROps (@L _ ROps 1 0) be')) _) by arel.
  assert (RT : @fdiv _ ROps es' (@fadd _ ROps (@L _ ROps 1 0) be') = es' / (1 + be')) by (rops; reflexivity). rewrite <- RT in HU.
  set (t := @fdiv _ B es _) in *. set (t' := @fdiv _ ROps es' _) in *. clearbody t t'.
  eassert (Hsu : apx (@fmul _ B (@fdiv _ B am rl) (@fsub _ B (@fsub _ B sn ay) (@fmul _ B ax t))) (@fmul _ ROps (@fdiv _ ROps am' rl') (@fsub _ ROps (@fsub _ ROps sn' ay') (@fmul _ ROps ax' t'))) _) by arel.
  eassert (Hcu : apx (@fmul _ B (@fdiv _ B am rl) (@fadd _ B (@fsub _ B cs ax) (@fmul _ B ay t))) (@fmul _ ROps (@fdiv _ ROps am' rl') (@fadd _ ROps (@fsub _ ROps cs' ax') (@fmul _ ROps ay' t'))) _) by arel.
  assert (UN : @fmul _ ROps (@fdiv _ ROps am' rl') (@fsub _ ROps (@fsub _ ROps sn' ay') (@fmul _ ROps ax' t')) * @fmul _ ROps (@fdiv _ ROps am' rl') (@fsub _ ROps (@fsub _ ROps sn' ay') (@fmul _ ROps ax' t')) +
    @fmul _ ROps (@fdiv _ ROps am' rl') (@fadd _ ROps (@fsub _ ROps cs' ax') (@fmul _ ROps ay' t')) * @fmul _ ROps (@fdiv _ ROps am' rl') (@fadd _ ROps (@fsub _ ROps cs' ax') (@fmul _ ROps ay' t')) = 1).
  { rops. rewrite RL. set (X := sn' - ay' - ax' * t') in *. set (Y := cs' - ax' + ay' * t') in *. clearbody X Y.
    assert (A : am' / (am' * (1 - ec')) = / (1 - ec')) by (field; lra). rewrite A.
    replace (/ (1 - ec') * X * (/ (1 - ec') * X) + / (1 - ec') * Y * (/ (1 - ec') * Y)) with ((X ^ 2 + Y ^ 2) * (/ (1 - ec') * / (1 - ec'))) by ring. rewrite HU. field. lra. }
  set (su := @fmul _ B (@fdiv _ B am rl) (@fsub _ B _ _)) in *. set (cu := @fmul _ B (@fdiv _ B am rl) (@fadd _ B _ _)) in *.
  set (su' := @fmul _ ROps (@fdiv _ ROps am' rl') (@fsub _ ROps _ _)) in *. set (cu' := @fmul _ ROps (@fdiv _ ROps am' rl') (@fadd _ ROps _ _)) in *. clearbody su cu su' cu'.
  assert (Bsu : -1 <= su' <= 1) by nra. assert (Bcu : -1 <= cu' <= 1) by nra. ashrink Hsu (-1)%Q 1%Q. ashrink Hcu (-1)%Q 1%Q.
  unfold tshq_ok. cbn [q_rl q_rdotl q_rvdotl q_betal q_su q_sin2u q_cos2u q_temp1 q_temp2].
  assert (B3 : -1 <= @fmul _ ROps (@fadd _ ROps cu' cu') su' <= 1).
  { pose proof (Rle_0_sqr (cu' + su')) as W1. pose proof (Rle_0_sqr (cu' - su')) as W2. unfold Rsqr in W1, W2. rops. lra. }
  assert (B4 : -1 <= @fsub _ ROps (@L _ ROps 1 0) (@fmul _ ROps (@fmul _ ROps (@L _ ROps 2 0) su') su') <= 1).
  { pose proof (Rle_0_sqr su') as W1. pose proof (Rle_0_sqr cu') as W2. unfold Rsqr in W1, W2. rops. lra. }
  eassert (K3 : apx (@fmul _ B (@fadd _ B cu cu) su) (@fmul _ ROps (@fadd _ ROps cu' cu') su') _) by arel.
  eassert (K4 : apx (@fsub _ B (@L _ B 1 0) (@fmul _ B (@fmul _ B (@L _ B 2 0) su) su)) (@fsub _ ROps (@L _ ROps 1 0) (@fmul _ ROps (@fmul _ ROps (@L _ ROps 2 0) su') su')) _) by arel.
  ashrink K3 (-1)%Q 1%Q. ashrink K4 (-1)%Q 1%Q.
  split; [awide|]. split; [aflat|]. split; [awide|]. split; [awide|]. split.
  { eapply relm_weaken; [apply (relm_atan2 lm ACC _ _ _ _ _ _ Hsu Hcu UN)|vm_compute; reflexivity..].
    rewrite <- Q2R_plus. apply Rle_trans with (Q2R (1 # 1000)); [apply qle_true; vm_compute; reflexivity|qr]. }
  split; [aflat|]. split; [aflat|]. split; awide.
Qed.

Lemma apx_shift x a a' A d : apx x a A -> Rabs (a' - a) <= Q2R d -> apx x a' (shiftB A d).
Proof.
  intros H D. pose proof (apx_rel _ _ _ H) as R. pose proof (er_pos _ _ _ R) as P. destruct R as (F & I & E). cbn [lo hi er] in *. pose proof (Rabs_pos (a' - a)) as PD.
  split; [exact F|]. unfold shiftB. cbn [el eh rr ab]. assert (U : Q2R (eer A) + Q2R d <= Q2R (upq (eer A + d))) by (rewrite <- Q2R_plus; apply upq_ge).
  split; [rewrite Q2R_minus, Q2R_plus; apply Rabs_le_inv in D; lra|]. rewrite Q2R_0. split; [lra|].
  replace (B2R x - a') with ((B2R x - a) + (a - a')) by ring. eapply Rle_trans; [apply Rabs_triang|]. rewrite (Rabs_minus_sym a). lra.
Qed.
Lemma relm_shift x a a' A C d : relm x a A -> (exists k : Z, Rabs (a' - a - 2 * PI * IZR k) <= Q2R d) -> Qle_bool (lo C + d) (lo A) = true -> Qle_bool (hi A) (hi C - d) = true -> Qle_bool (er A + d) (er C) = true -> relm x a' C.
Proof.
  intros (j & F & I & E) (k & D) H1 H2 H3. apply qle_true in H1, H2, H3. rewrite Q2R_plus in H1, H3. rewrite Q2R_minus in H2.
  exists (j - k)%Z. rewrite minus_IZR. split; [exact F|]. replace (a' + 2 * PI * (IZR j - IZR k)) with ((a + 2 * PI * IZR j) + (a' - a - 2 * PI * IZR k)) by ring. set (w := a' - a - 2 * PI * IZR k) in *. set (v := a + 2 * PI * IZR j) in *. clearbody v w.
  apply Rabs_le_inv in D. apply Rabs_le_inv in E. split; [lra|apply Rabs_le; lra].
Qed.
Lemma hshort_acc ax ay u (ax' ay' u' : R) am am' : apx ax ax' haxB -> apx ay ay' hayvB -> relm u u' huB -> ax' * ax' + ay' * ay' <= 7654 / 10000 * (7654 / 10000) -> apx am am' hamB ->
  let k := @sgp4_kepler _ B ax ay u in let k' := @sgp4_kepler _ ROps ax' ay' u' in
  let h := @sgp4_short _ B k ax ay am in let h' := @sgp4_short _ ROps k' ax' ay' am' in
  apx (sh_pl h) (sh_pl h') hplB /\ hshq_ok (@sgp4_shortq _ B h k ax ay am) (@sgp4_shortq _ ROps h' k' ax' ay' am').
Proof.
  intros Hax Hay Hu EL Ham k k' h h'.
  assert (Q : Q2R (eer haxB) <= 1 / 10000 /\ Q2R (eer hayvB) <= 1 / 10000 /\ Q2R (lo huB) >= - (69 / 10) /\ Q2R (hi huB) <= 69 / 10 /\ Q2R (er huB) <= 1 / 100).
  { assert (W : forall q, Qle_bool q (1 # 10000) = true -> Q2R q <= 1 / 10000) by (intros q W; apply qle_true in W; replace (1 / 10000) with (Q2R (1 # 10000)) by qr; exact W).
    split; [apply W; vm_compute; reflexivity|]. split; [apply W; vm_compute; reflexivity|]. cbn [huB twoB lo hi er]. split; [qr|]. split; [qr|].
    eapply Rle_trans; [apply W; vm_compute; reflexivity|lra]. }
  assert (EL0 : ax' * ax' + ay' * ay' <= 7695 / 10000 * (7695 / 10000)) by (eapply Rle_trans; [exact EL|lra]).
  destruct Q as (Q1 & Q2 & Q3 & Q4 & Q5).
  destruct (kepler_close_high lm ACC ax ay u ax' ay' u' haxB hayvB huB Hax Hay Hu EL0 Q1 Q2 Q3 Q4 Q5) as (E & E' & (j & FE & IE & DE) & (S1 & C1) & S1' & C1').
  fold k in S1, C1. fold k' in S1', C1'. clear Q1 Q2 Q3 Q4 Q5 EL0 Hu.
  assert (BK : Q2R (er (kephB haxB hayvB huB)) <= Q2R hdE) by (apply qle_true; vm_compute; reflexivity).
  assert (RE : relm E (B2R E) (Bd (-10) 10 0)).
  { exists 0%Z. rewrite Rmult_0_r, Rplus_0_r. split; [exact FE|]. cbn [lo hi er]. assert (W : Q2R hdE <= 1 / 10) by (unfold hdE, Q2R; cbn; lra). unfold kephB in IE. cbn [lo hi] in IE. unfold Q2R in IE at 1 2. cbn in IE. assert (Rabs (B2R E - (E' + 2 * PI * IZR j)) <= 1 / 10) by lra. apply Rabs_le_inv in H. split; [unfold Q2R; cbn; lra|]. rewrite Rminus_diag_eq, Rabs_R0, Q2R_0 by reflexivity. lra. }
  pose (k0 := @MkKeplerOut R (sin (B2R E)) (cos (B2R E)) 0).
  assert (Hs : apx (ko_sineo1 k) (ko_sineo1 k0) hkscB). { rewrite S1. eapply apx_weaken; [exact (relm_sin_apx lm ACC _ _ _ _ RE eq_refl)|vm_compute; reflexivity..]. }
  assert (Hc : apx (ko_coseo1 k) (ko_coseo1 k0) hkscB). { rewrite C1. eapply apx_weaken; [exact (relm_cos_apx lm ACC _ _ _ _ RE eq_refl)|vm_compute; reflexivity..]. }
  destruct (hshortq_acc ax ay ax' ay' am am' k k0 Hax Hay EL Ham Hs Hc (cs1 _)) as (HP & Hq).
  split; [exact HP|]. ivl Ham Iam.
  assert (D0 : Rabs (E' + 2 * PI * IZR j - B2R E) <= Q2R hdE) by (rewrite Rabs_minus_sym; lra). assert (D1 : Q2R hdE <= 1 / 1000) by (unfold hdE, Q2R; cbn; lra).
  destruct (short_lip ax' ay' am' k0 k' (B2R E) (E' + 2 * PI * IZR j) EL ltac:(lra) eq_refl eq_refl) as (T1 & T2 & T3 & T4 & T5 & T6 & T7 & T8 & T9).
  { rewrite S1'. symmetry. apply sin_turn. } { rewrite C1'. symmetry. apply cos_turn. } { lra. }
  fold (@sgp4_short _ ROps k' ax' ay' am') in T1. unfold shortR in T1, T2, T3, T4, T5, T6, T7, T8, T9. fold h' in T1, T2, T3, T4, T5, T6, T7, T8, T9. fold h in Hq.
  set (q := @sgp4_shortq _ B h k ax ay am) in *. set (q0 := @sgp4_shortq _ ROps (@sgp4_short _ ROps k0 ax' ay' am') k0 ax' ay' am') in *. set (q' := @sgp4_shortq _ ROps h' k' ax' ay' am') in *.
  set (t := Rabs (E' + 2 * PI * IZR j - B2R E)) in *. pose proof (Rabs_pos (E' + 2 * PI * IZR j - B2R E)) as PT. fold t in PT.
  destruct Hq as (G1 & G2 & G3 & G4 & G5 & G6 & G7 & G8 & G9). clearbody q q0 q' t. clear - T1 T2 T3 T4 T5 T6 T7 T8 T9 G1 G2 G3 G4 G5 G6 G7 G8 G9 D0 PT Iam.
  unfold hshq_ok. rewrite T4, T8, T9.
  split; [apply (apx_shift _ _ _ _ _ G1); rewrite Q2R_mult; replace (Q2R (55 # 10)) with (55 / 10) by (unfold Q2R; cbn; lra); eapply Rle_trans; [exact T1|]; nra|].
  split; [apply (apx_shift _ _ _ _ _ G2); rewrite Q2R_mult; replace (Q2R (312 # 100)) with (312 / 100) by (unfold Q2R; cbn; lra); lra|].
  split; [apply (apx_shift _ _ _ _ _ G3); rewrite Q2R_mult; replace (Q2R (1016 # 100)) with (1016 / 100) by (unfold Q2R; cbn; lra); lra|].
  split; [exact G4|]. split.
  { apply (relm_shift _ _ _ _ hsuB ((3925 # 1000) * hdE) G5); [|vm_compute; reflexivity..]. destruct T5 as (k & K). exists k. rewrite Q2R_mult. replace (Q2R (3925 # 1000)) with (3925 / 1000) by (unfold Q2R; cbn; lra). lra. }
  split; [apply (apx_shift _ _ _ _ _ G6); rewrite Q2R_mult; replace (Q2R 11) with 11 by (unfold Q2R; cbn; lra); lra|].
  split; [apply (apx_shift _ _ _ _ _ G7); rewrite Q2R_mult; replace (Q2R 11) with 11 by (unfold Q2R; cbn; lra); lra|].
  split; assumption.
Qed.

Ltac asum := eapply apx_weaken; [apply rel_flat; eapply rel_add; [apply apx_rel; arel|apply apx_rel; arel|ccomp]|vm_compute; reflexivity..].
Ltac asum2 H := eapply apx_weaken; [apply rel_flat; eapply rel_add; [eapply rel_mul; [exact (apx_rel _ _ _ H)|apply apx_rel; arel|ccomp]|apply apx_rel; arel|ccomp]|vm_compute; reflexivity..].
Lemma hosc_acc (s : Satrec b64) (s' : Satrec R) q q' nodep nodep' xincp xincp' nm nm' :
  hshq_ok q q' -> apx (sr_con41 s) (sr_con41 s') h41B -> apx (sr_x1mth2 s) (sr_x1mth2 s') h1mB -> apx (sr_x7thm1 s) (sr_x7thm1 s') h7mB ->
  relm nodep nodep' (twoB (55 # 10 ^ 14)) -> apx xincp xincp' hinB -> apx nm nm' hnmB ->
  hosc_ok (@sgp4_osc _ B s q nodep xincp (@fsin _ B xincp) (@fcos _ B xincp) nm) (@sgp4_osc _ ROps s' q' nodep' xincp' (@fsin _ ROps xincp') (@fcos _ ROps xincp') nm').
Proof.
  intros (Hrl & Hrd & Hrv & Hbe & Hsu & Hs2 & Hc2 & Ht1 & Ht2) H41 H1 H7 Hnd Hi Hnm. destruct (hsc_acc _ _ Hi) as (Hsi & Hci). unfold sgp4_osc, hosc_ok. cbv zeta. cbn [os_mrt os_su os_xnode os_xinc os_mvt os_rvdot].
  aconst @kXKE.
  split; [asum2 Hrl|]. split; [mwide|]. split; [mwide|]. split; [aflat|]. split; [aflat|asum].
Qed.

Lemma hposvel_acc o o' : hosc_ok o o' -> vec_ok (g4_position (@sgp4_posvel _ B o)) (g4_position (@sgp4_posvel _ ROps o')) hposB /\ vec_ok (g4_velocity (@sgp4_posvel _ B o)) (g4_velocity (@sgp4_posvel _ ROps o')) hvelB.
Proof.
  intros (Hmr & Hsu & Hxn & Hxi & Hmv & Hrv). unfold sgp4_posvel, vec_ok. cbv zeta. cbn [g4_position g4_velocity v_x v_y v_z].
  pose proof (relm_sin_apx lm ACC _ _ _ _ Hsu eq_refl) as S1. pose proof (relm_cos_apx lm ACC _ _ _ _ Hsu eq_refl) as C1.
  pose proof (relm_sin_apx lm ACC _ _ _ _ Hxn eq_refl) as S2. pose proof (relm_cos_apx lm ACC _ _ _ _ Hxn eq_refl) as C2.
  aconst @kXKE. aconst @kEARTH_RADIUS.
  split; (split; [aflat|]; split; aflat).
Qed.
End S.
