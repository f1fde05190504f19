(** * C55: binary64 sidereal time is accurate *)
From Coq Require Import ZArith QArith Reals Qreals Bool Lra Lia Psatz.
From Flocq Require Import Core IEEE754.BinarySingleNaN.
From Verif.Model Require Import Float Satrec Constants Gstime Initl Ext Propagate.
From Verif.Spec Require Import Calendar.
From Verif.Inst Require Import RInst RTac B64 B64Facts B64Calc PiBounds.
From Verif.Proofs Require Import CalcFun CalcPow.
From Verif.Golden Require Import Libm.
From Verif.Props Require Import C15 C22.
Local Open Scope R_scope.

(** the angle [g] and the number [y] differ by whole turns and at most [e] *)
Definition turns_close (y g e : R) : Prop := exists k : Z, Rabs (y - (g + 2 * PI * IZR k)) <= e.

Section Reduce.
Context (lm : libm).
Notation B := (B64Ops lm).
Lemma relm_shift x a k A : relm x (a + 2 * PI * IZR k) A -> relm x a A.
Proof. intros (j & H). exists (k + j)%Z. rewrite plus_IZR. replace (a + 2 * PI * (IZR k + IZR j)) with (a + 2 * PI * IZR k + 2 * PI * IZR j) by ring. exact H. Qed.
Lemma relm_rem_keep x a X C : relm x a X -> remb X = Some C -> relm (@frem _ B x (@kTWO_PI _ B)) a C.
Proof.
  intros H HC. pose proof (relm_rem lm x a X C H HC) as R. rewrite kTWO_PI_R in R. change (@frem _ ROps a (2 * PI)) with (Rrem a (2 * PI)) in R. unfold Rrem in R.
  apply (relm_shift _ _ (- Ztrunc (a / (2 * PI)))). rewrite opp_IZR.
  replace (a + 2 * PI * - IZR (Ztrunc (a / (2 * PI)))) with (a - 2 * PI * IZR (Ztrunc (a / (2 * PI)))) by ring. exact R.
Qed.
Lemma reduce_close x a X C D e : relm x a X -> remb X = Some C -> addb C twopib = Some D ->
  Qle_bool (er C) e = true -> Qle_bool (er D) e = true -> fin (@reduce _ B x) = true /\ turns_close (B2R (@reduce _ B x)) a (Q2R e).
Proof.
  intros H HC HD E1 E2. apply qle_true in E1, E2. unfold reduce. cbv zeta. pose proof (relm_rem_keep _ _ _ _ H HC) as R.
  destruct (@flt _ B _ _).
  - pose proof (relm_add lm _ _ _ _ _ _ _ R (rel_relm _ _ _ (rel_two_pi lm)) HD) as (k & F & _ & E). split; [exact F|].
    exists (k + 1)%Z. rewrite plus_IZR. rewrite kTWO_PI_R in E. cbn [fadd ROps] in E.
    replace (a + 2 * PI * (IZR k + 1)) with (a + 2 * PI + 2 * PI * IZR k) by ring. eapply Rle_trans; [exact E|exact E2].
  - destruct R as (k & F & _ & E). split; [exact F|]. exists k. eapply Rle_trans; [exact E|exact E1].
Qed.

(** ** The polynomial *)
Definition jdb : bd := Bd (2378495 # 1) (2524595 # 1) (1 # (2 ^ 31)).
Definition jdb0 : bd := Bd (2378495 # 1) (2524595 # 1) 0.
Lemma gst_raw_angle a : @gst_raw _ ROps a = gmst_angle a.
Proof.
  unfold gst_raw, gmst_angle, gmst_seconds, kDEG_2_RAD, kPI. rops. cbv zeta. unfold Q2R. cbn [Qnum Qden]. field.
Qed.
Ltac raw := cbv beta delta [gst_raw]; cstep; crel.
Lemma raw_rel jd a : rel jd a jdb -> exists X, rel (@gst_raw _ B jd) (@gst_raw _ ROps a) X /\ (exists C D, remb X = Some C /\ addb C twopib = Some D /\ Qle_bool (er C) (4 # 1000000000) = true /\ Qle_bool (er D) (4 # 1000000000) = true).
Proof.
  intros H. eexists. split; [raw|]. do 2 eexists. split; [ccomp|]. split; [ccomp|]. split; vm_compute; reflexivity.
Qed.
Lemma raw_rel0 jd a : rel jd a jdb0 -> exists X, rel (@gst_raw _ B jd) (@gst_raw _ ROps a) X /\ (exists C D, remb X = Some C /\ addb C twopib = Some D /\ Qle_bool (er C) (6 # 10000000000) = true /\ Qle_bool (er D) (6 # 10000000000) = true).
Proof.
  intros H. eexists. split; [raw|]. do 2 eexists. split; [ccomp|]. split; [ccomp|]. split; vm_compute; reflexivity.
Qed.
End Reduce.

(** gstime is within 6e-10 rad (a ten-thousandth of an arc second) of Greenwich mean sidereal time, up to
    whole turns, for every binary64 Julian date in the years 1800 to 2199, whatever the libm. *)
Theorem C55_gstime :
  forall (lm : libm) (jd : b64),
    is_finite jd = true -> 2378495 <= B2R jd <= 2524595 ->
    let g := gstime (FO := B64Ops lm) jd in
    is_finite g = true /\ turns_close (B2R g) (gmst_angle (B2R jd)) (6 / 10 ^ 10).
Proof.
  intros lm jd F H g. assert (R : rel jd (B2R jd) jdb0) by (apply rel_exact; [exact F|]; unfold Q2R; cbn; lra).
  destruct (raw_rel0 lm _ _ R) as (X & R1 & C & D & HC & HD & E1 & E2). unfold g. rewrite gstime_reduce, <- gst_raw_angle.
  replace (6 / 10 ^ 10) with (Q2R (6 # 10000000000)) by (unfold Q2R; cbn; lra).
  apply (reduce_close lm _ _ _ _ _ _ (rel_relm _ _ _ R1) HC HD E1 E2).
Qed.
Print Assumptions C55_gstime.

(** gstime_datetime is within 4e-9 rad of the sidereal time of the very instant the timestamp names. *)
Theorem C55_gstime_datetime :
  forall (lm : libm) (t : DateTime) (n : Z),
    valid (Date (dt_year t) (dt_month t) (dt_day t)) ->
    before (Date 1900 3 1) (Date (dt_year t) (dt_month t) (dt_day t)) -> before (Date (dt_year t) (dt_month t) (dt_day t)) (Date 2100 2 28) ->
    (0 <= dt_hour t <= 23)%Z -> (0 <= dt_minute t <= 59)%Z -> (0 <= dt_second t <= 60)%Z ->
    days_from (Date 2000 1 1) (Date (dt_year t) (dt_month t) (dt_day t)) n ->
    let jd := 2451544.5 + IZR n + (IZR (dt_hour t) + IZR (dt_minute t) / 60 + IZR (dt_second t) / 3600) / 24 in
    let g := gstime_datetime (FO := B64Ops lm) t in
    is_finite g = true /\ turns_close (B2R g) (gmst_angle jd) (4 / 10 ^ 9).
Proof.
  intros lm t n V B1 B2 Hh Hm Hs HN jd g.
  assert (Y : (1900 <= dt_year t <= 2100)%Z) by (unfold before in B1, B2; cbn in B1, B2; lia).
  destruct (C22_datetime_binary64 lm t n ltac:(lia) V Hh Hm Hs HN) as (J & F & E).
  assert (JD : jday_datetime (FO := ROps) t = jd).
  { unfold jday_datetime. change (@fofZ R ROps) with IZR. rewrite (C22_jday_exact _ _ _ n _ _ _ _ V B1 B2 HN). unfold jd. lra. }
  rewrite <- J, JD in E.
  assert (RN : (-36525 <= n <= 36890)%Z).
  { assert (V0 : valid (Date 2000 1 1)) by (unfold valid; cbn; lia). apply CalendarFacts.days_from_iff in HN; [|assumption..].
    pose proof (CalendarFacts.num_le (Date 1900 3 1) _ ltac:(unfold valid; cbn; lia) V B1).
    pose proof (CalendarFacts.num_le _ (Date 2100 2 28) V ltac:(unfold valid; cbn; lia) B2).
    change (CalendarFacts.num (Date 1900 3 1)) with 694051%Z in *. change (CalendarFacts.num (Date 2100 2 28)) with 767099%Z in *.
    change (CalendarFacts.num (Date 2000 1 1)) with 730516%Z in *. lia. }
  assert (R1 : IZR (-36525) <= IZR n <= IZR 36890) by (split; apply IZR_le; lia).
  assert (R2 : IZR 0 <= IZR (dt_hour t) <= IZR 23) by (split; apply IZR_le; lia).
  assert (R3 : IZR 0 <= IZR (dt_minute t) <= IZR 59) by (split; apply IZR_le; lia).
  assert (R4 : IZR 0 <= IZR (dt_second t) <= IZR 60) by (split; apply IZR_le; lia).
  assert (R : rel (jday_datetime (FO := B64Ops lm) t) jd jdb).
  { split; [exact F|]. unfold jdb. cbn [lo hi er]. split; [unfold jd, Q2R; cbn [Qnum Qden]; lra|]. eapply Rle_trans; [exact E|]. unfold Q2R. cbn. lra. }
  destruct (raw_rel lm _ _ R) as (X & R5 & C & D & HC & HD & E1 & E2). unfold g, gstime_datetime. rewrite gstime_reduce, <- gst_raw_angle.
  replace (4 / 10 ^ 9) with (Q2R (4 # 1000000000)) by (unfold Q2R; cbn; lra).
  apply (reduce_close lm _ _ _ _ _ _ (rel_relm _ _ _ R5) HC HD E1 E2).
Qed.
Print Assumptions C55_gstime_datetime.

(** ** Sidereal time at epoch *)
(** the AFSPC polynomial, t in days from 1970-01-01 0h *)
Definition afspc_angle (e : R) : R :=
  let t := e - 7305 in
  17321343856509374 / 10 ^ 16 + (172027916940703639 / 10 ^ 19 + 2 * PI) * t + t * t * (507551419432269442 / 10 ^ 32).
Lemma afspc_cubic t : Rabs t <= 47600 ->
  Rabs (afspc_angle (t + 7305) - (gmst_angle (t + 7305 + 2433281.5) + 2 * PI * 10988)) <= 1 / 10 ^ 9 + 2 / 10 ^ 11.
Proof.
  intros H. unfold afspc_angle, gmst_angle, gmst_seconds. cbv zeta.
  set (w := (t + 7305 + 2433281.5 - 2451545)).
  assert (W : w = t - 10958.5) by (unfold w; lra). rewrite W. clear w W.
  set (Q0 := - (67310.54841 / 43200 + 8640184.812866 / 43200 * (- 10958.5 / 36525) - 3652500000 * 0 + 0.093104 / 43200 * (10958.5 * 10958.5) / (36525 * 36525)
            + 0.0000062 / 43200 * (10958.5 * 10958.5 * 10958.5) / (36525 * 36525 * 36525)) + 2 * 10958.5 - 2 * 10988).
  set (Q1 := - (8640184.812866 / 43200 / 36525 - 0.093104 / 43200 * 2 * 10958.5 / (36525 * 36525) - 0.0000062 / 43200 * 3 * (10958.5 * 10958.5) / (36525 * 36525 * 36525))).
  set (Q2 := - (0.093104 / 43200 / (36525 * 36525) + 0.0000062 / 43200 * 3 * 10958.5 / (36525 * 36525 * 36525))).
  set (Q3 := 0.0000062 / 43200 / (36525 * 36525 * 36525)).
  assert (E : 17321343856509374 / 10 ^ 16 + (172027916940703639 / 10 ^ 19 + 2 * PI) * (t + 7305 - 7305) +
     (t + 7305 - 7305) * (t + 7305 - 7305) * (507551419432269442 / 10 ^ 32) -
     (2 * PI / 86400 * (67310.54841 + (876600 * 3600 + 8640184.812866) * ((t - 10958.5) / 36525) + 0.093104 * ((t - 10958.5) / 36525) ^ 2 - 0.0000062 * ((t - 10958.5) / 36525) ^ 3) + 2 * PI * 10988)
     = (17321343856509374 / 10 ^ 16 + PI * Q0) + (172027916940703639 / 10 ^ 19 + PI * Q1) * t + (507551419432269442 / 10 ^ 32 + PI * Q2) * (t * t) + PI * Q3 * (t * t * t)).
  { unfold Q0, Q1, Q2, Q3, Q2R. cbn [Qnum Qden]. field. }
  rewrite E. clear E.
  pose proof pi_num as P.
  assert (B0 : Rabs (17321343856509374 / 10 ^ 16 + PI * Q0) <= 1 / 10 ^ 13) by (apply Rabs_le; unfold Q0; lra).
  assert (B1 : Rabs (172027916940703639 / 10 ^ 19 + PI * Q1) <= 1 / 10 ^ 17) by (apply Rabs_le; unfold Q1; lra).
  assert (B2 : Rabs (507551419432269442 / 10 ^ 32 + PI * Q2) <= 1 / 10 ^ 22) by (apply Rabs_le; unfold Q2; lra).
  assert (B3 : Rabs (PI * Q3) <= 926 / 10 ^ 26) by (apply Rabs_le; unfold Q3; lra).
  clearbody Q0 Q1 Q2 Q3.
  assert (T2 : Rabs (t * t) <= 47600 * 47600) by (rewrite Rabs_mult; apply Rmult_le_compat; try apply Rabs_pos; exact H).
  assert (T3 : Rabs (t * t * t) <= 47600 * 47600 * 47600) by (rewrite (Rabs_mult (t * t)); apply Rmult_le_compat; try apply Rabs_pos; assumption).
  assert (M : forall u v x y, Rabs u <= x -> Rabs v <= y -> Rabs (u * v) <= x * y) by (intros; rewrite Rabs_mult; apply Rmult_le_compat; try apply Rabs_pos; assumption).
  pose proof (M _ _ _ _ B1 H) as M1. pose proof (M _ _ _ _ B2 T2) as M2. pose proof (M _ _ _ _ B3 T3) as M3.
  apply Rabs_le_inv in B0, M1, M2, M3. apply Rabs_le. lra.
Qed.

Section Afspc.
Context (lm : libm).
Notation B := (B64Ops lm).
Definition eb : bd := Bd (-18300 # 1) (54800 # 1) 0.
Lemma gsto_raw_rel e : rel e (B2R e) eb -> exists X, relm (@gsto_raw _ B e) (afspc_angle (B2R e)) X /\
  (exists C D, remb X = Some C /\ addb C twopib = Some D /\ Qle_bool (er C) (29 # 10000000000) = true /\ Qle_bool (er D) (29 # 10000000000) = true).
Proof.
  intros H. set (a := B2R e) in *.
  assert (T : rel (@fsub _ B e (@L _ B 7305 0)) (a - 7305) (Bd (-25606 # 1) (47496 # 1) (1 # (2 ^ 37)))).
  { change (a - 7305) with (@fsub _ ROps a (@L _ ROps 7305 0)). eapply rel_weaken; [crel|vm_compute; reflexivity..]. }
  set (t := @fsub _ B e (@L _ B 7305 0)) in *.
  assert (D0 : rel (@fadd _ B t (@L _ B 1 8)) (@fadd _ ROps (a - 7305) (@L _ ROps 1 8)) (Bd (-25607 # 1) (47497 # 1) (1 # (2 ^ 35)))).
  { eapply rel_weaken; [crel|vm_compute; reflexivity..]. }
  destruct (floor_fin lm (@fadd _ B t (@L _ B 1 8))) as [DV DF]. set (u := @fadd _ B t (@L _ B 1 8)) in *. set (d := @ffloor _ B u) in *.
  pose proof (Zfloor_lb (B2R u)) as L1. pose proof (Zfloor_ub (B2R u)) as L2. set (z := Zfloor (B2R u)) in *.
  pose proof (rel_bounds _ _ _ D0) as BU. destruct D0 as (UF & IU & UE). rewrite UF in DF. rewrite <- DV in L1, L2.
  assert (D : rel d (B2R d) (Bd (-25609 # 1) (47499 # 1) 0)).
  { apply rel_exact; [exact DF|]. cbn [lo hi er] in BU. unfold Q2R in *. cbn [Qnum Qden] in *. rewrite ?Pos2Z.inj_pow in *. lra. }
  assert (TD : rel (@fsub _ B t d) (a - 7305 - B2R d) (Bd (-1) 2 (4 # 100000000000))).
  { eapply rel_weaken; [apply (rel_shrink _ _ (Bd (-100000 # 1) (100000 # 1) (4 # 100000000000)) (-1) 2); [eapply rel_weaken; [exact (rel_sub lm _ _ _ _ _ _ _ T D ltac:(ccomp))|vm_compute; reflexivity..]|]|vm_compute; reflexivity..].
    apply Rabs_le_inv in UE. change (@fadd _ ROps (a - 7305) (@L _ ROps 1 8)) with (a - 7305 + 1 / 100000000) in *. cbn [lo hi er] in *.
    assert (EQ : Q2R (1 # 2 ^ 35) <= 1 / 1000000000) by (unfold Q2R; cbn; lra). rewrite Q2R_m1. replace (Q2R 2) with 2 by (unfold Q2R; cbn; lra). lra. }
  clear L1 L2.
  eexists. split.
  - unfold gsto_raw. cbv zeta. fold t. fold u. fold d.
    apply (relm_shift _ _ (- z)).
    replace (afspc_angle a + 2 * PI * IZR (- z)) with
      (@fadd _ ROps (@fadd _ ROps (@fadd _ ROps (@L _ ROps 17321343856509374 16) (@fmul _ ROps (@L _ ROps 172027916940703639 19) (B2R d)))
        (@fmul _ ROps (@fadd _ ROps (@L _ ROps 172027916940703639 19) (@kTWO_PI _ ROps)) (a - 7305 - B2R d)))
        (@fmul _ ROps (@fmul _ ROps (a - 7305) (a - 7305)) (@L _ ROps 507551419432269442 32))).
    2:{ rewrite kTWO_PI_R, DV, opp_IZR. unfold afspc_angle. rops. cbv zeta. field. }
    apply rel_relm. clearbody t d u. clear H UF IU UE BU DV z. crel.
  - do 2 eexists. split; [ccomp|]. split; [ccomp|]. split; vm_compute; reflexivity.
Qed.
End Afspc.

(** The sidereal time kept by initialisation, in every operation mode, is within 4e-9 rad of Greenwich mean
    sidereal time at the epoch, for epochs (days since 1949-12-31) in the years 1900 to 2099.  The AFSPC
    mode uses another polynomial, which agrees to 1.02e-9. *)
Theorem C55_gsto :
  forall (lm : libm) (m : DpperOpsMode) (e : b64),
    is_finite e = true -> -18300 <= B2R e <= 54800 ->
    let g := initl_gsto (FO := B64Ops lm) m e in
    is_finite g = true /\ turns_close (B2R g) (gmst_angle (B2R e + 2433281.5)) (4 / 10 ^ 9).
Proof.
  intros lm m e F H g.
  assert (R : rel e (B2R e) eb) by (apply rel_exact; [exact F|]; unfold Q2R; cbn; lra).
  destruct (opsmode_eqb m OpsA) eqn:EM.
  - destruct m; try discriminate EM. unfold g. rewrite gsto_A_reduce.
    destruct (gsto_raw_rel lm _ R) as (X & R1 & C & D & HC & HD & E1 & E2).
    destruct (reduce_close lm _ _ _ _ _ _ R1 HC HD E1 E2) as [G1 (k & G2)]. split; [exact G1|]. exists (k + 10988)%Z.
    pose proof (afspc_cubic (B2R e - 7305) ltac:(apply Rabs_le; lra)) as A. replace (B2R e - 7305 + 7305) with (B2R e) in A by ring.
    replace (Q2R (29 # 10000000000)) with (29 / 10 ^ 10) in G2 by (unfold Q2R; cbn; lra). rewrite plus_IZR.
    set (y := B2R _) in *. set (p := afspc_angle _) in *. set (q := gmst_angle _) in *. apply Rabs_le_inv in A, G2. apply Rabs_le. lra.
  - unfold g. rewrite gsto_I_reduce by (intros ->; discriminate).
    assert (J : rel (@fadd _ (B64Ops lm) e (@L _ (B64Ops lm) 24332815 1)) (@fadd _ ROps (B2R e) (@L _ ROps 24332815 1)) jdb) by (eapply rel_weaken; [crel|vm_compute; reflexivity..]).
    destruct (raw_rel lm _ _ J) as (X & R1 & C & D & HC & HD & E1 & E2).
    replace (4 / 10 ^ 9) with (Q2R (4 # 1000000000)) by (unfold Q2R; cbn; lra).
    replace (B2R e + 2433281.5) with (@fadd _ ROps (B2R e) (@L _ ROps 24332815 1)) by (rops; lra).
    rewrite <- gst_raw_angle. apply (reduce_close lm _ _ _ _ _ _ (rel_relm _ _ _ R1) HC HD E1 E2).
Qed.
Print Assumptions C55_gsto.

(** Non-vacuity: the Julian date 2460369.5 (2024-02-29 0h) is a binary64 number in the range; so is the
    epoch 25000.5; and the sidereal time of J2000.0 comes out as 4.894961 rad. *)
Example C55_example :
  (is_finite (lit 24603695 (-1)) = true /\ B2R (lit 24603695 (-1)) = 2460369.5) /\
  (is_finite (lit 250005 (-1)) = true /\ B2R (lit 250005 (-1)) = 25000.5) /\
  (valid (Date 2024 2 29) /\ before (Date 1900 3 1) (Date 2024 2 29) /\ before (Date 2024 2 29) (Date 2100 2 28)) /\
  (fle (lit 4894961 (-6)) (gstime (lit 2451545 0)), fle (gstime (lit 2451545 0)) (lit 4894962 (-6))) = (true, true).
Proof.
  split; [|split; [|split]].
  - split; [vm_compute; reflexivity|]. assert (E : B2SF (lit 24603695 (-1)) = SpecFloat.S754_finite false 5283603269287936 (-31)) by (vm_compute; reflexivity).
    rewrite <- SF2R_B2SF, E. unfold SF2R, F2R. cbn. lra.
  - split; [vm_compute; reflexivity|]. assert (E : B2SF (lit 250005 (-1)) = SpecFloat.S754_finite false 6872085112553472 (-38)) by (vm_compute; reflexivity).
    rewrite <- SF2R_B2SF, E. unfold SF2R, F2R. cbn. lra.
  - unfold valid, before. cbn. lia.
  - vm_compute. reflexivity.
Qed.
