(** * C58: from the text of an element set to a binary64 state at a date *)
From Coq Require Import ZArith QArith List Bool String Reals Qreals Lra Lia Psatz.
From Flocq Require Import Core IEEE754.BinarySingleNaN.
From Verif.Model Require Import Float Str Satrec Constants Ext Vec3 Sgp4 Sgp4init Propagate Io.
From Verif.Inst Require Import RInst RTac B64 B64Facts B64Calc ApxCalc.
From Verif.Spec Require Import Calendar TextSpec NumText TleSpec Sgp4Spec Str3Api LibmAccuracy NearAccuracy.
From Verif.Spec Require Str3.
From Verif.Proofs Require Import StrFacts NumFacts TextFacts IoFacts DecodeFacts Sgp4Frame InitFrame InitElems ParseFacts CalcFun ApxFun AccTail AccEnd LibmExists.
From Verif.Props Require Import C07 C08 C24 C28.
From Verif.Props Require C54 C57.
From Verif.Proofs Require CalendarFacts.
Import ListNotations.
Local Open Scope R_scope.

Notation well_written := C54.well_written.
Notation tle_elements := C54.tle_elements.
Notation minutes_since_epoch := C54.minutes_since_epoch.

(** Sets within the ranges of the accuracy theorem, in the units of the text: revolutions per day, degrees,
    days of the year, B* in inverse earth radii. *)
Definition usual (t : tle) : Prop :=
  642 / 100 <= dec_value (t_motion t) <= 1672 / 100 /\ 0 <= dec_value (t_incl t) <= 171 /\
  0 <= dec_value (t_ecc t) <= 45 / 100 /\
  Rabs (dec_value (t_bstar t)) <= 999 / 1000000 /\
  0 <= dec_value (t_node t) <= 400 /\ 0 <= dec_value (t_argp t) <= 400 /\ 0 <= dec_value (t_anomaly t) <= 400 /\
  1 <= dec_value (t_day t) <= IZR (year_length (full_year (t_year t))) + 1 - 1 / 100000000 /\
  Rabs (dec_value (t_ndot t)) <= 1 /\ Rabs (dec_value (t_nddot t)) <= 1.

Lemma nearest_apx x d l h : nearest x d -> Q2R l <= dec_value d <= Q2R h -> apx x (dec_value d) (Eb l h uq tq).
Proof.
  intros (F & E) I. split; [exact F|]. split; [exact I|]. cbn [rr ab]. rewrite E. pose proof (rnd_rel (dec_value d)) as R.
  split; [split; [left; apply uq_pos|left; apply tq_pos]|lra].
Qed.
Lemma reads_man line lo hi d : reads line lo hi d -> (0 <= d_man d)%Z.
Proof.
  intros (x & y & _ & _ & N). inversion N as [sg neg p m k z e S P X E1 E2 E3]. subst.
  inversion P; subst; rewrite <- ?E3 in *; match goal with H : all_digits ?w |- _ => pose proof (value_bounds w H); lia end.
Qed.

Lemma carries_man l1 l2 t m1 m2 : carries l1 l2 t m1 m2 ->
  Forall (fun d => (0 <= d_man d)%Z) [t_day t; t_ndot t; t_nddot t; t_bstar t; t_incl t; t_node t; t_ecc t; t_argp t; t_anomaly t; t_motion t].
Proof.
  intros (_ & _ & C1 & C2 & C3 & C4 & C5 & C6 & C7 & C8 & C9 & C10).
  assert (PW : forall l a b c e m d, reads_power l a b c e m d -> (0 <= d_man d)%Z).
  { intros l a b c e m d H. apply power_parts in H. destruct H as (D & _ & ->). pose proof (value_bounds m D). lia. }
  repeat (apply Forall_cons; [first [eapply reads_man; eassumption|eapply PW; eassumption|idtac]|]); [|apply Forall_nil].
  destruct C7 as (x & y & _ & _ & _ & D & ->). pose proof (value_bounds y D). cbn [d_man]. lia.
Qed.

Lemma apx_plain x a A l h e : apx x a A -> Qle_bool 0 (el A) = true -> Qle_bool l (el A) = true -> Qle_bool (eh A) h = true ->
  Qle_bool (rr A * eh A + ab A)%Q e = true -> is_finite x = true /\ Q2R l <= a <= Q2R h /\ Rabs (B2R x - a) <= Q2R e.
Proof.
  intros (F & I & (R1 & R2) & E) H0 H1 H2 H3. apply qle_true in H0, H1, H2, H3. rewrite Q2R_plus, Q2R_mult in H3. rewrite Q2R_0 in H0.
  split; [exact F|]. split; [lra|]. rewrite (Rabs_pos_eq a) in E by lra. eapply Rle_trans; [exact E|]. eapply Rle_trans; [|exact H3]. apply Rplus_le_compat_r, Rmult_le_compat_l; lra.
Qed.

Section S.
Context (lm : libm) (ACC : accurate lm).
Notation B := (B64Ops lm).
Lemma deg_agree x d : nearest x d -> 0 <= dec_value d <= 400 -> agree (6 / 10 ^ 16) (/ 10 ^ 60) (@fmul _ B x (@kDEG_2_RAD _ B)) (dec_value d * PI / 180).
Proof.
  intros N I.
  assert (A : apx x (dec_value d) (Eb 0 400 uq tq)).
  { apply nearest_apx; [exact N|]. rewrite Q2R_0. replace (Q2R 400) with 400 by (unfold Q2R; cbn [Qnum Qden inject_Z]; lra). lra. }
  pose proof (rel_apx _ _ _ (rel_pi lm)) as HP.
  eassert (K : apx (@kDEG_2_RAD _ B) (@kDEG_2_RAD _ ROps) _) by (unfold kDEG_2_RAD; arel).
  assert (C : apx (@fmul _ B x (@kDEG_2_RAD _ B)) (@fmul _ ROps (dec_value d) (@kDEG_2_RAD _ ROps)) (Eb 0 7 (6 # 10 ^ 16) (1 # 10 ^ 60))) by awide.
  replace (@fmul _ ROps (dec_value d) (@kDEG_2_RAD _ ROps)) with (dec_value d * PI / 180) in C by (unfold kDEG_2_RAD, kPI; rops; field; lra).
  destruct C as (F & _ & _ & E). cbn [rr ab] in E. rewrite <- u6_Q, <- tiny_Q in E. split; assumption.
Qed.
Lemma motion_agree x d : nearest x d -> 642 / 100 <= dec_value d <= 1672 / 100 -> agree (6 / 10 ^ 16) 0 (@fdiv _ B x (@kXPDOTP _ B)) (dec_value d * (2 * PI) / 1440) /\
  28001 / 1000000 <= dec_value d * (2 * PI) / 1440 <= 7296 / 100000.
Proof.
  intros N I. pose proof (rel_apx _ _ _ (rel_pi lm)) as HP.
  assert (A : apx x (dec_value d) (Eb (642#100) (1672#100) uq tq)).
  { apply nearest_apx; [exact N|]. unfold Q2R. cbn [Qnum Qden]. lra. }
  assert (C : apx (@fdiv _ B x (@kXPDOTP _ B)) (@fdiv _ ROps (dec_value d) (@kXPDOTP _ ROps)) (Eb (28001 # 1000000) (7296 # 100000) (6 # 10 ^ 16) 0)) by (unfold kXPDOTP; awide).
  pose proof PI_RGT_0.
  replace (@fdiv _ ROps (dec_value d) (@kXPDOTP _ ROps)) with (dec_value d * (2 * PI) / 1440) in C by (unfold kXPDOTP, kPI; rops; field; lra).
  destruct C as (F & J & _ & E). cbn [rr ab el eh] in E, J. rewrite <- u6_Q, Q2R_0 in E. unfold Q2R in J. cbn [Qnum Qden] in J. split; [split; assumption|lra].
Qed.
Lemma nearest_agree x d : nearest x d -> agree (12 / 10 ^ 17) (/ 10 ^ 60) x (dec_value d).
Proof.
  intros (F & E). split; [exact F|]. rewrite E. pose proof (rnd_rel (dec_value d)) as R.
  assert (UQ : Q2R uq <= 12 / 10 ^ 17) by (rewrite u1_Q; apply qle_true; vm_compute; reflexivity).
  assert (TQ : Q2R tq <= / 10 ^ 60) by (rewrite tiny_Q; apply qle_true; vm_compute; reflexivity).
  pose proof (Rmult_le_compat_r _ _ _ (Rabs_pos (dec_value d)) UQ). lra.
Qed.
End S.

Lemma usual_range l1 l2 t m1 m2 : carries l1 l2 t m1 m2 -> usual t ->
  Forall in_range [t_day t; t_ndot t; t_nddot t; t_bstar t; t_incl t; t_node t; t_ecc t; t_argp t; t_anomaly t; t_motion t].
Proof.
  intros C (U1 & U2 & U3 & U4 & U5 & U6 & U7 & U8 & U9 & U10). apply carries_man in C.
  assert (K : bpow radix2 10 <= bpow radix2 1023) by (apply bpow_le; lia). replace (bpow radix2 10) with 1024 in K by (cbn; lra).
  assert (Y : (365 <= year_length (full_year (t_year t)) <= 366)%Z) by (unfold year_length; destruct (leap _); lia).
  assert (Y2 : IZR (year_length (full_year (t_year t))) <= 366) by (apply IZR_le; lia).
  repeat (apply Forall_cons_iff in C; destruct C as [? C]).
  repeat (apply Forall_cons; [split; [assumption|]|]); [..|apply Forall_nil]; try (apply Rabs_le; lra); lra.
Qed.
Lemma year_366 y : IZR (year_length y) <= 366.
Proof. unfold year_length. apply IZR_le. destruct (leap _); lia. Qed.

Section T.
Context (lm : libm) (ACC : accurate lm).
Notation B := (B64Ops lm).
Lemma uq_num : Q2R uq <= 12 / 10 ^ 17 /\ 0 <= Q2R tq <= 1 / 10 ^ 30.
Proof.
  replace (12 / 10 ^ 17) with (Q2R (12 # 100000000000000000)) by (unfold Q2R; cbn [Qnum Qden]; lra).
  replace (1 / 10 ^ 30) with (Q2R (1 # 1000000000000000000000000000000)) by (unfold Q2R; cbn [Qnum Qden]; lra).
  split; [apply qle_true; vm_compute; reflexivity|]. split; [left; apply tq_pos|]. apply qle_true. vm_compute. reflexivity.
Qed.
(** seven columns of digits: the eccentricity and its double are on the same side of 1e-4 *)
Lemma blen_length (x : str) : (List.length x <= blen x)%nat.
Proof. induction x as [|c r IH]; [apply Nat.le_refl|]. cbn [List.length blen]. assert (1 <= len_utf8 c)%nat by (unfold len_utf8; repeat destruct (_ <? _)%Z; lia). lia. Qed.
Lemma fraction_seven line lo d : reads_fraction line lo (lo + 7) d -> exists k : Z, dec_value d = IZR k / 10000000.
Proof.
  intros (x & y & (p & q & _ & E1 & E2) & (a & b & EX & _ & _) & _ & _ & ->).
  assert (LY : (List.length y <= 7)%nat) by (pose proof (blen_length x); assert (List.length x = (List.length a + (List.length y + List.length b))%nat) by (rewrite EX, !app_length; reflexivity); lia).
  exists (value y * 10 ^ Z.of_nat (7 - List.length y))%Z. unfold dec_value. cbn [d_neg d_man d_exp].
  rewrite mult_IZR, <- pow_IZR, powerRZ_neg', <- pow_powerRZ.
  assert (X : 10 ^ List.length y * 10 ^ (7 - List.length y) = 10000000) by (rewrite <- pow_add; replace (List.length y + (7 - List.length y))%nat with 7%nat by lia; lra).
  assert (Y : 0 < 10 ^ List.length y) by (apply pow_lt; lra). rewrite <- X. field. split; [apply pow_nonzero; lra|lra].
Qed.
Lemma fraction_side (x : b64) d line : reads_fraction line 26 33 d -> nearest x d -> 0 <= dec_value d ->
  (B2R x <= B2R (b64_lit 1 (-4)) <-> dec_value d <= 1 / 10000).
Proof.
  intros RF (_ & E) P. destruct (fraction_seven _ _ _ RF) as (k & K). rewrite E, lit_round4. split; intros H.
  - destruct (Rle_or_lt (dec_value d) (1 / 10000)) as [C|C]; [exact C|]. exfalso.
    assert (Z : (1001 <= k)%Z). { assert (1000 < k)%Z by (apply lt_IZR; rewrite K in C; lra). lia. }
    assert (G : 1001 / 10000000 <= dec_value d) by (rewrite K; apply IZR_le in Z; lra).
    pose proof (rnd_le _ _ G) as G2. pose proof (rnd_rel (1001 / 10000000)) as R1. pose proof (rnd_rel (1 / 10000)) as R2.
    pose proof uq_num as (UQ & TQ). pose proof uq_pos. rewrite (Rabs_pos_eq (1001 / 10000000)) in R1 by lra. rewrite (Rabs_pos_eq (1 / 10000)) in R2 by lra. apply Rabs_le_inv in R1, R2.
    assert (1001 / 10000000 * Q2R uq <= 1 * (12 / 10 ^ 17)) by (apply Rmult_le_compat; lra). assert (1 / 10000 * Q2R uq <= 1 * (12 / 10 ^ 17)) by (apply Rmult_le_compat; lra). lra.
  - exact (rnd_le _ _ H).
Qed.
(** the record decoded from the text: its elements, and its epoch *)
Lemma decoded64 l1 l2 t : well_written l1 l2 t -> usual t -> exists p : Satrec b64,
  @parse_satrec _ B l1 l2 = Done (Ok p) /\ (forall full, same_side full (@tle_options _ B p) (tle_elements t)) /\ rounded (@tle_options _ B p) (tle_elements t) /\ in_class (tle_elements t) /\
  sr_epochyr p = t_year t /\ nearest (sr_epochdays p) (t_day t).
Proof.
  intros (m1 & m2 & C & N1 & N2 & G) U.
  destruct (C28_nearest_doubles lm l1 l2 m1 m2 t C N1 N2 G (usual_range _ _ _ _ _ C U)) as (p & ndot & nddot & incl & node & argp & anomaly & motion & P & _ & _ & K1 & K2 & K3 & K4 & K5 & _ & V1 & V2 & V3 & V4 & _ & _ & W1 & W2 & W3 & W4 & W5).
  exists p. split; [exact P|]. split.
  { intros full _. destruct C as (_ & _ & _ & _ & _ & _ & _ & _ & RF & _). exact (fraction_side _ _ _ RF V4 (proj1 (proj1 (proj2 (proj2 U))))). }
  clear P C N1 N2 G. destruct U as (U1 & U2 & U3 & U4 & U5 & U6 & U7 & _).
  pose proof (deg_agree lm _ _ K1 ltac:(lra)) as D1. pose proof (deg_agree lm _ _ K2 U5) as D2.
  pose proof (deg_agree lm _ _ K3 U6) as D3. pose proof (deg_agree lm _ _ K4 U7) as D4.
  destruct (motion_agree lm _ _ K5 U1) as (M1 & M2).
  rewrite <- W1 in D1. rewrite <- W2 in D2. rewrite <- W3 in D3. rewrite <- W4 in D4. rewrite <- W5 in M1. clear W1 W2 W3 W4 W5 K1 K2 K3 K4 K5.
  pose proof (nearest_agree _ _ V3) as B1. pose proof (nearest_agree _ _ V4) as E1.
  assert (DG : forall d c, 0 <= d <= c -> 0 <= d * PI / 180 <= c * (1746 / 100000)).
  { intros d c H. pose proof CalcFun.pi_num. split; [unfold Rdiv; apply Rmult_le_pos; [apply Rmult_le_pos|]; lra|]. apply Rle_trans with (c * PI / 180); [unfold Rdiv; apply Rmult_le_compat_r; [lra|]; apply Rmult_le_compat_r; lra|]. unfold Rdiv. rewrite Rmult_assoc. apply Rmult_le_compat_l; lra. }
  pose proof (DG _ _ U2) as G1. pose proof (DG _ _ U5) as G2. pose proof (DG _ _ U6) as G3. pose proof (DG _ _ U7) as G4. clear DG.
  unfold rounded, in_class, tle_options, tle_elements. cbv zeta.
  cbn [in_xno in_xecco in_xinclo in_xmo in_xargpo in_xnodeo in_xbstar Str3.n0 Str3.e0 Str3.i0 Str3.M0 Str3.w0 Str3.node0 Str3.Bstar].
  split; [repeat (split; [assumption|]); assumption|]. apply Rabs_le_inv in U4.
  split; [|split; assumption]. split; [lra|]. split; [lra|]. split; [lra|]. repeat split; lra.
Qed.
End T.

(** Decode and initialise a well-written set, then ask for any date within a day of its epoch (three
    weeks, from a perigee of 400 km up), all in binary64 with any accurate library.  Up to 4e-6 minutes (a Julian date is one number), the answer is the
    published theory's for the elements written in the text: the same decision, with the margins of
    [near_outcome64], and a state within 12 cm and 0.2 mm/s.  The set itself is refused exactly when the state
    at the epoch is. *)
Theorem C58_text_to_binary64_state :
  forall (lm : libm), accurate lm ->
  forall (full : bool) (fuel fuel' : nat) (l1 l2 : str) (t : tle),
    well_written l1 l2 t -> usual t -> perigee_class full (tle_elements t) ->
    exists r0 : result (SGP4Result b64) SGP4Error,
      near_outcome64 full (tle_elements t) 0 r0 /\
      (forall e, r0 = Err e -> twoline2satrec (FO := B64Ops lm) fuel l1 l2 = Done (Err (Sgp4InitError e))) /\
      (forall v, r0 = Ok v -> exists s : Satrec b64, twoline2satrec (FO := B64Ops lm) fuel l1 l2 = Done (Ok s) /\
         forall (d : DateTime) (m : R), civil d -> in_span d -> minutes_since_epoch t d m -> Rabs m <= span (tle_elements t) - 1 ->
           exists tm res, Rabs (tm - m) <= 4 / 1000000 /\
             propogate_datetime (FO := B64Ops lm) fuel' s d = Done res /\ near_outcome64 full (tle_elements t) tm res).
Proof.
  intros lm ACC full fuel fuel' l1 l2 t W U P.
  destruct (decoded64 lm l1 l2 t W U) as (p & PA & SD & RD & CL & Y1 & Y2).
  set (o := @tle_options _ (B64Ops lm) p) in *.
  assert (OUT : forall n (tt : b64), inside tt (- span (tle_elements t)) (span (tle_elements t)) -> forall s r s' res, @sgp4init _ (B64Ops lm) fuel p o = Done (s, r) -> @sgp4 _ (B64Ops lm) n s tt = Done (s', res) ->
     near_outcome64 full (tle_elements t) (B2R tt) res).
  { intros n tt It s r s' res H K. exact (C57.C57_rounded_elements lm ACC full fuel p s o r nil s n tt s' res _ H eq_refl K CL RD P (SD full) It). }
  destruct (C57.class_returns lm ACC full fuel p o _ CL RD P (SD full)) as (s & r & H & K).
  assert (T : twoline2satrec (FO := B64Ops lm) fuel l1 l2 = Done (match r with Ok _ => Ok s | Err e => Err (Sgp4InitError e) end)).
  { unfold twoline2satrec. rewrite PA. cbn [bindR]. fold o. rewrite H. now destruct r. }
  exists r. split; [|split].
  - pose proof (sgp4init_replay _ _ _ _ _ H) as RP.
    destruct (K nil fuel (@L _ (B64Ops lm) 0 0)) as (s1 & s' & res & K1 & K2). cbn [after_calls] in K1. injection K1 as <-.
    rewrite K2 in RP. cbn [outcome_snd] in RP. injection RP as <-.
    assert (Z : is_finite (@L _ (B64Ops lm) 0 0) = true /\ B2R (@L _ (B64Ops lm) 0 0) = 0) by (split; reflexivity).
    destruct Z as [Z1 Z2]. rewrite <- Z2. eapply OUT; [|exact H|exact K2]. pose proof (span_at_least (tle_elements t)). split; [exact Z1|rewrite Z2; lra].
  - intros e ->. exact T.
  - intros v ->. exists s. split; [exact T|]. intros d m Cd Sd (days & HD & EM) Hm.
    destruct (C07_ready _ _ _ _ _ _ T) as (p' & v' & PA' & _ & _ & _ & _ & _ & _ & Q1 & Q2 & _). rewrite PA in PA'. injection PA' as <-.
    destruct Y2 as (Y2 & Y3). destruct U as (_ & _ & _ & _ & _ & _ & _ & U8 & _). pose proof (year_366 (full_year (t_year t))) as Y4.
    assert (DD : Rabs (B2R (sr_epochdays p) - dec_value (t_day t)) <= 1 / 10 ^ 13).
    { rewrite Y3. pose proof (rnd_rel (dec_value (t_day t))) as RR. pose proof uq_num as (UQ & TQ). pose proof uq_pos. rewrite (Rabs_pos_eq (dec_value _)) in RR by lra.
      assert (dec_value (t_day t) * Q2R uq <= 367 * (12 / 10 ^ 17)) by (apply Rmult_le_compat; lra). lra. }
    assert (D1 : 1 <= B2R (sr_epochdays p)). { rewrite Y3. rewrite <- (rnd_id 1) by (apply (fmt_int 1); cbn; lia). apply rnd_le. lra. }
    apply Rabs_le_inv in DD.
    destruct (C08_tle_elapsed_binary64 lm fuel fuel' l1 l2 s d days T) as (tt & F & E & PR).
    { now rewrite Q2. }
    { rewrite Q1, Q2, Y1. split; [exact D1|lra]. }
    { exact Cd. } { exact Sd. }
    { rewrite Q1, Y1. exact HD. }
    rewrite Q2 in E. destruct (K nil fuel' tt) as (s1 & s' & res & K1 & K2). cbn [after_calls] in K1. injection K1 as <-.
    assert (TM : Rabs (B2R tt - m) <= 4 / 1000000).
    { apply Rabs_le_inv in E. rewrite EM. apply Rabs_le. assert (/ 2 ^ 18 <= 382 / 100000000) by (cbn; lra). lra. }
    exists (B2R tt), res. split; [exact TM|]. split; [rewrite PR, K2; reflexivity|]. eapply OUT; [|exact H|exact K2].
    split; [exact F|]. apply Rabs_le_inv in TM, Hm. lra.
Qed.
Print Assumptions C58_text_to_binary64_state.

(** Non-vacuity: the ISS set of C28 and a lower one, and a date three and a half hours after its epoch. *)
Ltac decv := match goal with |- dec_value ?y = _ => let v := eval compute in y in change y with v end;
  unfold dec_value; cbn [d_neg d_man d_exp]; unfold powerRZ; unfold Pos.to_nat; cbn [Pos.iter_op Nat.add]; simpl; lra.
Lemma inv_nonneg x : 0 <= x -> 0 <= / x.
Proof. intros [H|<-]; [left; now apply Rinv_0_lt_compat|rewrite Rinv_0; lra]. Qed.
Lemma kozai_nonneg el x : 0 <= Str3.i0 el <= 91 / 100 -> 0 <= Str3.kozai el x.
Proof.
  intros I. assert (C : 58 / 100 <= cos (Str3.i0 el)).
  { replace (Str3.i0 el) with (2 * (Str3.i0 el / 2)) by lra. rewrite cos_2a_sin. set (h := Str3.i0 el / 2). assert (H : 0 <= h <= 455 / 1000) by (unfold h; lra). clearbody h.
    assert (S : 0 <= sin h <= h). { split; [apply sin_ge_0; pose proof CalcFun.pi_num; lra|]. destruct (Req_dec h 0) as [-> |N]; [rewrite sin_0; lra|]. left. apply sin_lt_x. lra. }
    nra. }
  unfold Str3.kozai, Str3.theta, Str3.beta0, Rdiv. set (c := cos (Str3.i0 el)) in *. clearbody c.
  assert (P : 0 <= sqrt (1 - Str3.e0 el ^ 2)) by apply sqrt_pos.
  apply Rmult_le_pos; [apply Rmult_le_pos; [apply Rmult_le_pos|nra]|apply inv_nonneg, pow_le, P].
  - unfold Str3.k2, Str3.J2. lra.
  - apply inv_nonneg. nra.
Qed.
Lemma iss_high : 400 <= Str3.perigee_height (tle_elements iss).
Proof.
  assert (M : dec_value (t_motion iss) = 1554171530 / 100000000) by decv.
  assert (E : dec_value (t_ecc iss) = 3381 / 10000000) by decv. assert (I : dec_value (t_incl iss) = 516416 / 10000) by decv. pose proof CalcFun.pi_num as PN.
  set (el := tle_elements iss). assert (EE : Str3.e0 el = 3381 / 10000000) by exact E.
  assert (NN : 0 < Str3.n0 el <= 67815 / 1000000). { change (Str3.n0 el) with (dec_value (t_motion iss) * (2 * PI) / 1440). rewrite M. lra. }
  assert (II : 0 <= Str3.i0 el <= 91 / 100). { change (Str3.i0 el) with (dec_value (t_incl iss) * PI / 180). rewrite I. lra. }
  assert (D : 0 <= Str3.d0 el) by (apply kozai_nonneg; exact II).
  assert (A : 106315 / 100000 <= Str3.a el).
  { unfold Str3.a, Str3.two_thirds. apply Rle_trans with (Rpower ((1031095 / 1000000) ^ 3) (2 / 3)).
    - rewrite <- Rpower_pow by lra. rewrite Rpower_mult. replace (INR 3 * (2 / 3)) with (INR 2) by (simpl; field). rewrite Rpower_pow by lra. lra.
    - apply Rle_Rpower_l; [lra|]. split; [lra|]. unfold Str3.n.
      replace (Str3.ke / (Str3.n0 el / (1 + Str3.d0 el))) with (Str3.ke * (1 + Str3.d0 el) / Str3.n0 el) by (field; lra).
      apply Rmult_le_reg_r with (Str3.n0 el); [lra|]. unfold Rdiv at 2. rewrite Rmult_assoc, Rinv_l by lra. unfold Str3.ke. nra. }
  unfold Str3.perigee_height, Str3.aE. rewrite EE. lra.
Qed.
Definition noon : DateTime := MkDateTime 2018 6 19 12 0 0 0.
Definition july : DateTime := MkDateTime 2018 7 9 12 0 0 0.
(** the same set, lower: 16.33 revolutions a day, eccentricity 1e-4, perigee between 157 and 219 km *)
Definition low2 := of_string "2 25544  51.6416 299.2512 0001000 269.5310 185.0126 16.33000000118811".
Definition low : tle :=
  Tle (of_string "25544") 18 (Dec false 17035562296 (-8)) (Dec false 16717 (-8)) (Dec false 0 (-5)) (Dec false 10270 (-8))
      (Dec false 516416 (-4)) (Dec false 2992512 (-4)) (Dec false 1000 (-7)) (Dec false 2695310 (-4)) (Dec false 1850126 (-4)) (Dec false 1633000000 (-8)).
Lemma low_written : well_written C25.iss1 low2 low.
Proof.
  destruct C28_example as ((C1 & C2 & C3 & C4 & C5 & C6 & _) & N1 & N2 & G).
  exists (of_string "00000"), (of_string "10270"). split; [|auto]. do 6 (split; [assumption|]).
  split; [eapply reads_of; reflexivity|]. split; [eapply reads_of; reflexivity|].
  split. { exists (of_string "0001000"), (of_string "0001000"). split; [apply columns_of; reflexivity|]. split; [exists [], []; repeat split|].
    split; [discriminate|]. split; [now apply NumFacts.all_digits_iff|reflexivity]. }
  split; [eapply reads_of; reflexivity|]. split; [eapply reads_of; reflexivity|]. eapply reads_of; reflexivity.
Qed.
Lemma low_low : perigee_class false (tle_elements low).
Proof.
  assert (M : dec_value (t_motion low) = 1633 / 100) by decv. assert (E : dec_value (t_ecc low) = 1 / 10000) by decv. pose proof CalcFun.pi_num.
  apply C57.low_perigee_ok; [change (Str3.n0 (tle_elements low)) with (dec_value (t_motion low) * (2 * PI) / 1440); rewrite M; lra|].
  change (Str3.e0 (tle_elements low)) with (dec_value (t_ecc low)). lra.
Qed.
Lemma sets_usual t : (t = iss \/ t = low) -> usual t.
Proof.
  intros H.
  assert (M : 15 <= dec_value (t_motion t) <= 1633 / 100) by (destruct H as [-> | ->]; [replace (dec_value (t_motion iss)) with (1554171530 / 100000000) by (symmetry; decv)|replace (dec_value (t_motion low)) with (1633 / 100) by (symmetry; decv)]; lra).
  assert (E : 1 / 10000 <= dec_value (t_ecc t) <= 1 / 1000) by (destruct H as [-> | ->]; [replace (dec_value (t_ecc iss)) with (3381 / 10000000) by (symmetry; decv)|replace (dec_value (t_ecc low)) with (1 / 10000) by (symmetry; decv)]; lra).
  assert (I : dec_value (t_incl t) = 516416 / 10000) by (destruct H as [-> | ->]; decv). assert (B : dec_value (t_bstar t) = 10270 / 100000000) by (destruct H as [-> | ->]; decv).
  assert (N : dec_value (t_node t) = 2992512 / 10000) by (destruct H as [-> | ->]; decv). assert (W : dec_value (t_argp t) = 2695310 / 10000) by (destruct H as [-> | ->]; decv). assert (A : dec_value (t_anomaly t) = 1850126 / 10000) by (destruct H as [-> | ->]; decv).
  assert (D : dec_value (t_day t) = 17035562296 / 100000000) by (destruct H as [-> | ->]; decv). assert (D1 : dec_value (t_ndot t) = 16717 / 100000000) by (destruct H as [-> | ->]; decv). assert (D2 : dec_value (t_nddot t) = 0) by (destruct H as [-> | ->]; decv).
  assert (Y : year_length (full_year (t_year t)) = 365%Z) by (destruct H as [-> | ->]; reflexivity).
  unfold usual. rewrite I, B, N, W, A, D, D1, D2, Y. rewrite !Rabs_pos_eq by lra. repeat split; try lra.
Qed.
Example C58_example :
  accurate exact_lm /\ (forall full : bool, let t := if full then iss else low in
    well_written C25.iss1 (if full then C25.iss2 else low2) t /\ usual t /\ perigee_class full (tle_elements t)) /\
  civil noon /\ in_span noon /\ (exists m, minutes_since_epoch iss noon m /\ 207 <= m <= 208) /\
  span (tle_elements iss) = 30240 /\ civil july /\ in_span july /\ exists m, minutes_since_epoch iss july m /\ 29007 <= m <= 29008.
Proof.
  split; [exact LibmExists.exact_lm_accurate|]. split.
  { intros [|]; cbv zeta; [split; [apply C54.C54_near_example|]; split; [apply sets_usual; now left|pose proof iss_high; unfold perigee_class; lra]|split; [exact low_written|]; split; [apply sets_usual; now right|exact low_low]]. }
  split; [unfold civil, valid, dt_date, noon; cbn; lia|]. split; [unfold in_span, before, dt_date, noon; cbn; lia|].
  assert (DY : dec_value (t_day iss) = 17035562296 / 100000000) by decv.
  split. { eexists. split.
    - exists 169%Z. split; [|reflexivity]. apply CalendarFacts.days_from_iff; [unfold valid; cbn; lia|unfold valid; cbn; lia|reflexivity].
    - rewrite DY. change (tod noon) with 43200%Z. lra. }
  split. { unfold span. destruct (Rle_dec _ _) as [C|C]; [reflexivity|]. exfalso. exact (C iss_high). }
  split; [unfold civil, valid, dt_date, july; cbn; lia|]. split; [unfold in_span, before, dt_date, july; cbn; lia|].
  eexists. split.
  - exists 189%Z. split; [|reflexivity]. apply CalendarFacts.days_from_iff; [unfold valid; cbn; lia|unfold valid; cbn; lia|reflexivity].
  - rewrite DY. change (tod july) with 43200%Z. lra.
Qed.
