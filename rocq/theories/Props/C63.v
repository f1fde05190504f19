(** * C63: from the text of a deep-space element set to a binary64 state at a date *)
From Coq Require Import ZArith QArith List Bool String Reals Qreals Lra Lia Psatz.
From Flocq Require Import Core IEEE754.BinarySingleNaN.
From Verif.Model Require Import Float Str Satrec Constants Ext Vec3 Sgp4 Sgp4init Propagate Io.
From Verif.Inst Require Import RInst RTac B64 B64Facts B64Approx B64Calc ApxCalc.
From Verif.Spec Require Import Calendar TextSpec NumText TleSpec Sgp4Spec Str3Api LibmAccuracy NearAccuracy DeepAccuracy.
From Verif.Spec Require Str3.
From Verif.Proofs Require Import StrFacts NumFacts TextFacts IoFacts DecodeFacts Sgp4Frame InitFrame InitElems ParseFacts CalcFun ApxFun AccTail AccEnd LibmExists.
From Verif.Props Require Import C07 C08 C24 C28 C58.
From Verif.Props Require C54 C62.
From Verif.Proofs Require CalendarFacts InitTotal.
Import ListNotations.
Local Open Scope R_scope.

(** Sets within the ranges of the deep-space accuracy theorem, in the units of the text: revolutions per day,
    degrees, days of the year, B* in inverse earth radii. *)
Definition deep_usual (t : tle) : Prop :=
  92 / 100 <= dec_value (t_motion t) <= 639 / 100 /\ 0 <= dec_value (t_incl t) <= 160 /\
  0 <= dec_value (t_ecc t) <= 4199 / 10000 /\ Rabs (dec_value (t_bstar t)) <= 999 / 1000000 /\
  0 <= dec_value (t_node t) <= 400 /\ 0 <= dec_value (t_argp t) <= 400 /\ 0 <= dec_value (t_anomaly t) <= 400 /\
  1 <= dec_value (t_day t) <= IZR (year_length (full_year (t_year t))) + 1 - 1 / 100000000 /\
  Rabs (dec_value (t_ndot t)) <= 1 /\ Rabs (dec_value (t_nddot t)) <= 1.

(** The epoch written in the text, in days after 1949 December 31, 0h (day 1.0 of a year is its 1 January, 0h) *)
Definition epoch_days (t : tle) (x : R) : Prop :=
  exists n, days_from (Date 1949 12 31) (Date (full_year (t_year t)) 1 1) n /\ x = IZR n + (dec_value (t_day t) - 1).

(** What is written in the text, exactly: its elements (C54) and the epoch [x] days *)
Definition text_options (t : tle) (x : R) : SGP4InitOptions R :=
  let el := tle_elements t in
  MkSGP4InitOptions OpsI nil x (Str3.Bstar el) (Str3.e0 el) (Str3.w0 el) (Str3.i0 el) (Str3.M0 el) (Str3.n0 el) (Str3.node0 el).
Lemma text_options_elements t x : elements (text_options t x) = tle_elements t.
Proof. reflexivity. Qed.

Lemma deep_usual_range l1 l2 t m1 m2 : carries l1 l2 t m1 m2 -> deep_usual t ->
  Forall in_range [t_day t; t_ndot t; t_nddot t; t_bstar t; t_incl t; t_node t; t_ecc t; t_argp t; t_anomaly t; t_motion t].
Proof.
  intros C (U1 & U2 & U3 & U4 & U5 & U6 & U7 & U8 & U9 & U10). apply carries_man in C.
  assert (K : bpow radix2 10 <= bpow radix2 1023) by (apply bpow_le; lia). replace (bpow radix2 10) with 1024 in K by (cbn; lra).
  pose proof (year_366 (full_year (t_year t))) as Y2.
  repeat (apply Forall_cons_iff in C; destruct C as [? C]).
  repeat (apply Forall_cons; [split; [assumption|]|]); [..|apply Forall_nil]; try (apply Rabs_le; lra); lra.
Qed.

Section S.
Context (lm : libm) (ACC : accurate lm).
Notation B := (B64Ops lm).
Lemma slow_agree x d : nearest x d -> 92 / 100 <= dec_value d <= 639 / 100 ->
  agree (6 / 10 ^ 16) 0 (@fdiv _ B x (@kXPDOTP _ B)) (dec_value d * (2 * PI) / 1440) /\ 4001 / 1000000 <= dec_value d * (2 * PI) / 1440 <= 27899 / 1000000.
Proof.
  intros N I. pose proof (rel_apx _ _ _ (rel_pi lm)) as HP.
  assert (A : apx x (dec_value d) (Eb (92#100) (639#100) uq tq)).
  { apply nearest_apx; [exact N|]. unfold Q2R. cbn [Qnum Qden]. lra. }
  assert (C : apx (@fdiv _ B x (@kXPDOTP _ B)) (@fdiv _ ROps (dec_value d) (@kXPDOTP _ ROps)) (Eb (4001 # 1000000) (27899 # 1000000) (6 # 10 ^ 16) 0)) by (unfold kXPDOTP; awide).
  pose proof PI_RGT_0.
  replace (@fdiv _ ROps (dec_value d) (@kXPDOTP _ ROps)) with (dec_value d * (2 * PI) / 1440) in C by (unfold kXPDOTP, kPI; rops; field; lra).
  destruct C as (F & J & _ & E). cbn [rr ab el eh] in E, J. rewrite <- u6_Q, Q2R_0 in E. unfold Q2R in J. cbn [Qnum Qden] in J. split; [split; assumption|lra].
Qed.

(** The day number decoded from the text *)
Lemma day_near x d Y : nearest x d -> 1 <= dec_value d <= IZR (year_length Y) + 1 - 1 / 100000000 ->
  is_finite x = true /\ Rabs (B2R x - dec_value d) <= 1 / 10 ^ 13 /\ 1 <= B2R x < IZR (year_length Y) + 1.
Proof.
  intros (F & E) H. pose proof (year_366 Y) as Y4. split; [exact F|].
  assert (DD : Rabs (B2R x - dec_value d) <= 1 / 10 ^ 13).
  { rewrite E. pose proof (rnd_rel (dec_value d)) as RR. pose proof uq_num as (UQ & TQ). pose proof uq_pos. rewrite (Rabs_pos_eq (dec_value _)) in RR by lra.
    assert (dec_value d * Q2R uq <= 367 * (12 / 10 ^ 17)) by (apply Rmult_le_compat; lra). lra. }
  split; [exact DD|]. split.
  - rewrite E. rewrite <- (rnd_id 1) by (apply (fmt_int 1); cbn; lia). apply rnd_le. lra.
  - apply Rabs_le_inv in DD. lra.
Qed.

(** The epoch handed to initialisation: the Julian date of the record less 2433281.5 *)
Lemma epoch_near l1 l2 (p : Satrec b64) t x : @parse_satrec _ B l1 l2 = Done (Ok p) -> sr_epochyr p = t_year t -> nearest (sr_epochdays p) (t_day t) ->
  1 <= dec_value (t_day t) <= IZR (year_length (full_year (t_year t))) + 1 - 1 / 100000000 -> epoch_days t x ->
  let e := in_epoch (@tle_options _ B p) in is_finite e = true /\ Rabs (B2R e - x) <= 1 / 10 ^ 9 /\ 2000 <= x <= 39500.
Proof.
  intros P Y N U (n & Hn & ->) e. rewrite <- Y in U, Hn.
  destruct (day_near _ _ _ N U) as (F & DD & DR). pose proof (C24_year b64 B l1 l2 p P) as [Yr _].
  pose (y := full_year (sr_epochyr p)). fold y in Hn.
  assert (V1 : valid (Date y 1 1)) by (unfold valid; cbn; lia).
  assert (V0 : valid (Date 2000 1 1)) by (unfold valid; cbn; lia).
  assert (VE : valid (Date 1949 12 31)) by (unfold valid; cbn; lia).
  apply CalendarFacts.days_from_iff in Hn; [|assumption..].
  assert (H2 : days_from (Date 2000 1 1) (Date y 1 1) (n - 18263)).
  { apply CalendarFacts.days_from_iff; [assumption..|]. change (CalendarFacts.num (Date 1949 12 31)) with 712253%Z in Hn. change (CalendarFacts.num (Date 2000 1 1)) with 730516%Z. lia. }
  unfold y in H2.
  destruct (C24_epoch_binary64 lm l1 l2 p (n - 18263) P H2 F DR) as (FJ & EJ).
  assert (RN : (2000 <= n <= 39100)%Z).
  { pose proof (CalendarFacts.num_le (Date 1957 1 1) (Date y 1 1) ltac:(unfold valid; cbn; lia) V1 ltac:(unfold y; unfold before; cbn; lia)).
    pose proof (CalendarFacts.num_le (Date y 1 1) (Date 2056 1 1) V1 ltac:(unfold valid; cbn; lia) ltac:(unfold y; unfold before; cbn; lia)).
    change (CalendarFacts.num (Date 1949 12 31)) with 712253%Z in Hn. change (CalendarFacts.num (Date 1957 1 1)) with 714811%Z in *. change (CalendarFacts.num (Date 2056 1 1)) with 750970%Z in *. lia. }
  assert (RN2 : 2000 <= IZR n <= 39100) by (split; apply IZR_le; lia).
  pose proof (year_366 (full_year (sr_epochyr p))) as Y4.
  rewrite minus_IZR in EJ. replace (/ 2 ^ 30) with (/ 1073741824) in EJ by (f_equal; simpl; lra).
  assert (LL : is (@L _ B 24332815 1) (24332815 / 10)).
  { apply (is_dec lm 24332815 1).
    - change (IZR (10 ^ 1)) with 10. apply Rle_trans with (bpow radix2 30); [cbn; lra|apply bpow_le; lia].
    - change (IZR (10 ^ 1)) with 10. replace (24332815 / 10) with (IZR 4866563 * bpow radix2 (-1)) by (cbn; lra).
      apply generic_format_FLT. exists (Defs.Float radix2 4866563 (-1)); [reflexivity|cbn; lia|cbn; lia]. }
  destruct LL as (FL & EL). unfold e, tle_options. cbn [in_epoch].
  set (j := sr_jdsatepoch p) in *. set (d := sr_epochdays p) in *. set (k := @L _ B 24332815 1) in *. set (w := dec_value (t_day t)) in *. clearbody j d k w.
  apply Rabs_le_inv in EJ, DD.
  assert (S1 : Rabs (B2R j - B2R k) <= 40000) by (rewrite EL; apply Rabs_le; lra).
  destruct (sub_fin lm j k FJ FL) as (ES & FS).
  { apply Rle_trans with (bpow radix2 16); [cbn; lra|apply bpow_le; lia]. }
  split; [exact FS|]. split; [|lra]. rewrite ES. pose proof (rnd_rel (B2R j - B2R k)) as RR. pose proof uq_num as (UQ & TQ). pose proof uq_pos.
  assert (RX : Rabs (B2R j - B2R k) * Q2R uq <= 40000 * (12 / 10 ^ 17)) by (apply Rmult_le_compat; [apply Rabs_pos|lra|exact S1|exact UQ]).
  assert (R2 : Rabs (rnd (B2R j - B2R k) - (B2R j - B2R k)) <= 5 / 10 ^ 12) by lra. clear RR RX. apply Rabs_le_inv in R2. rewrite EL in *. apply Rabs_le. lra.
Qed.

(** the record decoded from the text: its elements, and its epoch *)
Lemma deep_decoded64 l1 l2 t x : well_written l1 l2 t -> deep_usual t -> epoch_days t x -> exists p : Satrec b64,
  @parse_satrec _ B l1 l2 = Done (Ok p) /\ deep_class (text_options t x) /\ deep_rounded (@tle_options _ B p) (text_options t x) /\
  sr_epochyr p = t_year t /\ nearest (sr_epochdays p) (t_day t).
Proof.
  intros (m1 & m2 & C & N1 & N2 & G) U HX.
  destruct (C28_nearest_doubles lm l1 l2 m1 m2 t C N1 N2 G (deep_usual_range _ _ _ _ _ C U)) as (p & ndot & nddot & incl & node & argp & anomaly & motion & P & _ & _ & K1 & K2 & K3 & K4 & K5 & _ & V1 & V2 & V3 & V4 & _ & _ & W1 & W2 & W3 & W4 & W5).
  exists p. split; [exact P|]. destruct U as (U1 & U2 & U3 & U4 & U5 & U6 & U7 & U8 & _).
  destruct (epoch_near _ _ p t x P V1 V2 U8 HX) as (X1 & X2 & X3). clear P C N1 N2 G HX.
  pose proof (deg_agree lm _ _ K1 ltac:(lra)) as D1. pose proof (deg_agree lm _ _ K2 U5) as D2. pose proof (deg_agree lm _ _ K3 U6) as D3. pose proof (deg_agree lm _ _ K4 U7) as D4.
  destruct (slow_agree _ _ K5 U1) as (M1 & M2). pose proof (nearest_agree _ _ V3) as B1. pose proof (nearest_agree _ _ V4) as E1.
  rewrite <- W1 in D1. rewrite <- W2 in D2. rewrite <- W3 in D3. rewrite <- W4 in D4. rewrite <- W5 in M1. clear W1 W2 W3 W4 W5 K1 K2 K3 K4 K5.
  assert (DG : forall d c, 0 <= d <= c -> 0 <= d * PI / 180 <= c * (1746 / 100000)).
  { intros d c H. pose proof CalcFun.pi_num. split; [unfold Rdiv; apply Rmult_le_pos; [apply Rmult_le_pos|]; lra|]. apply Rle_trans with (c * PI / 180); [unfold Rdiv; apply Rmult_le_compat_r; [lra|]; apply Rmult_le_compat_r; lra|]. unfold Rdiv. rewrite Rmult_assoc. apply Rmult_le_compat_l; lra. }
  pose proof (DG _ _ U2) as G1. pose proof (DG _ _ U5) as G2. pose proof (DG _ _ U6) as G3. pose proof (DG _ _ U7) as G4. clear DG.
  split; [|split; [|split; assumption]].
  - apply Rabs_le_inv in U4. unfold deep_class, text_options, tle_elements.
    cbn [in_xno in_xecco in_xinclo in_xmo in_xargpo in_xnodeo in_xbstar in_epoch Str3.n0 Str3.e0 Str3.i0 Str3.M0 Str3.w0 Str3.node0 Str3.Bstar].
    repeat split; lra.
  - split; [reflexivity|]. split; [|split; [exact X1|exact X2]].
    unfold rounded, elements, text_options, tle_elements, tle_options. cbv zeta.
    cbn [in_xno in_xecco in_xinclo in_xmo in_xargpo in_xnodeo in_xbstar in_epoch Str3.n0 Str3.e0 Str3.i0 Str3.M0 Str3.w0 Str3.node0 Str3.Bstar].
    repeat (split; [assumption|]). assumption.
Qed.
End S.

(** Decode and initialise a well-written set of a deep-space orbit, then ask for any date within a month of its
    epoch, all in binary64 with any accurate library.  Up to 4e-6 minutes in the time asked for, the answer is the
    theory's for the elements and the epoch written in the text, with the lunar-solar coefficients of an exact
    initialisation from them: the same decision, with the margins of [deep_outcome64], and a state within 14 cm and
    0.06 mm/s.  The set itself is refused exactly when the state at the epoch is. *)
Theorem C63_text_to_deep_state :
  forall (lm : libm), accurate lm ->
  forall (fuel fuel' : nat) (l1 l2 : str) (t : tle) (x : R),
    well_written l1 l2 t -> deep_usual t -> epoch_days t x -> (60 <= fuel')%nat ->
    let el := tle_elements t in
    exists r0 : result (SGP4Result b64) SGP4Error,
      (exists sR rR, sgp4init (FO := ROps) fuel satrec_zero (text_options t x) = Done (sR, rR)) /\
      forall fuelR s0R sR rR, sgp4init (FO := ROps) fuelR s0R (text_options t x) = Done (sR, rR) ->
        deep_outcome64 el sR 0 r0 /\
        (forall e, r0 = Err e -> twoline2satrec (FO := B64Ops lm) fuel l1 l2 = Done (Err (Sgp4InitError e))) /\
        (forall v, r0 = Ok v -> exists s : Satrec b64, twoline2satrec (FO := B64Ops lm) fuel l1 l2 = Done (Ok s) /\
           forall (d : DateTime) (m : R), civil d -> in_span d -> minutes_since_epoch t d m -> -43199 <= m <= 43199 ->
             exists tm res, Rabs (tm - m) <= 4 / 1000000 /\
               propogate_datetime (FO := B64Ops lm) fuel' s d = Done res /\ deep_outcome64 el sR tm res).
Proof.
  intros lm ACC fuel fuel' l1 l2 t x W U HX HF el.
  destruct (deep_decoded64 lm l1 l2 t x W U HX) as (p & PA & CL & RD & Y1 & Y2).
  set (o := @tle_options _ (B64Ops lm) p) in *.
  destruct (C62.C62_always_returns lm fuel p (@satrec_zero _ ROps) o) as ((s & r & H) & _ & K).
  exists r. split; [apply InitTotal.sgp4init_total, InitTotal.zero_sane_R|]. intros fuelR s0R sR rR HR.
  assert (OUT : forall n (tt : b64), inside tt (-43200) 43200 -> forall s' res, @sgp4 _ (B64Ops lm) n s tt = Done (s', res) -> deep_outcome64 el sR (B2R tt) res).
  { intros n tt It s' res G. unfold el. rewrite <- (text_options_elements t x).
    exact (C62.deep_accuracy lm ACC fuel p s o r nil s n tt s' res (text_options t x) fuelR s0R sR rR H eq_refl G HR CL RD It). }
  assert (T : twoline2satrec (FO := B64Ops lm) fuel l1 l2 = Done (match r with Ok _ => Ok s | Err e => Err (Sgp4InitError e) end)).
  { unfold twoline2satrec. rewrite PA. cbn [bindR]. fold o. rewrite H. now destruct r. }
  assert (Z : is_finite (@L _ (B64Ops lm) 0 0) = true /\ B2R (@L _ (B64Ops lm) 0 0) = 0) by (split; reflexivity). destruct Z as [Z1 Z2].
  split; [|split].
  - pose proof (sgp4init_replay _ _ _ _ _ H) as RP.
    destruct (@sgp4 _ (B64Ops lm) fuel s (@L _ (B64Ops lm) 0 0)) as [[s' res]| |] eqn:G; [|discriminate RP..].
    cbn [outcome_snd] in RP. injection RP as <-. rewrite <- Z2. eapply OUT; [|exact G]. split; [exact Z1|rewrite Z2; lra].
  - intros e ->. exact T.
  - intros v ->. exists s. split; [exact T|]. intros d m Cd Sd (days & HD & EM) Hm.
    destruct (C07_ready _ _ _ _ _ _ T) as (p' & v' & PA' & _ & _ & _ & _ & _ & _ & Q1 & Q2 & _). rewrite PA in PA'. injection PA' as <-.
    destruct U as (_ & _ & _ & _ & _ & _ & _ & U8 & _). destruct (day_near _ _ _ Y2 U8) as (F0 & DD & DR).
    destruct (C08_tle_elapsed_binary64 lm fuel fuel' l1 l2 s d days T) as (tt & F & E & PR).
    { now rewrite Q2. } { now rewrite Q1, Q2, Y1. }
    { exact Cd. } { exact Sd. }
    { rewrite Q1, Y1. exact HD. }
    rewrite Q2 in E.
    assert (TM : Rabs (B2R tt - m) <= 4 / 1000000).
    { apply Rabs_le_inv in E, DD. rewrite EM. apply Rabs_le. assert (/ 2 ^ 18 <= 382 / 100000000) by (cbn; lra). lra. }
    assert (IT : inside tt (-43200) 43200) by (split; [exact F|apply Rabs_le_inv in TM; lra]).
    destruct (K s fuel' tt HF IT) as (s' & res & G).
    exists (B2R tt), res. split; [exact TM|]. split; [rewrite PR, G; reflexivity|]. exact (OUT _ _ IT _ _ G).
Qed.
Print Assumptions C63_text_to_deep_state.

(** Non-vacuity: the geostationary set of C54, and a date three weeks after its epoch. *)
Definition july : DateTime := MkDateTime 2018 7 10 12 0 0 0.
Example C63_example :
  accurate exact_lm /\ well_written C25.iss1 C54.geo2 C54.geo /\ deep_usual C54.geo /\ (exists x, epoch_days C54.geo x /\ 25007 <= x <= 25008) /\
  civil july /\ in_span july /\ exists m, minutes_since_epoch C54.geo july m /\ 30447 <= m <= 30448.
Proof.
  assert (D : dec_value (t_day C54.geo) = 17035562296 / 100000000) by decv.
  split; [exact LibmExists.exact_lm_accurate|]. split; [apply C54.C54_deep_example|]. split.
  { assert (M : dec_value (t_motion C54.geo) = 100270176 / 100000000) by decv. assert (E : dec_value (t_ecc C54.geo) = 335 / 10000000) by decv.
    assert (I : dec_value (t_incl C54.geo) = 19 / 10000) by decv. assert (B : dec_value (t_bstar C54.geo) = 10270 / 100000000) by decv.
    assert (N : dec_value (t_node C54.geo) = 2869433 / 10000) by decv. assert (W : dec_value (t_argp C54.geo) = 137918 / 10000) by decv. assert (A : dec_value (t_anomaly C54.geo) = 556504 / 10000) by decv.
    assert (D1 : dec_value (t_ndot C54.geo) = 16717 / 100000000) by decv. assert (D2 : dec_value (t_nddot C54.geo) = 0) by decv.
    assert (Y : year_length (full_year (t_year C54.geo)) = 365%Z) by reflexivity.
    unfold deep_usual. rewrite M, E, I, B, N, W, A, D, D1, D2, Y. rewrite !Rabs_pos_eq by lra. repeat split; try lra. }
  split.
  { eexists. split; [exists 24838%Z; split; [|reflexivity]|rewrite D; lra].
    apply CalendarFacts.days_from_iff; [unfold valid; cbn; lia|unfold valid; cbn; lia|reflexivity]. }
  split; [unfold civil, valid, dt_date, july; cbn; lia|]. split; [unfold in_span, before, dt_date, july; cbn; lia|].
  eexists. split.
  - exists 190%Z. split; [|reflexivity]. apply CalendarFacts.days_from_iff; [unfold valid; cbn; lia|unfold valid; cbn; lia|reflexivity].
  - rewrite D. change (tod july) with 43200%Z. lra.
Qed.
