(** * C08: propogate_datetime is sgp4 at the elapsed minutes *)
From Coq Require Import ZArith Bool List Reals Lra Lia.
From Flocq Require Import Core IEEE754.BinarySingleNaN.
From Verif.Model Require Import Float Str Satrec Constants Ext Sgp4 Sgp4init Propagate Io.
From Verif.Spec Require Import Calendar Sgp4Spec.
From Verif.Inst Require Import RInst RTac B64 B64Facts B64Approx.
From Verif.Proofs Require Import CalendarFacts JdayFacts ExtFacts StrFacts IoFacts Sgp4Frame.
From Verif.Props Require Import C01 C07 C22 C23 C24.
From Verif.Golden Require Import Libm Sats.
Import ListNotations.
Local Open Scope R_scope.

(** A civil date and time, and the span of the calendar formula. *)
Definition dt_date (t : DateTime) : date := Date (dt_year t) (dt_month t) (dt_day t).
Definition civil (t : DateTime) : Prop :=
  valid (dt_date t) /\ (0 <= dt_hour t <= 23)%Z /\ (0 <= dt_minute t <= 59)%Z /\ (0 <= dt_second t <= 59)%Z.
Definition in_span (t : DateTime) : Prop := before (Date 1900 3 1) (dt_date t) /\ before (dt_date t) (Date 2100 2 28).
(** second of the day *)
Definition tod (t : DateTime) : Z := (3600 * dt_hour t + 60 * dt_minute t + dt_second t)%Z.

(** Any arithmetic: the result is that of sgp4, on a copy, at (JD(time) - epoch) * 1440 minutes. *)
Theorem C08_is_sgp4 :
  forall (F : Type) (FO : FloatOps F) (fuel : nat) (s : Satrec F) (t : DateTime),
    propogate_datetime fuel s t
    = returned (sgp4 fuel s (fmul (fsub (jday_datetime t) (sr_jdsatepoch s)) (L 1440 0))).
Proof.
  intros F FO fuel s t. unfold propogate_datetime, jday_datetime, kMINUTES_PER_DAY. cbv zeta.
  destruct (sgp4 fuel s _) as [[a b]| |]; reflexivity.
Qed.
Print Assumptions C08_is_sgp4.

(** Calls of sgp4 made on the record in between do not change it. *)
Theorem C08_repeatable :
  forall (F : Type) (FO : FloatOps F) (fuel : nat) (s s' : Satrec F) (calls : list (nat * F)) (t : DateTime),
    after_calls s calls = Done s' -> propogate_datetime fuel s' t = propogate_datetime fuel s t.
Proof.
  intros F FO fuel s s' calls t H. rewrite !C08_is_sgp4.
  assert (E : sr_jdsatepoch s' = sr_jdsatepoch s).
  { revert s H. induction calls as [|[n u] rest IH]; intros s H; cbn [after_calls] in H; [now injection H as <-|].
    destruct (sgp4 n s u) as [[s1 r1]| |] eqn:Q; cbn [bindO] in H; try discriminate. rewrite (IH s1 H).
    apply sgp4_frame in Q. destruct Q as [QN QD]. destruct (sr_method s).
    - now rewrite (QN eq_refl).
    - destruct (QD eq_refl) as (a & x & c & q & w & ->). reflexivity. }
  rewrite E. now apply (C01_history_independence F FO s s' calls).
Qed.
Print Assumptions C08_repeatable.

Lemma jday_datetime_R t n : valid (dt_date t) -> in_span t -> days_from (Date 2000 1 1) (dt_date t) n ->
  jday_datetime t = 2451544.5 + IZR n + IZR (tod t) / 86400.
Proof.
  intros V [B1 B2] H. unfold jday_datetime. rops. rewrite (C22_jday_exact _ _ _ n) by assumption.
  unfold tod. rewrite !plus_IZR, !mult_IZR. lra.
Qed.
Lemma days_from_2000 a b n : valid a -> valid b -> days_from a b n ->
  exists na nb, days_from (Date 2000 1 1) a na /\ days_from (Date 2000 1 1) b nb /\ (n = nb - na)%Z.
Proof.
  intros Va Vb H. assert (V0 : valid (Date 2000 1 1)) by (unfold valid; cbn; lia).
  apply days_from_iff in H; [|assumption..]. exists (num a - num (Date 2000 1 1))%Z, (num b - num (Date 2000 1 1))%Z.
  refine (conj _ (conj _ _)); [now apply days_from_iff..|lia].
Qed.

(** Exact arithmetic: for a record whose epoch is the instant [e], the propagation is at (seconds from
    [e] to [t]) / 60 minutes, the seconds being counted through the calendar. *)
Theorem C08_elapsed_exact :
  forall (fuel : nat) (s : Satrec R) (e t : DateTime) (days : Z),
    civil e -> civil t -> in_span e -> in_span t ->
    sr_jdsatepoch s = jday_datetime e ->
    days_from (dt_date e) (dt_date t) days ->
    propogate_datetime fuel s t = returned (sgp4 fuel s (IZR (86400 * days + tod t - tod e) / 60)).
Proof.
  intros fuel s e t days [Ve _] [Vt _] Se St He Hd. rewrite C08_is_sgp4, He.
  destruct (days_from_2000 _ _ _ Ve Vt Hd) as (na & nb & Ha & Hb & ->).
  rewrite (jday_datetime_R e na), (jday_datetime_R t nb) by assumption. rops.
  match goal with |- returned (sgp4 _ _ ?a) = returned (sgp4 _ _ ?b) => replace a with b; [reflexivity|] end.
  rewrite minus_IZR, plus_IZR, mult_IZR, minus_IZR. lra.
Qed.
Print Assumptions C08_elapsed_exact.

(** Exact arithmetic, element sets: the minutes are those since the epoch day written in the lines. *)
Theorem C08_tle_elapsed_exact :
  forall (fuel fuel' : nat) (l1 l2 : str) (s : Satrec R) (t : DateTime) (days : Z),
    twoline2satrec fuel l1 l2 = Done (Ok s) ->
    civil t -> in_span t ->
    days_from (Date (full_year (sr_epochyr s)) 1 1) (dt_date t) days ->
    propogate_datetime fuel' s t
    = returned (sgp4 fuel' s (1440 * (IZR days - (sr_epochdays s - 1)) + IZR (tod t) / 60)).
Proof.
  intros fuel fuel' l1 l2 s t days H [Vt _] St Hd. rewrite C08_is_sgp4.
  assert (V1 : valid (Date (full_year (sr_epochyr s)) 1 1)) by (unfold valid; cbn; lia).
  destruct (days_from_2000 _ _ _ V1 Vt Hd) as (na & nb & Ha & Hb & ->).
  rewrite (C24_epoch_of_record_exact fuel l1 l2 s na H Ha), (jday_datetime_R t nb) by assumption. rops.
  match goal with |- returned (sgp4 _ _ ?a) = returned (sgp4 _ _ ?b) => replace a with b; [reflexivity|] end.
  rewrite minus_IZR. lra.
Qed.
Print Assumptions C08_tle_elapsed_exact.

(** the elapsed minutes as computed *)
Definition elapsed64 (lm : libm) (s : Satrec b64) (t : DateTime) : b64 :=
  fmul (FloatOps := B64Ops lm) (fsub (FloatOps := B64Ops lm) (jday_datetime (FO := B64Ops lm) t) (sr_jdsatepoch s)) (L (FO := B64Ops lm) 1440 0).
Lemma tle_elapsed64 (lm : libm) (fuel : nat) (l1 l2 : str) (s : Satrec b64) (t : DateTime) (days : Z) :
  twoline2satrec (FO := B64Ops lm) fuel l1 l2 = Done (Ok s) ->
  is_finite (sr_epochdays s) = true ->
  1 <= B2R (sr_epochdays s) < IZR (year_length (full_year (sr_epochyr s))) + 1 ->
  civil t -> in_span t ->
  days_from (Date (full_year (sr_epochyr s)) 1 1) (dt_date t) days ->
  is_finite (elapsed64 lm s t) = true /\
  Rabs (B2R (elapsed64 lm s t) - (1440 * (IZR days - (B2R (sr_epochdays s) - 1)) + IZR (tod t) / 60)) <= / 2 ^ 18.
Proof.
  intros H Fd Hr (Vt & Hh & Hm & Hs) St Hd.
  assert (V1 : valid (Date (full_year (sr_epochyr s)) 1 1)) by (unfold valid; cbn; lia).
  destruct (days_from_2000 _ _ _ V1 Vt Hd) as (na & nb & Ha & Hb & ->).
  apply C07_ready in H. destruct H as (p & v & P & H).
  assert (Q : sr_epochyr s = sr_epochyr p /\ sr_epochdays s = sr_epochdays p /\ sr_jdsatepoch s = sr_jdsatepoch p) by tauto.
  clear H. destruct Q as (Q1 & Q2 & Q3). rewrite Q1, Q2 in *.
  destruct (C24_epoch_binary64 lm l1 l2 p na P Ha Fd Hr) as [F1 E1]. rewrite <- Q3 in F1, E1.
  assert (Hy : (1900 <= dt_year t <= 2100)%Z) by (unfold in_span, before, dt_date in St; cbn in St; lia).
  destruct (C22_datetime_binary64 lm t nb ltac:(lia) Vt Hh Hm ltac:(lia) Hb) as (JX & F2 & E2).
  rewrite <- JX in E2.
  rewrite (jday_datetime_R t nb Vt St Hb) in E2.
  unfold elapsed64. split.
  all: pose proof (C24_year b64 (B64Ops lm) l1 l2 p P) as [Yr _].
  all: assert (Tod : 0 <= IZR (tod t) <= 86400) by (unfold tod; split; apply IZR_le; lia).
  all: assert (Rng : (-36525 <= na <= 36525 /\ -36525 <= nb <= 36890)%Z) by
    (assert (V0 : valid (Date 2000 1 1)) by (unfold valid; cbn; lia);
     apply days_from_iff in Ha; [|assumption..]; apply days_from_iff in Hb; [|assumption..];
     pose proof (num_le (Date 1900 3 1) (dt_date t) ltac:(unfold valid; cbn; lia) Vt (proj1 St));
     pose proof (num_le (dt_date t) (Date 2100 2 28) Vt ltac:(unfold valid; cbn; lia) (proj2 St));
     pose proof (num_le (Date 1900 3 1) (Date (full_year (sr_epochyr p)) 1 1) ltac:(unfold valid; cbn; lia) V1 ltac:(unfold before; cbn; lia));
     pose proof (num_le (Date (full_year (sr_epochyr p)) 1 1) (Date 2099 1 1) V1 ltac:(unfold valid; cbn; lia) ltac:(unfold before; cbn; lia));
     change (num (Date 1900 3 1)) with 694051%Z in *; change (num (Date 2100 2 28)) with 767099%Z in *;
     change (num (Date 2099 1 1)) with 766676%Z in *; change (num (Date 2000 1 1)) with 730516%Z in *; lia).
  all: assert (R1 : IZR (-36525) <= IZR na <= IZR 36525) by (split; apply IZR_le; lia).
  all: assert (R2 : IZR (-36525) <= IZR nb <= IZR 36890) by (split; apply IZR_le; lia).
  all: assert (R3 : IZR (year_length (full_year (sr_epochyr p))) <= 366) by (apply IZR_le; unfold year_length; destruct (leap _); lia).
  all: pose proof (near_sub lm (-35) _ _ _ _ _ _ ltac:(lia) (conj F2 E2) (conj F1 E1)) as N1;
    change (bpow radix2 (-35 + 53)) with 262144 in N1; change (/ 2 ^ 31) with (/ (2 ^ 31)) in N1.
  all: assert (P31 : / 2 ^ 31 = / 2147483648) by (f_equal; simpl; lra);
    assert (P30 : / 2 ^ 30 = / 1073741824) by (f_equal; simpl; lra);
    rewrite P31, P30 in *.
  all: specialize (N1 ltac:(apply Rplus_le_reg_r with (- (/ 2147483648 + / 1073741824)); ring_simplify;
      apply Rabs_le; lra)).
  all: pose proof (near_mul lm (-25) _ (L (FO := B64Ops lm) 1440 0) _ 1440 _ ltac:(lia) N1 (is_lit lm 1440 ltac:(lia))) as N2;
    change (bpow radix2 (-25 + 53)) with 268435456 in N2; change (bpow radix2 (-35)) with (/ 34359738368) in N2;
    rewrite (Rabs_pos_eq 1440) in N2 by lra.
  all: match type of N2 with Rabs ?x + _ <= _ -> _ => assert (M : Rabs x <= 200000000) by (apply Rabs_le; lra) end;
    specialize (N2 ltac:(lra)); change (bpow radix2 (-25)) with (/ 33554432) in N2.
  - apply N2.
  - destruct N2 as [_ N2]. apply Rabs_le_inv in N2. replace (/ 2 ^ 18) with (/ 262144) by (f_equal; simpl; lra).
    rewrite minus_IZR. apply Rabs_le. lra.
Qed.

(** Binary64, element sets: the propagation is at that time to within 2^-18 minutes (0.23 ms). *)
Theorem C08_tle_elapsed_binary64 :
  forall (lm : libm) (fuel fuel' : nat) (l1 l2 : str) (s : Satrec b64) (t : DateTime) (days : Z),
    twoline2satrec (FO := B64Ops lm) fuel l1 l2 = Done (Ok s) ->
    is_finite (sr_epochdays s) = true ->
    1 <= B2R (sr_epochdays s) < IZR (year_length (full_year (sr_epochyr s))) + 1 ->
    civil t -> in_span t ->
    days_from (Date (full_year (sr_epochyr s)) 1 1) (dt_date t) days ->
    exists m : b64,
      is_finite m = true /\
      Rabs (B2R m - (1440 * (IZR days - (B2R (sr_epochdays s) - 1)) + IZR (tod t) / 60)) <= / 2 ^ 18 /\
      propogate_datetime (FO := B64Ops lm) fuel' s t = returned (sgp4 (FO := B64Ops lm) fuel' s m).
Proof.
  intros lm fuel fuel' l1 l2 s t days H Fd Hr Ct St Hd. exists (elapsed64 lm s t).
  destruct (tle_elapsed64 lm fuel l1 l2 s t days H Fd Hr Ct St Hd) as (F & E).
  split; [exact F|]. split; [exact E|]. apply C08_is_sgp4.
Qed.
Print Assumptions C08_tle_elapsed_binary64.

(** Non-vacuity: the ISS element set and a date two days after its epoch. *)
Definition t_2019 : DateTime := MkDateTime 2019 3 28 20 6 9 0.
Example C08_example :
  civil t_2019 /\ in_span t_2019 /\ days_from (Date (full_year (sr_epochyr iss)) 1 1) (dt_date t_2019) 86 /\
  is_ok (propogate_datetime (FO := GoldenOps) 10 iss t_2019) = true.
Proof.
  refine (conj _ (conj _ (conj _ _))).
  - unfold civil, valid, dt_date, t_2019. cbn. lia.
  - unfold in_span, before, dt_date, t_2019. cbn. lia.
  - replace (sr_epochyr iss) with 19%Z by (vm_compute; reflexivity).
    apply days_from_iff; [unfold valid; cbn; lia|unfold valid; cbn; lia|reflexivity].
  - vm_compute. reflexivity.
Qed.
