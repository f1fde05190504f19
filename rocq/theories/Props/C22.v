(** * C22: jday is the Julian date *)
From Coq Require Import ZArith Bool Reals Lra Lia.
From Flocq Require Import Core.Raux IEEE754.BinarySingleNaN.
From Verif.Model Require Import Float Ext.
From Verif.Spec Require Import Calendar.
From Verif.Inst Require Import RInst RTac B64 B64Facts B64Approx.
From Verif.Proofs Require Import CalendarFacts JdayFacts.
From Verif.Golden Require Import Libm.
Local Open Scope R_scope.

(** Counting days from 2000-01-01: every date has exactly one number. *)
Theorem C22_day_number_unique :
  forall d : date, valid d -> exists! n, days_from (Date 2000 1 1) d n.
Proof.
  intros d V. assert (V0 : valid (Date 2000 1 1)) by (unfold valid; cbn; lia).
  exists (num d - num (Date 2000 1 1))%Z. split; [now apply days_from_iff|].
  intros n H. apply days_from_iff in H; [easy|assumption..].
Qed.
Print Assumptions C22_day_number_unique.

Lemma jul_num y m d n : valid (Date y m d) -> days_from (Date 2000 1 1) (Date y m d) n ->
  (jul y m d = n + 730531 + (cent y m - 15))%Z.
Proof.
  intros V H. assert (V0 : valid (Date 2000 1 1)) by (unfold valid; cbn; lia).
  apply days_from_iff in H; [|assumption..]. unfold num in H. cbn [d_year d_month d_day] in H.
  change (jul 2000 1 1 - cent 2000 1)%Z with 730516%Z in H. lia.
Qed.
Lemma cent_1900_2100 y m d : (valid (Date y m d) -> before (Date 1900 3 1) (Date y m d) -> before (Date y m d) (Date 2100 2 28) -> cent y m = 15)%Z.
Proof.
  unfold valid, before, cent, march_year. cbn [d_year d_month d_day]. intros V H1 H2.
  destruct (Z.leb_spec m 2).
  - assert (Q : (1900 <= y - 1 <= 2099)%Z) by lia.
    assert ((y - 1) / 100 = 19 \/ (y - 1) / 100 = 20)%Z by (Z.to_euclidean_division_equations; lia).
    assert ((y - 1) / 400 = if Z.ltb (y - 1) 2000 then 4 else 5)%Z by (destruct (Z.ltb_spec (y - 1) 2000); Z.to_euclidean_division_equations; lia).
    destruct (Z.ltb_spec (y - 1) 2000); Z.to_euclidean_division_equations; lia.
  - destruct (Z.ltb_spec y 2000); Z.to_euclidean_division_equations; lia.
Qed.

(** Exact arithmetic: between 1900-03-01 and 2100-02-28, jday is 2451544.5 plus the days since 2000-01-01
    plus the time of day, for every time of day. *)
Theorem C22_jday_exact :
  forall (y m d n : Z) (h mi s ms : R),
    valid (Date y m d) -> before (Date 1900 3 1) (Date y m d) -> before (Date y m d) (Date 2100 2 28) ->
    days_from (Date 2000 1 1) (Date y m d) n ->
    jday (IZR y) (IZR m) (IZR d) h mi s ms = 2451544.5 + IZR n + (h + mi / 60 + s / 3600 + ms / 3600000) / 24.
Proof.
  intros y m d n h mi s ms V B1 B2 H. rewrite jday_R, (jul_num y m d n V H), (cent_1900_2100 y m d V B1 B2).
  rewrite !plus_IZR, minus_IZR. lra.
Qed.
Print Assumptions C22_jday_exact.

(** ... and everywhere else it is off by the number of century years that are not leap years between that
    date and the present span (15 such days had been skipped, counted from year 0, in that span): the
    years being counted from March, as the leap day ends the year. *)
Theorem C22_jday_drift :
  forall (y m d n : Z) (h mi s ms : R),
    valid (Date y m d) -> days_from (Date 2000 1 1) (Date y m d) n ->
    let y' := (if m <=? 2 then y - 1 else y)%Z in
    jday (IZR y) (IZR m) (IZR d) h mi s ms
    = 2451544.5 + IZR n + (h + mi / 60 + s / 3600 + ms / 3600000) / 24 + IZR (y' / 100 - y' / 400 - 15).
Proof.
  intros y m d n h mi s ms V H y'. rewrite jday_R, (jul_num y m d n V H).
  change (cent y m) with (y' / 100 - y' / 400)%Z. rewrite !plus_IZR. lra.
Qed.
Print Assumptions C22_jday_drift.

(** Binary64: exact at midnight for a million years either way. *)
Theorem C22_midnight_binary64 :
  forall (lm : libm) (y m d : Z),
    (Z.abs y <= 1000000)%Z -> valid (Date y m d) ->
    let j := jday (FO := B64Ops lm) (fofZ (FloatOps := B64Ops lm) y) (fofZ (FloatOps := B64Ops lm) m) (fofZ (FloatOps := B64Ops lm) d)
               (fofZ (FloatOps := B64Ops lm) 0) (fofZ (FloatOps := B64Ops lm) 0) (fofZ (FloatOps := B64Ops lm) 0) (fofZ (FloatOps := B64Ops lm) 0) in
    is_finite j = true /\ B2R j = jday (IZR y) (IZR m) (IZR d) 0 0 0 0.
Proof.
  intros lm y m d Hy V j. assert (Hd : (1 <= d <= 31)%Z).
  { destruct V as [V1 V2]. cbn in V1, V2. unfold month_length in V2.
    destruct (Z.eqb m 2); [destruct (leap y)|destruct (_ || _)%bool]; lia. }
  destruct (jday_B_midnight lm y m d Hy (proj1 V) Hd) as [F1 E1]. split; [exact F1|].
  unfold j. rewrite E1, jday_R. lra.
Qed.
Print Assumptions C22_midnight_binary64.

(** Binary64: a timestamp's Julian date is within 2^-31 days (40 microseconds) of the one counted from
    2000-01-01, for every whole second of the years -4000 to 6000 (off by whole days outside the span, as
    above). *)
Theorem C22_datetime_binary64 :
  forall (lm : libm) (t : DateTime) (n : Z),
    (-4000 <= dt_year t <= 6000)%Z -> valid (Date (dt_year t) (dt_month t) (dt_day t)) ->
    (0 <= dt_hour t <= 23)%Z -> (0 <= dt_minute t <= 59)%Z -> (0 <= dt_second t <= 60)%Z ->
    days_from (Date 2000 1 1) (Date (dt_year t) (dt_month t) (dt_day t)) n ->
    let y' := (if dt_month t <=? 2 then dt_year t - 1 else dt_year t)%Z in
    let jd := 2451544.5 + IZR n + (IZR (dt_hour t) + IZR (dt_minute t) / 60 + IZR (dt_second t) / 3600) / 24
              + IZR (y' / 100 - y' / 400 - 15) in
    let j := jday_datetime (FO := B64Ops lm) t in
    jday_datetime (FO := ROps) t = jd /\ is_finite j = true /\ Rabs (B2R j - jd) <= / 2 ^ 31.
Proof.
  intros lm t n Hy V Hh Hm Hs HN y' jd j.
  assert (J : jday_datetime (FO := ROps) t = jd).
  { unfold jday_datetime. rops. rewrite (C22_jday_drift _ _ _ n _ _ _ _ V HN). unfold jd, y'. lra. }
  split; [exact J|]. rewrite <- J. clear HN J n y' jd. assert (Hd : (1 <= dt_day t <= 31)%Z).
  { destruct V as [V1 V2]. cbn [d_year d_month d_day] in V1, V2. unfold month_length in V2.
    destruct (Z.eqb _ 2); [destruct (leap _)|destruct (_ || _)%bool]; lia. }
  assert (Hs' : 0 <= IZR (dt_second t) <= 60) by (split; apply IZR_le; lia).
  destruct (jday_B lm (dt_year t) (dt_month t) (dt_day t) (dt_hour t) (dt_minute t) (IZR (dt_second t))
    _ _ _ _ _ _ _ Hy (proj1 V) Hd Hh Hm Hs' eq_refl eq_refl eq_refl
    (is_ofZ lm (dt_hour t) ltac:(lia)) (is_ofZ lm (dt_minute t) ltac:(lia)) (is_ofZ lm (dt_second t) ltac:(lia)) (is_ofZ lm 0 ltac:(lia))) as [F1 E1].
  split; [exact F1|]. unfold jday_datetime at 1. rops. rewrite jday_R.
  change (bpow Zaux.radix2 (-31)) with (/ 2147483648) in E1. simpl pow. 
  unfold frac in E1. unfold j, jday_datetime. eapply Rle_trans; [exact E1|]. lra.
Qed.
Print Assumptions C22_datetime_binary64.

(** Non-vacuity: 2024-02-29 is a valid date in the span, 8825 days after 2000-01-01; 1900-02-28 is one off. *)
Example C22_example :
  valid (Date 2024 2 29) /\ before (Date 1900 3 1) (Date 2024 2 29) /\ before (Date 2024 2 29) (Date 2100 2 28) /\
  days_from (Date 2000 1 1) (Date 2024 2 29) 8825 /\
  valid (Date 1900 2 28) /\ days_from (Date 2000 1 1) (Date 1900 2 28) (-36466) /\ (1899 / 100 - 1899 / 400 - 15 = -1)%Z /\
  feq (jday (FO := B64Ops the_libm) (fofZ (FloatOps := B64Ops the_libm) 2024) (fofZ (FloatOps := B64Ops the_libm) 2) (fofZ (FloatOps := B64Ops the_libm) 29)
        (fofZ (FloatOps := B64Ops the_libm) 0) (fofZ (FloatOps := B64Ops the_libm) 0) (fofZ (FloatOps := B64Ops the_libm) 0) (fofZ (FloatOps := B64Ops the_libm) 0))
      (L (FO := B64Ops the_libm) 24603695 1) = true.
Proof.
  assert (A : valid (Date 2000 1 1)) by (unfold valid; cbn; lia).
  assert (V : valid (Date 2024 2 29)) by (unfold valid; cbn; lia).
  assert (W : valid (Date 1900 2 28)) by (unfold valid; cbn; lia).
  refine (conj V (conj _ (conj _ (conj _ (conj W (conj _ (conj eq_refl _))))))).
  - unfold before; cbn; lia.
  - unfold before; cbn; lia.
  - apply days_from_iff; [assumption..|reflexivity].
  - apply days_from_iff; [assumption..|reflexivity].
  - vm_compute. reflexivity.
Qed.
