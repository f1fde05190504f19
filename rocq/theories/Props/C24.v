(** * C24: the epoch of a TLE *)
From Coq Require Import ZArith Bool List Reals Lra Lia.
From Flocq Require Import Core IEEE754.BinarySingleNaN.
From Verif.Model Require Import Float Str Satrec Ext Sgp4init Io.
From Verif.Spec Require Import Calendar.
From Verif.Inst Require Import RInst RTac B64 B64Facts B64Approx.
From Verif.Proofs Require Import CalendarFacts JdayFacts ExtFacts StrFacts IoFacts.
From Verif.Props Require Import C07 C22 C23.
From Verif.Golden Require Import Libm Sats.
Import ListNotations.
Local Open Scope R_scope.

(** The year meant by a two-digit year: 57..99 in the 20th century, below 57 in the 21st. *)
Definition full_year (yy : Z) : Z := if (57 <=? yy)%Z then (1900 + yy)%Z else (2000 + yy)%Z.

Lemma full_year_tle yy : tle_year yy = full_year yy.
Proof. unfold tle_year, full_year. destruct (Z.ltb_spec yy 57), (Z.leb_spec 57 yy); lia. Qed.
Lemma full_year_range yy : (-9 <= yy <= 99 -> 1957 <= full_year yy <= 2056)%Z.
Proof. unfold full_year. destruct (Z.leb_spec 57 yy); lia. Qed.

Lemma cent_mid y m : (1957 <= y <= 2056 -> cent y m = 15)%Z.
Proof.
  intros H. unfold cent, march_year. destruct (Z.leb_spec m 2).
  - destruct (Z.ltb_spec (y - 1) 2000); Z.to_euclidean_division_equations; lia.
  - destruct (Z.ltb_spec y 2000); Z.to_euclidean_division_equations; lia.
Qed.
Lemma as_u64_id y : (1957 <= y <= 2056 -> as_u64 y = y)%Z.
Proof. intros H. unfold as_u64. rewrite Z.mod_small; lia. Qed.

Lemma jul_doy y m t D n : (1957 <= y <= 2056)%Z -> (1 <= m <= 12)%Z -> t = months_before (lp4 y) m ->
  days_from (Date 2000 1 1) (Date y 1 1) n ->
  (jul y m (D - t) = n + 730531 + (D - 1))%Z.
Proof.
  intros Hy Hm Ht Hn. assert (L : leap y = (y mod 4 =? 0)%Z) by (apply leap_1901_2099; lia).
  destruct (lp4_leap y L) as [L1 _].
  assert (V0 : valid (Date 2000 1 1)) by (unfold valid; cbn; lia).
  assert (V1 : valid (Date y 1 1)) by (unfold valid; cbn; lia).
  pose proof (num_eq y m (D - t) Hm) as E. rewrite <- L1, <- Ht in E.
  apply days_from_iff in Hn; [|assumption..]. fold (jan1 y) in Hn.
  unfold num in E at 1. cbn [d_year d_month d_day] in E. rewrite cent_mid in E by assumption.
  change (num (Date 2000 1 1)) with 730516%Z in Hn. lia.
Qed.

Lemma tle_jd_R yy (days : R) n : (-9 <= yy <= 99)%Z -> days_from (Date 2000 1 1) (Date (full_year yy) 1 1) n ->
  tle_jdsatepoch yy days = 2451544.5 + IZR n + (days - 1).
Proof.
  intros Hy Hn. pose proof (full_year_range yy Hy) as HY. unfold tle_jdsatepoch. rewrite full_year_tle, as_u64_id by assumption.
  destruct (days2mdhms_R (full_year yy) days) as (i & t & h & mi & s & E & D & Q & _). cbv zeta in *.
  set (DD := clamp_u64 _) in *. clearbody DD. rewrite D. cbn [mh_month mh_day mh_hour mh_minute mh_second]. rops.
  destruct (month_loop_spec _ _ _ _ E) as (Hi & Ht & _). rewrite jday_R, (jul_doy _ _ _ _ n HY Hi Ht Hn).
  rewrite Q. rewrite !plus_IZR, minus_IZR. lra.
Qed.

(** Exact arithmetic: for all element lines that decode, and whatever number is written in the day
    columns, the epoch is 1 January of the year plus the day number minus 1. *)
Theorem C24_epoch_exact :
  forall (l1 l2 : str) (s : Satrec R) (n : Z),
    parse_satrec l1 l2 = Done (Ok s) ->
    days_from (Date 2000 1 1) (Date (full_year (sr_epochyr s)) 1 1) n ->
    sr_jdsatepoch s = 2451544.5 + IZR n + (sr_epochdays s - 1).
Proof.
  intros l1 l2 s n H Hn. apply parse_satrec_inv in H. destruct H as (a & b & Ha & _ & ->).
  apply tle_jd_R; [|exact Hn]. apply (epochyr_range _ _ Ha).
Qed.
Print Assumptions C24_epoch_exact.

(** The same for the initialised record handed out by twoline2satrec. *)
Theorem C24_epoch_of_record_exact :
  forall (fuel : nat) (l1 l2 : str) (s : Satrec R) (n : Z),
    twoline2satrec fuel l1 l2 = Done (Ok s) ->
    days_from (Date 2000 1 1) (Date (full_year (sr_epochyr s)) 1 1) n ->
    sr_jdsatepoch s = 2451544.5 + IZR n + (sr_epochdays s - 1).
Proof.
  intros fuel l1 l2 s n H Hn. apply C07_ready in H. destruct H as (p & v & P & H).
  assert (Q : sr_epochyr s = sr_epochyr p /\ sr_epochdays s = sr_epochdays p /\ sr_jdsatepoch s = sr_jdsatepoch p) by tauto.
  destruct Q as (Q1 & -> & ->). rewrite Q1 in Hn. now apply (C24_epoch_exact l1 l2 p n).
Qed.
Print Assumptions C24_epoch_of_record_exact.

(** The year columns: two digits (characters 48..57) mean the two-digit number; every text that decodes gives a year in 1957..2056. *)
Theorem C24_year :
  forall (F : Type) (FO : FloatOps F) (l1 l2 : str) (s : Satrec F),
    parse_satrec l1 l2 = Done (Ok s) ->
    (1957 <= full_year (sr_epochyr s) <= 2056)%Z /\
    forall a b : Z, (48 <= a <= 57)%Z -> (48 <= b <= 57)%Z -> slice l1 18 20 = Done [a; b] -> sr_epochyr s = (10 * (a - 48) + (b - 48))%Z.
Proof.
  intros F FO l1 l2 s H. apply parse_satrec_inv in H. destruct H as (x & y & Hx & _ & ->).
  change (sr_epochyr (make_satrec x y)) with (l1_epochyr x).
  split; [apply full_year_range, (epochyr_range _ _ Hx)|].
  intros a b Ha Hb Hs. apply parse_line1_inv in Hx.
  destruct Hx as (x1 & x2 & x3 & x4 & yr & nd & _ & _ & S2 & P2 & _). rewrite S2 in Hs. injection Hs as ->.
  assert (D : digits [a; b]) by (unfold digits; cbn [forallb]; rewrite !(proj2 (is_digit_range _)) by lia; reflexivity).
  rewrite digits_trim, parse_i64_unsigned in P2 by (assumption || (cbn; lia)).
  injection P2 as <-. unfold digits_val, digit_val. cbn [fold_left]. ring.
Qed.
Print Assumptions C24_year.

(** Binary64: within 2^-30 days (80 microseconds) of that, for day numbers within the year. *)
Theorem C24_epoch_binary64 :
  forall (lm : libm) (l1 l2 : str) (s : Satrec b64) (n : Z),
    parse_satrec (FO := B64Ops lm) l1 l2 = Done (Ok s) ->
    days_from (Date 2000 1 1) (Date (full_year (sr_epochyr s)) 1 1) n ->
    is_finite (sr_epochdays s) = true -> 1 <= B2R (sr_epochdays s) < IZR (year_length (full_year (sr_epochyr s))) + 1 ->
    is_finite (sr_jdsatepoch s) = true /\
    Rabs (B2R (sr_jdsatepoch s) - (2451544.5 + IZR n + (B2R (sr_epochdays s) - 1))) <= / 2 ^ 30.
Proof.
  intros lm l1 l2 s n H Hn Fd Hd. apply parse_satrec_inv in H. destruct H as (a & b & Ha & _ & ->).
  pose proof (epochyr_range _ _ Ha) as Hyy. 
  change (sr_epochyr (make_satrec (FO := B64Ops lm) a b)) with (l1_epochyr a) in *.
  change (sr_epochdays (make_satrec (FO := B64Ops lm) a b)) with (l1_epochdays a) in *.
  change (sr_jdsatepoch (make_satrec (FO := B64Ops lm) a b)) with (tle_jdsatepoch (FO := B64Ops lm) (l1_epochyr a) (l1_epochdays a)).
  set (yy := l1_epochyr a) in *. set (days := l1_epochdays a) in *. clearbody yy days. clear Ha a b.
  pose proof (full_year_range yy Hyy) as HY. unfold tle_jdsatepoch. rewrite full_year_tle, as_u64_id by assumption.
  set (y := full_year yy) in *. clearbody y.
  assert (L : leap y = (y mod 4 =? 0)%Z) by (apply leap_1901_2099; lia). rewrite (year_length_lp4 y L) in Hd.
  destruct (floor_in_year y _ Hd) as [HF HR].
  destruct (days2mdhms_B lm y days (B2R days) (conj Fd eq_refl) HR)
    as (i & t & h & mi & sec & fh & fmi & fs & E & D & Ih & Im & Is & Hh & Hmi & Hs & Q).
  destruct (month_loop_spec _ _ _ _ E) as (Hi & Ht & _ & Hday). specialize (Hday HF).
  assert (Hdd : (1 <= Zfloor (B2R days) - t <= 31)%Z).
  { unfold len4, lp4 in Hday. destruct (Z.eqb i 2); [destruct (Z.eqb _ 0)|destruct (_ || _)%bool]; lia. }
  rewrite D. cbn zeta. cbn [mh_month mh_day mh_hour mh_minute mh_second].
  destruct (jday_B lm y i (Zfloor (B2R days) - t) h mi sec _ _ _ fh fmi fs (@Float.L _ (B64Ops lm) 0 0)
    ltac:(lia) Hi Hdd Hh Hmi ltac:(lra) eq_refl eq_refl eq_refl Ih Im Is (is_lit lm 0 ltac:(lia))) as [F1 E1].
  split; [exact F1|]. rewrite (jul_doy y i t (Zfloor (B2R days)) n HY Hi Ht Hn) in E1. unfold frac in E1.
  rewrite !plus_IZR, minus_IZR in E1.
  change (bpow radix2 (-31)) with (/ 2147483648) in E1. change (bpow radix2 (-52)) with (/ 4503599627370496) in Q.
  set (J := jday _ _ _ _ _ _ _) in *. clearbody J. simpl pow. apply Rabs_le_inv in E1. apply Rabs_le_inv in Q. apply Rabs_le. lra.
Qed.
Print Assumptions C24_epoch_binary64.

(** Non-vacuity: the ISS element set has epoch year 19 (2019), a finite day number inside that year. *)
Example C24_example :
  (sr_epochyr iss, full_year (sr_epochyr iss), full_year 57, full_year 56) = (19, 2019, 1957, 2056)%Z /\
  days_from (Date 2000 1 1) (Date 2019 1 1) 6940 /\
  (is_finite (sr_epochdays iss), fle (L (FO := GoldenOps) 1 0) (sr_epochdays iss), flt (sr_epochdays iss) (L (FO := GoldenOps) 366 0)) = (true, true, true) /\
  slice iss1 18 20 = Done [49; 57]%Z.
Proof.
  refine (conj _ (conj _ (conj _ _))).
  - vm_compute. reflexivity.
  - apply days_from_iff; [unfold valid; cbn; lia|unfold valid; cbn; lia|reflexivity].
  - vm_compute. reflexivity.
  - vm_compute. reflexivity.
Qed.
