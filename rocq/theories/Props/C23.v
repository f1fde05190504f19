(** * C23: days2mdhms returns the calendar date of a day of the year *)
From Coq Require Import ZArith Bool Reals Lra Lia.
From Flocq Require Import Core IEEE754.BinarySingleNaN.
From Verif.Model Require Import Float Ext.
From Verif.Spec Require Import Calendar.
From Verif.Inst Require Import RInst RTac B64 B64Facts B64Approx.
From Verif.Proofs Require Import CalendarFacts JdayFacts ExtFacts.
From Verif.Golden Require Import Libm.
Local Open Scope R_scope.

Lemma leap_1901_2099 y : (1901 <= y <= 2099)%Z -> leap y = (y mod 4 =? 0)%Z.
Proof.
  intros H. unfold leap. destruct (Z.eqb_spec (y mod 4) 0), (Z.eqb_spec (y mod 100) 0), (Z.eqb_spec (y mod 400) 0);
    cbn [andb orb negb]; try reflexivity; exfalso; Z.to_euclidean_division_equations; lia.
Qed.
Lemma floor_in_year y (days : R) : 1 <= days < IZR (365 + lp4 y) + 1 -> (1 <= Zfloor days <= 365 + lp4 y)%Z /\ 0 <= days < 400.
Proof.
  intros H. assert (L : (0 <= lp4 y <= 1)%Z) by (unfold lp4; destruct (Z.eqb _ _); lia).
  assert (IZR (365 + lp4 y) <= IZR 366) by (apply IZR_le; lia).
  split; [split; [apply Zfloor_lub; lra|]|lra].
  assert (Zfloor days < 365 + lp4 y + 1)%Z; [|lia]. apply lt_IZR. rewrite plus_IZR. pose proof (Zfloor_lb days). lra.
Qed.
Lemma year_length_lp4 y : leap y = (y mod 4 =? 0)%Z -> year_length y = (365 + lp4 y)%Z.
Proof. intros E. destruct (lp4_leap y E) as [-> _]. unfold year_length. destruct (leap y); reflexivity. Qed.

(** Exact arithmetic, 1901 to 2099: a valid date and time of day, which reconstruct the argument exactly. *)
Theorem C23_date_exact :
  forall (y : Z) (days : R),
    (1901 <= y <= 2099)%Z -> 1 <= days < IZR (year_length y) + 1 ->
    exists (m d h mi : Z) (s : R),
      days2mdhms y days = MkMDHMS (IZR m) (IZR d) (IZR h) (IZR mi) s /\
      valid (Date y m d) /\ (0 <= h <= 23)%Z /\ (0 <= mi <= 59)%Z /\ 0 <= s < 60 /\
      days = IZR (day_of_year y m d) + (IZR h + (IZR mi + s / 60) / 60) / 24.
Proof.
  intros y days Hy Hd. pose proof (leap_1901_2099 y Hy) as L. rewrite (year_length_lp4 y L) in Hd.
  destruct (floor_in_year y days Hd) as [HF HR]. destruct (lp4_leap y L) as [L1 L2].
  destruct (days2mdhms_R y days) as (i & t & h & mi & s & E & D & Q & Hh & Hmi & Hs). cbv zeta in *.
  rewrite (clamp_floor days HR) in *. destruct (month_loop_spec _ _ _ _ E) as (Hi & Ht & _ & Hday).
  specialize (Hday HF). exists i, (Zfloor days - t)%Z, h, mi, s.
  refine (conj D (conj (conj Hi _) (conj (Hh _) (conj Hmi (conj Hs _))))).
  - cbn. rewrite <- L2. exact Hday.
  - pose proof (Zfloor_lb days). pose proof (Zfloor_ub days). lra.
  - rewrite doy_eq, <- L1, <- Ht by assumption. rewrite Q at 1. f_equal. f_equal. ring.
Qed.
Print Assumptions C23_date_exact.

(** Binary64, same years: the fields are whole numbers in range, and reconstruct the argument within 2^-52 days. *)
Theorem C23_date_binary64 :
  forall (lm : libm) (y : Z) (days : b64),
    (1901 <= y <= 2099)%Z -> is_finite days = true -> 1 <= B2R days < IZR (year_length y) + 1 ->
    let r := days2mdhms (FO := B64Ops lm) y days in
    exists m d h mi : Z,
      B2R (mh_month r) = IZR m /\ B2R (mh_day r) = IZR d /\ B2R (mh_hour r) = IZR h /\ B2R (mh_minute r) = IZR mi /\
      is_finite (mh_second r) = true /\
      valid (Date y m d) /\ (0 <= h <= 23)%Z /\ (0 <= mi <= 59)%Z /\ 0 <= B2R (mh_second r) < 60 /\
      Rabs (IZR (day_of_year y m d) + (IZR h + (IZR mi + B2R (mh_second r) / 60) / 60) / 24 - B2R days) <= / 2 ^ 52.
Proof.
  intros lm y days Hy Fd Hd. pose proof (leap_1901_2099 y Hy) as L. rewrite (year_length_lp4 y L) in Hd.
  destruct (floor_in_year y _ Hd) as [HF HR]. destruct (lp4_leap y L) as [L1 L2].
  destruct (days2mdhms_B lm y days (B2R days) (conj Fd eq_refl) HR)
    as (i & t & h & mi & s & fh & fmi & fs & E & D & Ih & Im & Is & Hh & Hmi & Hs & Q).
  destruct (month_loop_spec _ _ _ _ E) as (Hi & Ht & _ & Hday). specialize (Hday HF).
  rewrite D. cbn zeta. cbn [mh_month mh_day mh_hour mh_minute mh_second].
  assert (Hdd : (1 <= Zfloor (B2R days) - t <= 31)%Z).
  { unfold len4, lp4 in Hday. destruct (Z.eqb i 2); [destruct (Z.eqb _ 0)|destruct (_ || _)%bool]; lia. }
  exists i, (Zfloor (B2R days) - t)%Z, h, mi.
  destruct Is as [Fs Es]. rewrite Es.
  refine (conj (proj2 (is_ofZ lm i ltac:(lia))) (conj (proj2 (is_ofZ lm (Zfloor (B2R days) - t) ltac:(lia))) (conj (proj2 Ih) (conj (proj2 Im) (conj Fs
    (conj (conj Hi _) (conj Hh (conj Hmi (conj Hs _))))))))).
  - cbn. rewrite <- L2. exact Hday.
  - rewrite doy_eq, <- L1, <- Ht by assumption.
    replace (t + (Zfloor (B2R days) - t))%Z with (Zfloor (B2R days)) by ring.
    eapply Rle_trans; [exact Q|]. change (bpow radix2 (-52)) with (/ 4503599627370496). simpl. lra.
Qed.
Print Assumptions C23_date_binary64.

(** The defect: in a century year that is not a leap year (1900 and 2100 lie in the documented range) the
    day number 60, which is 1 March, is reported as 29 February, and every later day as the day before. *)
Theorem C23_common_century_years :
  forall (y : Z) (days : R),
    (y mod 100 = 0)%Z -> (y mod 400 <> 0)%Z ->
    (60 <= days < 61 ->
       mh_month (days2mdhms y days) = 2 /\ mh_day (days2mdhms y days) = 29 /\ ~ valid (Date y 2 29)) /\
    (61 <= days < 366 ->
       exists m d : Z, mh_month (days2mdhms y days) = IZR m /\ mh_day (days2mdhms y days) = IZR d /\
                       valid (Date y m d) /\ (day_of_year y m d = Zfloor days - 1)%Z).
Proof.
  intros y days H1 H4.
  assert (NL : leap y = false).
  { unfold leap. rewrite (proj2 (Z.eqb_eq _ _) H1), (proj2 (Z.eqb_neq _ _) H4). now rewrite andb_false_r. }
  assert (M4 : (y mod 4 = 0)%Z) by (Z.to_euclidean_division_equations; lia).
  assert (L4 : lp4 y = 1%Z) by (unfold lp4; rewrite M4; reflexivity).
  destruct (days2mdhms_R y days) as (i & t & h & mi & s & E & D & Q & Hh & Hmi & Hs). cbv zeta in *.
  rewrite D. cbn [mh_month mh_day].
  destruct (month_loop_spec _ _ _ _ E) as (Hi & Ht & _ & Hday). rewrite L4 in *.
  split; intros HD.
  - rewrite (clamp_floor days ltac:(lra)) in *.
    assert (F : (Zfloor days = 60)%Z) by (apply Zfloor_imp; cbn; lra). rewrite F in *. specialize (Hday ltac:(lia)).
    assert (i = 2%Z).
    { rewrite Ht, mb_eq in Hday by assumption. unfold len4 in Hday. rewrite L4 in Hday. clear - Hi Hday.
      destruct (month_cases i Hi) as [K|[K|[K|[K|[K|[K|[K|[K|[K|[K|[K|K]]]]]]]]]]]; subst i; cbn in Hday; lia. }
    subst i. rewrite Ht. refine (conj eq_refl (conj eq_refl _)).
    intros [_ V]. cbn [d_year d_month d_day] in V. unfold month_length in V. rewrite NL in V. cbn in V. lia.
  - rewrite (clamp_floor days ltac:(lra)) in *.
    assert (F : (61 <= Zfloor days <= 365)%Z).
    { split; [apply Zfloor_lub; lra|]. assert (Zfloor days < 366)%Z; [|lia]. apply lt_IZR. pose proof (Zfloor_lb days). lra. }
    specialize (Hday ltac:(lia)). exists i, (Zfloor days - t)%Z. refine (conj eq_refl (conj eq_refl _)).
    assert (G : (3 <= i)%Z).
    { rewrite Ht, mb_eq in Hday by assumption. unfold len4 in Hday. rewrite L4 in Hday.
      destruct (month_cases i Hi) as [K|[K|[K|[K|[K|[K|[K|[K|[K|[K|[K|K]]]]]]]]]]]; subst i; cbn in Hday; lia. }
    split.
    + split; [exact Hi|]. cbn [d_year d_month d_day]. unfold len4 in Hday. unfold month_length.
      rewrite (proj2 (Z.eqb_neq i 2) ltac:(lia)) in *. exact Hday.
    + rewrite doy_eq, NL by assumption. rewrite Ht. unfold months_before. rewrite (proj2 (Z.leb_gt i 2)) by lia. ring.
Qed.
Print Assumptions C23_common_century_years.

(** The unsigned subtraction inside never underflows, for any year and day number. *)
Theorem C23_no_underflow :
  forall (y dayofyr : Z), (0 <= dayofyr)%Z -> (snd (month_loop dayofyr (lmonth y) 1 0) <= dayofyr)%Z.
Proof.
  intros y D H. destruct (month_loop D (lmonth y) 1 0) as [i t] eqn:E.
  destruct (month_loop_spec _ _ _ _ E) as (_ & _ & K & _). cbn. specialize (K H). lia.
Qed.
Print Assumptions C23_no_underflow.

(** Non-vacuity: 29 February 2024 at noon. *)
Example C23_example :
  year_length 2024 = 366%Z /\ day_of_year 2024 2 29 = 60%Z /\ (2100 mod 100 = 0)%Z /\ (2100 mod 400 <> 0)%Z /\
  let r := days2mdhms (FO := B64Ops the_libm) 2024 (L (FO := B64Ops the_libm) 605 1) in
  (feq (mh_month r) (L (FO := B64Ops the_libm) 2 0), feq (mh_day r) (L (FO := B64Ops the_libm) 29 0),
   feq (mh_hour r) (L (FO := B64Ops the_libm) 12 0)) = (true, true, true).
Proof. refine (conj eq_refl (conj eq_refl (conj eq_refl (conj _ _)))); [discriminate|vm_compute; reflexivity]. Qed.
