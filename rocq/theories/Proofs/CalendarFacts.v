(** * Facts about the calendar *)
From Coq Require Import ZArith Bool List Lia.
From Verif.Spec Require Import Calendar.
Local Open Scope Z_scope.
Ltac Zify.zify_post_hook ::= Z.to_euclidean_division_equations.

(** month cases *)
Lemma month_cases m : 1 <= m <= 12 ->
  m = 1 \/ m = 2 \/ m = 3 \/ m = 4 \/ m = 5 \/ m = 6 \/ m = 7 \/ m = 8 \/ m = 9 \/ m = 10 \/ m = 11 \/ m = 12.
Proof. lia. Qed.
Ltac months H := destruct (month_cases _ H) as [E|[E|[E|[E|[E|[E|[E|[E|[E|[E|[E|E]]]]]]]]]]]; rewrite ?E in *; clear E; clear H.

(** years counted from March *)
Definition march_year (y m : Z) : Z := if m <=? 2 then y - 1 else y.
(** days in the calendar without century rule, and the century correction *)
Definition jul (y m d : Z) : Z := 367 * y - (7 * (y + (m + 9) / 12)) / 4 + (275 * m) / 9 + d.
Definition cent (y m : Z) : Z := march_year y m / 100 - march_year y m / 400.
Definition num (d : date) : Z := jul (d_year d) (d_month d) (d_day d) - cent (d_year d) (d_month d).

Lemma leap_spec y : leap y = true <-> (y mod 4 = 0 /\ y mod 100 <> 0 \/ y mod 400 = 0).
Proof. unfold leap. rewrite orb_true_iff, andb_true_iff, negb_true_iff, !Z.eqb_eq, Z.eqb_neq. tauto. Qed.

(** 1 January to 1 January *)
Definition jan1 (y : Z) : Z := num (Date y 1 1).
Lemma cent_step y : y / 100 - y / 400 - ((y - 1) / 100 - (y - 1) / 400) = if (y mod 100 =? 0) && negb (y mod 400 =? 0) then 1 else 0.
Proof.
  destruct (y mod 100 =? 0) eqn:A, (y mod 400 =? 0) eqn:B; rewrite ?Z.eqb_eq, ?Z.eqb_neq in *; cbn [andb negb]; lia.
Qed.
Lemma quad_step y : (7 * (y + 1)) / 4 - (7 * y) / 4 = 2 - (if y mod 4 =? 0 then 1 else 0).
Proof. destruct (y mod 4 =? 0) eqn:A; rewrite ?Z.eqb_eq, ?Z.eqb_neq in *; lia. Qed.
Lemma leap_alt y : (if leap y then 1 else 0) = (if y mod 4 =? 0 then 1 else 0) - (if (y mod 100 =? 0) && negb (y mod 400 =? 0) then 1 else 0).
Proof.
  unfold leap. destruct (y mod 4 =? 0) eqn:A, (y mod 100 =? 0) eqn:B, (y mod 400 =? 0) eqn:C; cbn [andb orb negb];
    rewrite ?Z.eqb_eq, ?Z.eqb_neq in *; lia.
Qed.

(** ** Months as values *)
Definition months_before (leap : Z) (m : Z) : Z :=
  if m <=? 2 then 31 * (m - 1) else (275 * m) / 9 - 32 + leap.
Ltac Zify.zify_post_hook ::= idtac.

Lemma num_eq y m d : 1 <= m <= 12 ->
  num (Date y m d) = jan1 y + months_before (if leap y then 1 else 0) m + d - 1.
Proof.
  intros H. unfold jan1, num, cent, jul, march_year, months_before. cbn [d_year d_month d_day].
  pose proof (cent_step y) as C. pose proof (quad_step y) as Q. pose proof (leap_alt y) as L.
  set (lp := if leap y then 1 else 0) in *. clearbody lp.
  set (c4 := if y mod 4 =? 0 then 1 else 0) in *. clearbody c4.
  set (c100 := if (y mod 100 =? 0) && _ then 1 else 0) in *. clearbody c100.
  set (q1 := 7 * (y + 1) / 4) in *. 
  assert (A0 : forall k, k / 12 = 0 -> 7 * (y + k / 12) / 4 = 7 * y / 4) by (intros k ->; f_equal; lia).
  assert (A1 : forall k, k / 12 = 1 -> 7 * (y + k / 12) / 4 = q1) by (intros k ->; reflexivity).
  clearbody q1. set (q0 := 7 * y / 4) in *. clearbody q0.
  rewrite (A0 (1 + 9)) by reflexivity.
  months H; try first [rewrite A0 by reflexivity|rewrite A1 by reflexivity];
    repeat match goal with |- context [275 * ?m / 9] => let x := eval compute in (275 * m / 9) in change (275 * m / 9) with x end;
    cbn [Z.leb Z.compare Pos.compare Pos.compare_cont]; lia.
Qed.

Lemma jan1_step y : jan1 (y + 1) = jan1 y + year_length y.
Proof.
  unfold jan1, num, cent, jul, march_year, year_length. cbn [d_year d_month d_day Z.leb Z.compare Pos.compare Pos.compare_cont].
  change ((1 + 9) / 12) with 0. rewrite !Z.add_0_r. replace (y + 1 - 1) with y by lia.
  pose proof (cent_step y) as C. pose proof (quad_step y) as Q. pose proof (leap_alt y) as L.
  destruct (leap y); lia.
Qed.

(** length of the months *)
Lemma months_before_step y m : 1 <= m < 12 ->
  months_before (if leap y then 1 else 0) (m + 1) = months_before (if leap y then 1 else 0) m + month_length y m.
Proof.
  intros H. unfold months_before, month_length.
  destruct (month_cases m ltac:(lia)) as [E|[E|[E|[E|[E|[E|[E|[E|[E|[E|[E|E]]]]]]]]]]]; subst m; try (exfalso; lia); destruct (leap y); reflexivity.
Qed.
Lemma months_before_end y : months_before (if leap y then 1 else 0) 12 + month_length y 12 = year_length y.
Proof. unfold year_length. destruct (leap y); reflexivity. Qed.
Lemma months_before_1 lp : months_before lp 1 = 0.
Proof. reflexivity. Qed.

Lemma month_length_pos y m : 28 <= month_length y m <= 31.
Proof. unfold month_length. destruct (m =? 2), (leap y), ((m =? 4) || (m =? 6) || (m =? 9) || (m =? 11)); lia. Qed.

Lemma valid_tomorrow d : valid d -> valid (tomorrow d).
Proof.
  destruct d as [y m n]. unfold valid, tomorrow. cbn [d_year d_month d_day]. intros [Hm Hd].
  destruct (Z.ltb_spec n (month_length y m)); [cbn; lia|].
  destruct (Z.ltb_spec m 12); cbn [d_year d_month d_day]; (split; [lia|]).
  - pose proof (month_length_pos y (m + 1)). lia.
  - pose proof (month_length_pos (y + 1) 1). lia.
Qed.
Lemma num_tomorrow d : valid d -> num (tomorrow d) = num d + 1.
Proof.
  destruct d as [y m n]. unfold valid, tomorrow. cbn [d_year d_month d_day]. intros [Hm Hd].
  destruct (Z.ltb_spec n (month_length y m)).
  - rewrite !num_eq by lia. lia.
  - destruct (Z.ltb_spec m 12).
    + rewrite !num_eq by lia. rewrite months_before_step by lia. lia.
    + assert (m = 12) by lia. subst m. rewrite (num_eq (y + 1)) by lia. rewrite (num_eq y) by lia.
      rewrite jan1_step. rewrite months_before_1. pose proof (months_before_end y). lia.
Qed.
Lemma valid_later n d : valid d -> valid (later n d).
Proof. induction n; cbn; auto using valid_tomorrow. Qed.
Lemma num_later n d : valid d -> num (later n d) = num d + Z.of_nat n.
Proof. intros H. induction n; cbn [later]; [lia|]. rewrite num_tomorrow by (now apply valid_later). lia. Qed.

Lemma num_days_from a b n : valid a -> valid b -> days_from a b n -> num b = num a + n.
Proof.
  intros Ha Hb [[H <-]|[H <-]].
  - rewrite num_later by assumption. lia.
  - rewrite num_later by assumption. lia.
Qed.

(** ** Injectivity *)
Lemma months_before_range y m : 1 <= m <= 12 ->
  0 <= months_before (if leap y then 1 else 0) m /\
  months_before (if leap y then 1 else 0) m + month_length y m <= year_length y.
Proof.
  intros H. unfold months_before, month_length, year_length.
  destruct (month_cases m ltac:(lia)) as [E|[E|[E|[E|[E|[E|[E|[E|[E|[E|[E|E]]]]]]]]]]]; subst m; destruct (leap y); cbn; lia.
Qed.
Lemma months_before_mono y m m' : 1 <= m -> m < m' -> m' <= 12 ->
  months_before (if leap y then 1 else 0) m + month_length y m <= months_before (if leap y then 1 else 0) m'.
Proof.
  intros H1 H2 H3. assert (E : exists k, m' = m + 1 + Z.of_nat k) by (exists (Z.to_nat (m' - m - 1)); lia).
  destruct E as [k ->]. clear H2. induction k as [|k IH].
  - rewrite Z.add_0_r. rewrite months_before_step by lia. lia.
  - replace (m + 1 + Z.of_nat (S k)) with (m + 1 + Z.of_nat k + 1) in * by lia. rewrite months_before_step by lia.
    pose proof (month_length_pos y (m + 1 + Z.of_nat k)). specialize (IH ltac:(lia)). lia.
Qed.
Lemma jan1_mono y k : jan1 y + 365 * Z.of_nat k <= jan1 (y + Z.of_nat k).
Proof.
  induction k as [|k IH]; [replace (y + Z.of_nat 0) with y by lia; lia|].
  replace (y + Z.of_nat (S k)) with (y + Z.of_nat k + 1) by lia. rewrite jan1_step. unfold year_length.
  destruct (leap _); lia.
Qed.
Lemma num_year y m d : 1 <= m <= 12 -> 1 <= d <= month_length y m -> jan1 y <= num (Date y m d) < jan1 (y + 1).
Proof. intros Hm Hd. rewrite num_eq, jan1_step by assumption. pose proof (months_before_range y m Hm). lia. Qed.

Lemma num_lt a b : valid a -> valid b -> before a b -> a <> b -> num a < num b.
Proof.
  destruct a as [y m d], b as [y' m' d']. unfold valid, before. cbn [d_year d_month d_day].
  intros [Ha1 Ha2] [Hb1 Hb2] HB HN.
  pose proof (num_year y m d Ha1 Ha2). pose proof (num_year y' m' d' Hb1 Hb2).
  destruct HB as [HB|[<- HB]].
  - pose proof (jan1_mono (y + 1) (Z.to_nat (y' - (y + 1)))) as M.
    replace (y + 1 + Z.of_nat (Z.to_nat (y' - (y + 1)))) with y' in M by lia. lia.
  - rewrite !num_eq by assumption. destruct HB as [HB|[<- HB]].
    + pose proof (months_before_mono y m m' ltac:(lia) HB ltac:(lia)). lia.
    + assert (d <> d') by congruence. lia.
Qed.
Lemma before_total a b : before a b \/ before b a.
Proof. unfold before. lia. Qed.
Lemma date_dec (a b : date) : {a = b} + {a <> b}.
Proof. decide equality; apply Z.eq_dec. Qed.
Lemma num_inj a b : valid a -> valid b -> num a = num b -> a = b.
Proof.
  intros Ha Hb E. destruct (date_dec a b) as [|N]; [assumption|exfalso].
  destruct (before_total a b) as [B|B].
  - pose proof (num_lt a b Ha Hb B N). lia.
  - pose proof (num_lt b a Hb Ha B ltac:(congruence)). lia.
Qed.
Lemma num_le a b : valid a -> valid b -> before a b -> num a <= num b.
Proof.
  intros Ha Hb B. destruct (date_dec a b) as [->|N]; [lia|]. pose proof (num_lt a b Ha Hb B N). lia.
Qed.

(** Any two valid dates are a unique number of days apart. *)
Lemma days_from_iff a b n : valid a -> valid b -> days_from a b n <-> n = num b - num a.
Proof.
  intros Ha Hb. split; [intros H; pose proof (num_days_from a b n Ha Hb H); lia|].
  intros ->. unfold days_from. destruct (Z.le_ge_cases 0 (num b - num a)); [left|right]; (split; [lia|]);
    apply num_inj; try assumption; try (now apply valid_later); rewrite num_later by assumption; lia.
Qed.

(** day of the year *)
Lemma doy_eq y m d : 1 <= m <= 12 -> day_of_year y m d = months_before (if leap y then 1 else 0) m + d.
Proof.
  intros H. unfold day_of_year, months_before, month_length.
  destruct (month_cases m ltac:(lia)) as [E|[E|[E|[E|[E|[E|[E|[E|[E|[E|[E|E]]]]]]]]]]]; subst m; destruct (leap y); reflexivity.
Qed.
