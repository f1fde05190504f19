(** * The Gregorian calendar, by its rules

    Dates are counted one day at a time: [tomorrow] applies the rules of the calendar, [days_from]
    says how many days lie between two dates. *)
From Coq Require Import ZArith Bool List.
Local Open Scope Z_scope.

Definition leap (y : Z) : bool := (y mod 4 =? 0) && negb (y mod 100 =? 0) || (y mod 400 =? 0).

Definition month_length (y m : Z) : Z :=
  if m =? 2 then (if leap y then 29 else 28)
  else if (m =? 4) || (m =? 6) || (m =? 9) || (m =? 11) then 30 else 31.

Definition year_length (y : Z) : Z := if leap y then 366 else 365.

Record date := Date { d_year : Z; d_month : Z; d_day : Z }.
Definition valid (d : date) : Prop :=
  1 <= d_month d <= 12 /\ 1 <= d_day d <= month_length (d_year d) (d_month d).

Definition tomorrow (d : date) : date :=
  let (y, m, n) := d in
  if n <? month_length y m then Date y m (n + 1)
  else if m <? 12 then Date y (m + 1) 1
  else Date (y + 1) 1 1.

Fixpoint later (n : nat) (d : date) : date := match n with O => d | S k => tomorrow (later k d) end.

(** [b] is [n] days after [a] ([n] negative: before). *)
Definition days_from (a b : date) (n : Z) : Prop :=
  0 <= n /\ later (Z.to_nat n) a = b \/ n <= 0 /\ later (Z.to_nat (- n)) b = a.

(** Date order. *)
Definition before (a b : date) : Prop :=
  d_year a < d_year b \/ d_year a = d_year b /\
  (d_month a < d_month b \/ d_month a = d_month b /\ d_day a <= d_day b).

(** Number of the day in its year, 1 January = 1. *)
Definition day_of_year (y m d : Z) : Z :=
  fold_right Z.add 0 (map (fun k => month_length y (Z.of_nat k)) (seq 1 (Z.to_nat (m - 1)))) + d.
