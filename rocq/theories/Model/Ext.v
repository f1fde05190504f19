(** * src/ext.rs: calendar and Julian dates *)
From Coq Require Import ZArith List Bool.
From Verif.Model Require Import Float.
Import ListNotations.
Local Open Scope Z_scope.
Local Open Scope f_scope.

Section Ext.
Context {F : Type} {FO : FloatOps F}.

(** ext.rs:4-10 *)
Record MDHMS := MkMDHMS {
  mh_month : F;
  mh_day : F;
  mh_hour : F;
  mh_minute : F;
  mh_second : F
}.

(** Days per month, ext.rs:49-52. *)
Definition lmonth (year : Z) : list Z :=
  [31; if Z.eqb (year mod 4) 0 then 29 else 28; 31; 30; 31; 30; 31; 31; 30; 31; 30; 31]%Z.

(** The loop ext.rs:59-62: [months] is the tail of the table from index i-1; the last month is never
    passed ([i < 12]).  Returns (i, inttemp). *)
Fixpoint month_loop (dayofyr : Z) (months : list Z) (i inttemp : Z) : Z * Z :=
  match months with
  | m :: ((_ :: _) as rest) =>
      if Z.ltb (inttemp + m) dayofyr then month_loop dayofyr rest (i + 1) (inttemp + m)
      else (i, inttemp)
  | _ => (i, inttemp)
  end%Z.

(** days2mdhms, ext.rs:48-79.  [year] is a u64 (the caller's cast has been applied).  The u64
    subtraction [dayofyr - inttemp] cannot underflow: see Proofs/ExtFacts.v. *)
Definition days2mdhms (year : Z) (days : F) : MDHMS :=
  let dayofyr := ftoU64 (ffloor days) in
  let (i, inttemp) := month_loop dayofyr (lmonth year) 1 0 in
  let month := fofZ i in
  let day := fofZ (dayofyr - inttemp)%Z in
  let temp := (days - fofZ dayofyr) * (L 24 0) in
  let hour := ffloor temp in
  let temp := (temp - hour) * (L 60 0) in
  let minute := ffloor temp in
  let second := (temp - minute) * (L 60 0) in
  MkMDHMS month day hour minute second.

(** jday, ext.rs:81-87 *)
Definition jday (year mon day hr minute sec msec : F) : F :=
  ((L 367 0) * year - ffloor ((L 7 0) * (year + ffloor ((mon + (L 9 0)) / (L 12 0))) * (L 25 2)))
  + ffloor ((L 275 0) * mon / (L 9 0))
  + day
  + (L 17210135 1)
  + (((msec / (L 60000 0) + sec / (L 60 0) + minute) / (L 60 0) + hr) / (L 24 0)).

(** A chrono DateTime<Utc> as read by this crate (ext.rs:90-98, mod.rs:19-27): the civil fields it
    exposes, plus the nanosecond field that the crate never reads. *)
Record DateTime := MkDateTime {
  dt_year : Z; dt_month : Z; dt_day : Z; dt_hour : Z; dt_minute : Z; dt_second : Z; dt_nanos : Z }.

(** jday_datetime, ext.rs:89-99 *)
Definition jday_datetime (t : DateTime) : F :=
  jday (fofZ (dt_year t)) (fofZ (dt_month t)) (fofZ (dt_day t)) (fofZ (dt_hour t))
       (fofZ (dt_minute t)) (fofZ (dt_second t)) (fofZ 0).
End Ext.
Arguments MDHMS F : clear implicits.
