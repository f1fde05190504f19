(** * Machine integers: src/ext.rs and src/io.rs with the integer types and the indexing of the source

    Model/Ext.v and Model/Io.v compute on unbounded integers and walk along lists.  Here the same functions are
    written as the source has them: every integer addition and subtraction is checked against the range of its type
    (an overflow is a panic, as in a debug build; a release build would wrap), and every [v[i]] is a checked access.
    Props/C73.v proves that the two agree.  The counters of the loops with a constant bound (Kepler's equation, latitude
    iteration, the two passes of dscom) need no such check. *)
From Coq Require Import ZArith Bool List String.
From Verif.Model Require Import Float Str Satrec Constants Ext Sgp4init Io.
Import ListNotations.
Local Open Scope Z_scope.

(** result of an operation on u64 (usize on a 64-bit platform), and on i64 *)
Definition u64 (z : Z) : outcome Z := if (0 <=? z) && (z <=? 18446744073709551615) then Done z else Panic.
Definition i64 (z : Z) : outcome Z := if (- 9223372036854775808 <=? z) && (z <=? 9223372036854775807) then Done z else Panic.
(** [v[i]] for an index of type usize *)
Definition at_index {A} (v : list A) (i : Z) : outcome A := match nth_error v (Z.to_nat i) with Some x => Done x | None => Panic end.

Section Machine.
Context {F : Type} {FO : FloatOps F}.

(** The loop ext.rs:56-62, with its index into the table; [n] bounds the iterations. *)
Fixpoint month_steps (n : nat) (dayofyr : Z) (table : list Z) (i inttemp : Z) : outcome (Z * Z) :=
  match n with
  | O => NoFuel
  | S n' =>
      do! k <- u64 (i - 1);
      do! m <- at_index table k;
      do! s <- u64 (inttemp + m);
      if (s <? dayofyr) && (i <? 12) then
        do! k <- u64 (i - 1);
        do! m <- at_index table k;
        do! inttemp' <- u64 (inttemp + m);
        do! i' <- u64 (i + 1);
        month_steps n' dayofyr table i' inttemp'
      else Done (i, inttemp)
  end.

(** days2mdhms, ext.rs:48-79 *)
Definition days2mdhms_u64 (n : nat) (year : Z) (days : F) : outcome (MDHMS F) :=
  let table := if year mod 4 =? 0 then [31; 29; 31; 30; 31; 30; 31; 31; 30; 31; 30; 31]
               else [31; 28; 31; 30; 31; 30; 31; 31; 30; 31; 30; 31] in
  let dayofyr := ftoU64 (ffloor days) in
  do! (i, inttemp) <- month_steps n dayofyr table 1 0;
  do! day <- u64 (dayofyr - inttemp);
  let month := fofZ i in
  let temp := ((days - fofZ dayofyr) * (L 24 0))%f in
  let hour := ffloor temp in
  let temp := ((temp - hour) * (L 60 0))%f in
  let minute := ffloor temp in
  let second := ((temp - minute) * (L 60 0))%f in
  Done (MkMDHMS month (fofZ day) hour minute second).

(** The epoch in parse_satrec, io.rs:413-430: the year is an i64, cast to u64 for days2mdhms. *)
Definition epoch_i64 (n : nat) (epochyr : Z) (epochdays : F) : outcome F :=
  do! year <- i64 (if epochyr <? 57 then epochyr + 2000 else epochyr + 1900);
  do! jd <- days2mdhms_u64 n (as_u64 year) epochdays;
  Done (jday (fofZ year) (mh_month jd) (mh_day jd) (mh_hour jd) (mh_minute jd) (mh_second jd) (L 0 0)).

(** parse_satrec, io.rs:362-453.  The epoch is the only part with integer arithmetic: the other fields are
    those of [make_satrec]. *)
Definition parse_satrec_i64 (n : nat) (str1 str2 : str) : outcome (result (Satrec F) SatrecParseError) :=
  try! l1 <- parse_line1 str1;
  try! l2 <- parse_line2 str2;
  do! jdsatepoch <- epoch_i64 n (l1_epochyr l1) (l1_epochdays l1);
  Done (Ok (set_jdsatepoch jdsatepoch (make_satrec l1 l2))).

(** twoline2satrec, io.rs:311-334 *)
Definition twoline2satrec_i64 (n fuel : nat) (str1 str2 : str) : outcome (result (Satrec F) SatrecParseError) :=
  try! satrec <- parse_satrec_i64 n str1 str2;
  do! (satrec, res) <- sgp4init fuel satrec (tle_options satrec);
  match res with
  | Ok _ => Done (Ok satrec)
  | Err err => Done (Err (Sgp4InitError err))
  end.

(** The loop of parse_multiple, io.rs:237-268, with its index into the lines; [n] bounds the iterations. *)
Fixpoint multi_steps (n fuel : nat) (lines : list str) (i : Z)
    (recs : list (Satrec F)) (errors : list SatrecParseError)
  : outcome (list (Satrec F) * list SatrecParseError) :=
  let len := Z.of_nat (List.length lines) in
  match n with
  | O => NoFuel
  | S n' =>
      if i <? len then
        do! l <- at_index lines i;
        do! named <- (if negb (Nat.eqb (blen (trim l)) 25) then do! j <- u64 (i + 2); Done (j <? len) else Done false);
        if (named : bool) then
          do! j1 <- u64 (i + 1); do! a <- at_index lines j1;
          do! j2 <- u64 (i + 2); do! b <- at_index lines j2;
          do! r <- twoline2satrec_i64 12 fuel a b;
          match r with
          | Ok rec =>
              do! name <- multi_name l;
              do! i' <- u64 (i + 3);
              multi_steps n' fuel lines i' (set_name (Some name) rec :: recs) errors
          | Err err =>
              do! i' <- u64 (i + 3);
              multi_steps n' fuel lines i' recs (SatrecMultiError (Z.to_nat i) err :: errors)
          end
        else
          do! j <- u64 (i + 1);
          if j <? len then
            do! b <- at_index lines j;
            do! r <- twoline2satrec_i64 12 fuel l b;
            match r with
            | Ok rec => do! i' <- u64 (i + 2); multi_steps n' fuel lines i' (rec :: recs) errors
            | Err err => do! i' <- u64 (i + 2); multi_steps n' fuel lines i' recs (SatrecMultiError (Z.to_nat i) err :: errors)
            end
          else
            do! i' <- u64 (i + 1);
            multi_steps n' fuel lines i' recs (SatrecMultiError (Z.to_nat i) InvalidTLEBadLineCount :: errors)
      else Done (rev recs, rev errors)
  end.

(** parse_multiple, io.rs:233-271 *)
Definition parse_multiple_usize (n fuel : nat) (string : str) : outcome (list (Satrec F) * list SatrecParseError) :=
  multi_steps n fuel (text_lines string) 0 [] [].
End Machine.
