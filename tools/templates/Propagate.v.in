(** * src/propogation/mod.rs and gstime_datetime (gstime.rs:24-27) *)
From Coq Require Import ZArith.
From Verif.Model Require Import Float Str Satrec Constants Vec3 Ext Gstime Sgp4.
Local Open Scope Z_scope.
Local Open Scope f_scope.

Section Propagate.
Context {F : Type} {FO : FloatOps F}.

(** gstime_datetime, gstime.rs:24-27 *)
Definition gstime_datetime (t : DateTime) : F := gstime (jday_datetime t).

(** propogate_datetime, mod.rs:20-34: works on a clone, so the caller's record is not returned. *)
Definition propogate_datetime (fuel : nat) (satrec : Satrec F) (time : DateTime)
  : outcome (result (SGP4Result F) SGP4Error) :=
  let j := jday (fofZ (dt_year time)) (fofZ (dt_month time)) (fofZ (dt_day time))
                (fofZ (dt_hour time)) (fofZ (dt_minute time)) (fofZ (dt_second time)) (fofZ 0) in
  let m := (j - sr_jdsatepoch satrec) * kMINUTES_PER_DAY in
  do! (_, r) <- sgp4 fuel satrec m;
  Done r.
End Propagate.
