(** * src/io.rs: parsing of element sets *)
From Coq Require Import ZArith List Bool String Ascii.
From Verif.Model Require Import Float Str Satrec Constants Vec3 Ext Initl Dscom Dpper Dsinit Dspace Sgp4 Sgp4init.
Import ListNotations.
Local Open Scope Z_scope.
Local Open Scope f_scope.

Section Io.
Context {F : Type} {FO : FloatOps F}.

(** io.rs:337-345.  The field names carried by the errors are the Rust string literals. *)
Inductive SatrecParseError :=
| FloatParseError (name : string) (low high : nat) (text : str)
| IntParseError (name : string) (low high : nat) (text : str)
| CompoundError (name : string) (text : str)
| Sgp4InitError (e : SGP4Error)
| InvalidTLELineCheckFailed
| InvalidTLEBadLineCount
| SatrecMultiError (i : nat) (e : SatrecParseError).

(** parse_float, io.rs:348-353 (a failure is reported as IntParseError) *)
Definition parse_float (line : str) (name : string) (low high : nat)
  : outcome (result F SatrecParseError) :=
  do! x <- slice line low high;
  match parse_f64 (trim x) with
  | Some v => Done (Ok v)
  | None => Done (Err (IntParseError name low high x))
  end.

(** parse_int, io.rs:355-360 *)
Definition parse_int (line : str) (name : string) (low high : nat)
  : outcome (result Z SatrecParseError) :=
  do! x <- slice line low high;
  match parse_i64 (trim x) with
  | Some v => Done (Ok v)
  | None => Done (Err (IntParseError name low high x))
  end.

(** A plain slice used with [?]-returning code: cannot fail except by panicking. *)
Definition sliceR (line : str) (low high : nat) : outcome (result str SatrecParseError) :=
  do! x <- slice line low high; Done (Ok x).

(** Line 1, io.rs:364-392: satnum, epoch year and day, ndot, nddot, bstar. *)
Record Line1 := MkLine1 {
  l1_satnum : str; l1_epochyr : Z; l1_epochdays : F; l1_ndot : F; l1_nddot : F; l1_bstar : F }.

(** io.rs:374-381 *)
Definition parse_nddot (str1 : str) : outcome (result F SatrecParseError) :=
  try! nddot_0 <- parse_int str1 "nndot frac" 44 50;
  try! nddot_1 <- sliceR str1 50 52;
  let nndot_str := (46 :: show_i64 nddot_0 ++ 69 :: nddot_1)%Z in   (* format!(".{}E{}") *)
  match parse_f64 nndot_str with
  | Some res => Done (Ok (res / (kXPDOTP * (L 1440 0) * (L 1440 0))))
  | None => Done (Err (CompoundError "nndot" nndot_str))
  end.

(** io.rs:384-392 *)
Definition parse_bstar (str1 : str) : outcome (result F SatrecParseError) :=
  try! bstar_0 <- sliceR str1 53 54;
  try! bstar_1 <- parse_int str1 "bstar frac" 54 59;
  try! bstar_2 <- sliceR str1 59 61;
  let bstar_str := (bstar_0 ++ 46 :: show_i64 bstar_1 ++ 69 :: bstar_2)%Z in  (* format!("{}.{}E{}") *)
  match parse_f64 (trim bstar_str) with
  | Some res => Done (Ok res)
  | None => Done (Err (CompoundError "bstr" bstar_str))
  end.

Definition parse_line1 (str1 : str) : outcome (result Line1 SatrecParseError) :=
  try! satnum <- sliceR str1 2 7;
  try! epochyr <- parse_int str1 "epochyr" 18 20;
  try! epochdays <- parse_float str1 "epochdays" 20 32;
  try! ndot <- parse_float str1 "ndot" 33 43;
  try! nddot <- parse_nddot str1;
  try! bstar <- parse_bstar str1;
  Done (Ok (MkLine1 (trim satnum) epochyr epochdays (ndot / (kXPDOTP * (L 1440 0))) nddot bstar)).

(** Line 2, io.rs:394-406: the six elements. *)
Record Line2 := MkLine2 {
  l2_inclo : F; l2_nodeo : F; l2_ecco : F; l2_argpo : F; l2_mo : F; l2_no : F }.

(** io.rs:398-402 *)
Definition parse_ecco (str2 : str) : outcome (result F SatrecParseError) :=
  try! x <- sliceR str2 26 33;
  let ecco_str := (46 :: trim x)%Z in   (* format!(".{}") *)
  match parse_f64 (trim ecco_str) with
  | Some res => Done (Ok res)
  | None => Done (Err (CompoundError "ecco" ecco_str))
  end.

Definition parse_line2 (str2 : str) : outcome (result Line2 SatrecParseError) :=
  try! inclo <- parse_float str2 "inclo" 8 16;
  try! nodeo <- parse_float str2 "nodeo" 17 25;
  try! ecco <- parse_ecco str2;
  try! argpo <- parse_float str2 "argpo" 34 42;
  try! mo <- parse_float str2 "mo" 43 51;
  try! no <- parse_float str2 "no" 52 63;
  Done (Ok (MkLine2 (inclo * kDEG_2_RAD) (nodeo * kDEG_2_RAD) ecco (argpo * kDEG_2_RAD)
                    (mo * kDEG_2_RAD) (no / kXPDOTP))).

(** [year as u64] for an i64 *)
Definition as_u64 (z : Z) : Z := (z mod 18446744073709551616)%Z.

(** The epoch, io.rs:413-430. *)
Definition tle_year (epochyr : Z) : Z := if Z.ltb epochyr 57 then (epochyr + 2000)%Z else (epochyr + 1900)%Z.
Definition tle_jdsatepoch (epochyr : Z) (epochdays : F) : F :=
  let year := tle_year epochyr in
  let jd := days2mdhms (as_u64 year) epochdays in
  jday (fofZ year) (mh_month jd) (mh_day jd) (mh_hour jd) (mh_minute jd) (mh_second jd) (L 0 0).

(** The record built from the two lines, io.rs:408-452. *)
Definition make_satrec (l1 : Line1) (l2 : Line2) : Satrec F :=
  let ecco := l2_ecco l2 in
  let no := l2_no l2 in
  let a := fpow (no * kTUMIN) ((- (L 2 0)) / (L 3 0)) in
  let alta := a * ((L 1 0) + ecco) - (L 1 0) in
  let altp := a * ((L 1 0) - ecco) - (L 1 0) in
  let jdsatepoch := tle_jdsatepoch (l1_epochyr l1) (l1_epochdays l1) in
  let s := satrec_zero in
  let s := set_operationmode OpsI s in
  let s := set_satnum (l1_satnum l1) s in
  let s := set_epochyr (l1_epochyr l1) s in
  let s := set_epochdays (l1_epochdays l1) s in
  let s := set_ndot (l1_ndot l1) s in
  let s := set_nddot (l1_nddot l1) s in
  let s := set_bstar (l1_bstar l1) s in
  let s := set_inclo (l2_inclo l2) s in
  let s := set_nodeo (l2_nodeo l2) s in
  let s := set_ecco ecco s in
  let s := set_argpo (l2_argpo l2) s in
  let s := set_mo (l2_mo l2) s in
  let s := set_no no s in
  let s := set_a a s in
  let s := set_alta alta s in
  let s := set_altp altp s in
  set_jdsatepoch jdsatepoch s.

(** parse_satrec, io.rs:362-453 *)
Definition parse_satrec (str1 str2 : str) : outcome (result (Satrec F) SatrecParseError) :=
  try! l1 <- parse_line1 str1;
  try! l2 <- parse_line2 str2;
  Done (Ok (make_satrec l1 l2)).

(** Options passed to sgp4init by twoline2satrec, io.rs:314-326. *)
Definition tle_options (s : Satrec F) : SGP4InitOptions F :=
  MkSGP4InitOptions OpsI (sr_satnum s) (sr_jdsatepoch s - (L 24332815 1)) (sr_bstar s) (sr_ecco s)
    (sr_argpo s) (sr_inclo s) (sr_mo s) (sr_no s) (sr_nodeo s).

(** twoline2satrec, io.rs:311-334 *)
Definition twoline2satrec (fuel : nat) (str1 str2 : str) : outcome (result (Satrec F) SatrecParseError) :=
  try! satrec <- parse_satrec str1 str2;
  do! (satrec, res) <- sgp4init fuel satrec (tle_options satrec);
  match res with
  | Ok _ => Done (Ok satrec)
  | Err err => Done (Err (Sgp4InitError err))
  end.

(** Lines kept by parse and parse_multiple, io.rs:234 and 274. *)
Definition text_lines (string : str) : list str := filter nonblank (split_nl string).

(** [lines[i].bytes()...[0] == b as u8] *)
Definition starts_with_byte (b : Z) (l : str) : outcome bool :=
  do! x <- byte0 l; Done (Z.eqb x b).

(** Name of a 3-line set in [parse], io.rs:289-293. *)
Definition parse_name (l : str) : outcome str :=
  do! z <- starts_with_byte 48 l;
  if (z : bool) then slice_from l 2 else Done l.

(** The first-character test, io.rs:279 and 301 ([||] short-circuits). *)
Definition line_check (l1 l2 : str) : outcome bool :=
  do! a <- starts_with_byte 49 l1;
  if negb a then Done false else starts_with_byte 50 l2.

(** parse, io.rs:273-309 *)
Definition parse (fuel : nat) (string : str) : outcome (result (Satrec F) SatrecParseError) :=
  match text_lines string with
  | [l0; l1; l2] =>
      do! ok <- line_check l1 l2;
      if negb ok then Done (Err InvalidTLELineCheckFailed) else
      try! satrec <- twoline2satrec fuel l1 l2;
      do! name <- parse_name l0;
      Done (Ok (set_name (Some name) satrec))
  | [l0; l1] =>
      do! ok <- line_check l0 l1;
      if negb ok then Done (Err InvalidTLELineCheckFailed) else twoline2satrec fuel l0 l1
  | _ => Done (Err InvalidTLEBadLineCount)
  end.

(** Name of a 3-line set in [parse_multiple], io.rs:243-247. *)
Definition multi_name (l : str) : outcome str :=
  do! z <- starts_with_byte 48 l;
  if (z : bool) then do! r <- slice_from l 2; Done (trim r) else Done (trim l).

(** The test io.rs:240 (first half). *)
Definition not25 (l : str) : bool := negb (Nat.eqb (blen (trim l)) 25).

(** The loop io.rs:238-268 on the lines from index [i] on; [n] bounds the iterations (each consumes
    at least one line, so the number of lines suffices).  Results are accumulated in reverse. *)
Fixpoint multi_loop (n fuel : nat) (i : nat) (lines : list str)
    (recs : list (Satrec F)) (errors : list SatrecParseError)
  : outcome (list (Satrec F) * list SatrecParseError) :=
  match n with
  | O => match lines with [] => Done (rev recs, rev errors) | _ => NoFuel end
  | S n' =>
      match lines with
      | [] => Done (rev recs, rev errors)
      | l0 :: rest0 =>
          match rest0 with
          | [] => multi_loop n' fuel (i + 1) [] recs (SatrecMultiError i InvalidTLEBadLineCount :: errors)
          | l1 :: rest1 =>
              match rest1 with
              | l2 :: rest2 =>
                  if not25 l0 then
                    do! r <- twoline2satrec fuel l1 l2;
                    match r with
                    | Ok rec =>
                        do! name <- multi_name l0;
                        multi_loop n' fuel (i + 3) rest2 (set_name (Some name) rec :: recs) errors
                    | Err err => multi_loop n' fuel (i + 3) rest2 recs (SatrecMultiError i err :: errors)
                    end
                  else
                    do! r <- twoline2satrec fuel l0 l1;
                    match r with
                    | Ok rec => multi_loop n' fuel (i + 2) rest1 (rec :: recs) errors
                    | Err err => multi_loop n' fuel (i + 2) rest1 recs (SatrecMultiError i err :: errors)
                    end
              | [] =>
                  do! r <- twoline2satrec fuel l0 l1;
                  match r with
                  | Ok rec => multi_loop n' fuel (i + 2) rest1 (rec :: recs) errors
                  | Err err => multi_loop n' fuel (i + 2) rest1 recs (SatrecMultiError i err :: errors)
                  end
              end
          end
      end
  end%nat.

(** parse_multiple, io.rs:233-271 *)
Definition parse_multiple (fuel : nat) (string : str) : outcome (list (Satrec F) * list SatrecParseError) :=
  let lines := text_lines string in
  multi_loop (List.length lines) fuel 0 lines [] [].
End Io.
