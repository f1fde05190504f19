(** * Rust [&str] and the standard-library text functions the parser uses.

    A string is its list of Unicode scalar values; byte offsets are computed from UTF-8 lengths, so
    slicing [s[lo..hi]] panics exactly when Rust's does (offset out of range or not on a char
    boundary, or lo > hi). Modelled for all strings. *)
From Coq Require Import ZArith Bool List String Ascii.
From Verif.Model Require Import Float.
Import ListNotations.
Local Open Scope Z_scope.

Definition str := list Z.

(** char::len_utf8 *)
Definition len_utf8 (c : Z) : nat :=
  if c <? 128 then 1%nat else if c <? 2048 then 2%nat else if c <? 65536 then 3%nat else 4%nat.

(** str::len (bytes) *)
Fixpoint blen (s : str) : nat :=
  match s with [] => 0%nat | c :: r => (len_utf8 c + blen r)%nat end.

(** First UTF-8 byte of a char: what [s.bytes().collect::<Vec<u8>>()[0]] yields. *)
Definition lead_byte (c : Z) : Z :=
  if c <? 128 then c
  else if c <? 2048 then 192 + c / 64
  else if c <? 65536 then 224 + c / 4096
  else 240 + c / 262144.

(** [s.bytes().collect::<Vec<u8>>()[0]]: panics on the empty string. *)
Definition byte0 (s : str) : outcome Z :=
  match s with [] => Panic | c :: _ => Done (lead_byte c) end.

(** [&s[n..]]: drop n bytes, None unless n is a char boundary <= len. *)
Fixpoint bskip (n : nat) (s : str) : option str :=
  match n with
  | O => Some s
  | S _ => match s with
           | [] => None
           | c :: r => if Nat.leb (len_utf8 c) n then bskip (n - len_utf8 c) r else None
           end
  end.
(** [&s[..n]] *)
Fixpoint btake (n : nat) (s : str) : option str :=
  match n with
  | O => Some []
  | S _ => match s with
           | [] => None
           | c :: r => if Nat.leb (len_utf8 c) n
                       then option_map (cons c) (btake (n - len_utf8 c) r) else None
           end
  end.
(** [&s[lo..hi]] *)
Definition slice (s : str) (lo hi : nat) : outcome str :=
  if Nat.leb lo hi then
    match bskip lo s with
    | Some r => match btake (hi - lo) r with Some x => Done x | None => Panic end
    | None => Panic
    end
  else Panic.
(** [&s[lo..]] *)
Definition slice_from (s : str) (lo : nat) : outcome str :=
  match bskip lo s with Some r => Done r | None => Panic end.

(** char::is_whitespace: the Unicode White_Space property. *)
Definition is_ws (c : Z) : bool :=
  ((9 <=? c) && (c <=? 13)) || (c =? 32) || (c =? 133) || (c =? 160) || (c =? 5760)
  || ((8192 <=? c) && (c <=? 8202)) || (c =? 8232) || (c =? 8233) || (c =? 8239)
  || (c =? 8287) || (c =? 12288).

Fixpoint trim_start (s : str) : str :=
  match s with c :: r => if is_ws c then trim_start r else s | [] => [] end.
(** str::trim *)
Definition trim (s : str) : str := rev (trim_start (rev (trim_start s))).

(** [s.split("\n")] *)
Fixpoint split_nl (s : str) : list str :=
  match s with
  | [] => [[]]
  | c :: r => if c =? 10 then [] :: split_nl r
              else match split_nl r with
                   | x :: xs => (c :: x) :: xs
                   | [] => [[c]]
                   end
  end.

(** [el.trim() != ""] *)
Definition nonblank (s : str) : bool := match trim s with [] => false | _ => true end.

(** ** Numbers *)
Definition is_digit (c : Z) : bool := (48 <=? c) && (c <=? 57).
Definition digit_val (c : Z) : Z := c - 48.

(** maximal run of ASCII digits *)
Fixpoint span_digits (s : str) : str * str :=
  match s with
  | c :: r => if is_digit c then let (d, q) := span_digits r in (c :: d, q) else ([], s)
  | [] => ([], [])
  end.

(** value of a digit string *)
Definition digits_val (d : str) : Z := fold_left (fun acc c => acc * 10 + digit_val c) d 0.

(** str::parse::<i64>: optional sign, at least one digit, nothing else, in range. *)
Definition parse_i64 (s : str) : option Z :=
  let '(neg, body) := match s with
                      | c :: r => if c =? 45 then (true, r) else if c =? 43 then (false, r) else (false, s)
                      | [] => (false, [])
                      end in
  match body with
  | [] => None
  | _ => let (d, rest) := span_digits body in
         match rest with
         | [] => let v := if neg then - digits_val d else digits_val d in
                 if (- 9223372036854775808 <=? v) && (v <=? 9223372036854775807) then Some v else None
         | _ => None
         end
  end.

(** ASCII lower case *)
Definition lower (c : Z) : Z := if (65 <=? c) && (c <=? 90) then c + 32 else c.
Definition str_eqb (a b : str) : bool := if list_eq_dec Z.eq_dec a b then true else false.

(** Exponent part after the mantissa: nothing, or [e|E] [+|-] digits. *)
Definition parse_exp (s : str) : option Z :=
  match s with
  | [] => Some 0
  | c :: r =>
      if (c =? 101) || (c =? 69) then
        let '(neg, body) := match r with
                            | c' :: r' => if c' =? 45 then (true, r') else if c' =? 43 then (false, r') else (false, r)
                            | [] => (false, [])
                            end in
        let (d, rest) := span_digits body in
        match d, rest with
        | _ :: _, [] => Some (if neg then - digits_val d else digits_val d)
        | _, _ => None
        end
      else None
  end.

(** The unsigned decimal number grammar of [core::num::dec2flt] (Rust >= 1.55): digits with an
    optional point, at least one digit in all, optional exponent.  Yields (m, k) for m * 10^k. *)
Definition parse_decimal (s : str) : option (Z * Z) :=
  let (ip, r1) := span_digits s in
  let '(fp, r2) := match r1 with
                   | c :: r => if c =? 46 then span_digits r else ([], r1)
                   | [] => ([], [])
                   end in
  match (ip ++ fp)%list with
  | [] => None
  | ds => match parse_exp r2 with
          | Some e => Some (digits_val ds, e - Z.of_nat (List.length fp))
          | None => None
          end
  end.

Definition s_inf : str := [105;110;102].
Definition s_infinity : str := [105;110;102;105;110;105;116;121].
Definition s_nan : str := [110;97;110].

Section WithF.
Context {F : Type} {FO : FloatOps F}.

Definition parse_f64_unsigned (s : str) : option F :=
  match parse_decimal s with
  | Some (m, k) => Some (flit m k)
  | None => let l := map lower s in
            if str_eqb l s_inf || str_eqb l s_infinity then Some finf
            else if str_eqb l s_nan then Some fnan else None
  end.

(** str::parse::<f64>: optional sign, then a number, inf, infinity or nan (any case). *)
Definition parse_f64 (s : str) : option F :=
  match s with
  | c :: r => if c =? 45 then option_map fneg (parse_f64_unsigned r)
              else if c =? 43 then parse_f64_unsigned r
              else parse_f64_unsigned s
  | [] => None
  end.
End WithF.

(** ** Formatting [i64] with [{}] *)
Fixpoint nat_digits_aux (fuel : nat) (n : Z) (acc : str) : str :=
  match fuel with
  | O => acc
  | S f => if n <? 10 then (48 + n) :: acc
           else nat_digits_aux f (n / 10) ((48 + n mod 10) :: acc)
  end.
(** decimal digits of n >= 0; [fuel] = number of bits + 1 always suffices *)
Definition nat_digits (n : Z) : str := nat_digits_aux (S (Z.to_nat (Z.log2 n))) n [].
Definition show_i64 (n : Z) : str := if n <? 0 then 45 :: nat_digits (- n) else nat_digits n.

(** ** ASCII literals for examples *)
Fixpoint of_string (s : string) : str :=
  match s with
  | EmptyString => []
  | String c r => Z.of_nat (nat_of_ascii c) :: of_string r
  end.
