(** * Specification of number texts (Rust's documented grammars for f64 and i64); no parser definitions used *)
From Coq Require Import ZArith List Bool.
From Verif.Model Require Import Str.
From Verif.Spec Require Import TextSpec.
Import ListNotations.
Local Open Scope Z_scope.

(** Decimal digits and the value of a digit string. *)
Definition digit (c : Z) : Prop := 48 <= c <= 57.
Definition all_digits (d : str) : Prop := forall c, In c d -> digit c.
Fixpoint value (d : str) : Z :=
  match d with [] => 0 | c :: r => (c - 48) * 10 ^ Z.of_nat (length r) + value r end.

(** Sign ::= [+|-]?  with whether it is a minus. *)
Inductive sign_text : str -> bool -> Prop :=
| no_sign : sign_text [] false
| plus_sign : sign_text [43] false
| minus_sign : sign_text [45] true.
Definition signed (neg : bool) (v : Z) : Z := if neg then - v else v.

(** Digit+ | Digit+ '.' Digit* | Digit* '.' Digit+   denoting m * 10^k *)
Inductive point_text : str -> Z -> Z -> Prop :=
| whole d : d <> [] -> all_digits d -> point_text d (value d) 0
| pointed i f : i ++ f <> [] -> all_digits (i ++ f) -> point_text (i ++ 46 :: f) (value (i ++ f)) (- Z.of_nat (length f)).
(** Exp ::= [e|E] Sign Digit+ *)
Inductive exp_text : str -> Z -> Prop :=
| no_exp : exp_text [] 0
| with_exp e sg neg d : e = 101 \/ e = 69 -> sign_text sg neg -> d <> [] -> all_digits d ->
    exp_text (e :: sg ++ d) (signed neg (value d)).
(** A number: sign, digits, exponent; it denotes (neg) m * 10^k. *)
Inductive number_text : str -> bool -> Z -> Z -> Prop :=
| number sg neg p m k x e : sign_text sg neg -> point_text p m k -> exp_text x e ->
    number_text (sg ++ p ++ x) neg m (k + e).
(** inf, infinity and nan in any case *)
Definition same_letters (x w : str) : Prop := Forall2 (fun c d => c = d \/ c + 32 = d) x w.
Definition word_inf (x : str) : Prop := same_letters x [105;110;102] \/ same_letters x [105;110;102;105;110;105;116;121].
Definition word_nan (x : str) : Prop := same_letters x [110;97;110].

(** Surrounding white space is ignored. *)
Definition padded (x y : str) : Prop := exists a b, x = a ++ y ++ b /\ blank a = true /\ blank b = true.

(** [x] reads as a float: number, infinity or nan, with optional sign. *)
Definition float_text (x : str) : Prop :=
  exists y, padded x y /\
   ((exists neg m k, number_text y neg m k) \/
    (exists sg neg w, y = sg ++ w /\ sign_text sg neg /\ (word_inf w \/ word_nan w))).
(** [x] reads as the 64-bit integer [v]. *)
Definition int_text (x : str) (v : Z) : Prop :=
  exists sg neg d, padded x (sg ++ d) /\ sign_text sg neg /\ d <> [] /\ all_digits d /\
    v = signed neg (value d) /\ - 2 ^ 63 <= v < 2 ^ 63.
