(** * What a pair of element lines says, column by column (no parser definitions used) *)
From Coq Require Import ZArith List Bool.
From Verif.Model Require Import Str.
From Verif.Spec Require Import TextSpec NumText.
Import ListNotations.
Local Open Scope Z_scope.

(** The number [±man * 10^exp]. *)
Record decimal := Dec { d_neg : bool; d_man : Z; d_exp : Z }.

(** Columns [lo..hi) hold the ordinary decimal number [d] (blanks around it allowed). *)
Definition reads (line : str) (lo hi : nat) (d : decimal) : Prop :=
  exists x y, columns line lo hi x /\ padded x y /\ number_text y (d_neg d) (d_man d) (d_exp d).
(** Columns [lo..hi) hold the integer [v]. *)
Definition reads_int (line : str) (lo hi : nat) (v : Z) : Prop :=
  exists x, columns line lo hi x /\ int_text x v.
(** A sign column: blank, plus or minus. *)
Inductive sign_column : str -> bool -> Prop :=
| blank_column : sign_column [32] false
| signed_column sg neg : sg <> [] -> sign_text sg neg -> sign_column sg neg.
(** Exponent columns: sign and digit(s). *)
Definition exponent (ex : str) (e : Z) : Prop :=
  exists sg neg d, ex = sg ++ d /\ sign_text sg neg /\ d <> [] /\ all_digits d /\ e = signed neg (value d).
(** Sign in [s..m), mantissa digits with an assumed leading point in [m..e), exponent in [e..hi):
    the number [±0.mant * 10^ex]. *)
Definition reads_power (line : str) (s m e hi : nat) (mant : str) (d : decimal) : Prop :=
  exists sg neg ex x, columns line s m sg /\ columns line m e mant /\ columns line e hi ex /\
    sign_column sg neg /\ mant <> [] /\ all_digits mant /\ exponent ex x /\
    d = Dec neg (value mant) (x - Z.of_nat (length mant)).
(** The digits after an assumed leading point. *)
Definition reads_fraction (line : str) (lo hi : nat) (d : decimal) : Prop :=
  exists x y, columns line lo hi x /\ padded x y /\ y <> [] /\ all_digits y /\ d = Dec false (value y) (- Z.of_nat (length y)).
(** No leading zero, except in a mantissa of zeros. *)
Definition normal (mant : str) : Prop := value mant = 0 \/ forall c r, mant = c :: r -> c <> 48.

(** An element set. *)
Record tle := Tle {
  t_satnum : str; t_year : Z; t_day : decimal; t_ndot : decimal; t_nddot : decimal; t_bstar : decimal;
  t_incl : decimal; t_node : decimal; t_ecc : decimal; t_argp : decimal; t_anomaly : decimal; t_motion : decimal }.
(** The lines carry the set [t] in the standard columns; [m1], [m2] are the mantissas of the two
    power fields. *)
Definition carries (l1 l2 : str) (t : tle) (m1 m2 : str) : Prop :=
  (exists x, columns l1 2 7 x /\ padded x (t_satnum t) /\ (forall c, In c (t_satnum t) -> white c = false)) /\
  reads_int l1 18 20 (t_year t) /\ reads l1 20 32 (t_day t) /\ reads l1 33 43 (t_ndot t) /\
  reads_power l1 44 45 50 52 m1 (t_nddot t) /\ reads_power l1 53 54 59 61 m2 (t_bstar t) /\
  reads l2 8 16 (t_incl t) /\ reads l2 17 25 (t_node t) /\ reads_fraction l2 26 33 (t_ecc t) /\
  reads l2 34 42 (t_argp t) /\ reads l2 43 51 (t_anomaly t) /\ reads l2 52 63 (t_motion t).
