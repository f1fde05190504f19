(** * The abstract [f64] interface.

    The model is written once over any type [F] with the operations the Rust code uses on [f64].
    No law is assumed here: a theorem stated "for every [FloatOps]" holds whatever the arithmetic,
    in particular for IEEE-754 binary64 with any libm (theories/Inst/B64.v) and for the exact reals
    (theories/Inst/RInst.v). *)
From Coq Require Import ZArith Bool List.

Class FloatOps (F : Type) := {
  (* operators  + - * / %  and unary minus on f64 *)
  fadd : F -> F -> F;
  fsub : F -> F -> F;
  fmul : F -> F -> F;
  fdiv : F -> F -> F;
  frem : F -> F -> F;
  fneg : F -> F;
  (* f64::abs, f64::floor, f64::sqrt *)
  fabs : F -> F;
  ffloor : F -> F;
  fsqrt : F -> F;
  (* f64::sin, cos, asin, atan2, powf, powi *)
  fsin : F -> F;
  fcos : F -> F;
  fasin : F -> F;
  fatan2 : F -> F -> F;      (* [fatan2 y x] is [y.atan2(x)] *)
  fpow : F -> F -> F;        (* [fpow x y] is [x.powf(y)] *)
  fpowi : F -> Z -> F;       (* [fpowi x n] is [x.powi(n)] *)
  (* comparisons  <  <=  ==  ([>] and [>=] are these with swapped arguments) *)
  flt : F -> F -> bool;
  fle : F -> F -> bool;
  feq : F -> F -> bool;
  (* [flit m k]: the f64 nearest to the decimal  m * 10^k  (m >= 0), as a source literal or as
     the result of [str::parse::<f64>] on an unsigned number *)
  flit : Z -> Z -> F;
  (* [f64::INFINITY] and [f64::NAN], only produced by [str::parse::<f64>] *)
  finf : F;
  fnan : F;
  (* integer as f64 (i64/u64/u32/i32), and f64 as u64 (saturating, NaN -> 0) *)
  fofZ : Z -> F;
  ftoU64 : F -> Z;
  (* std::f64::consts::PI, FRAC_PI_2 *)
  fpi : F;
  fpi2 : F
}.

(** Decimal source literals: [L m k] is [m * 10^-k]. *)
Definition L {F} {FO : FloatOps F} (m : Z) (k : Z) : F := flit m (- k).

Declare Scope f_scope.
Delimit Scope f_scope with f.
Notation "x + y" := (fadd x y) : f_scope.
Notation "x - y" := (fsub x y) : f_scope.
Notation "x * y" := (fmul x y) : f_scope.
Notation "x / y" := (fdiv x y) : f_scope.
Notation "x %% y" := (frem x y) (at level 40, left associativity) : f_scope.
Notation "- x" := (fneg x) : f_scope.
Notation "x <? y" := (flt x y) : f_scope.
Notation "x <=? y" := (fle x y) : f_scope.
Notation "x =? y" := (feq x y) : f_scope.

(** ** Outcomes *)

(** Rust [Result]. *)
Inductive result (A E : Type) := Ok (a : A) | Err (e : E).
Arguments Ok {A E} a.
Arguments Err {A E} e.

(** A computation returns, panics, or (loops with a data-dependent bound only) has not finished
    within the given number of iterations. *)
Inductive outcome (A : Type) := Done (a : A) | Panic | NoFuel.
Arguments Done {A} a.
Arguments Panic {A}.
Arguments NoFuel {A}.

Definition bindO {A B} (x : outcome A) (k : A -> outcome B) : outcome B :=
  match x with Done a => k a | Panic => Panic | NoFuel => NoFuel end.
Notation "'do!' x <- e ; k" := (bindO e (fun x => k))
  (at level 200, x pattern, e at level 100, k at level 200, right associativity).

(** The [?] operator inside a function that may also panic. *)
Definition bindR {A B E} (x : outcome (result A E)) (k : A -> outcome (result B E))
  : outcome (result B E) :=
  match x with
  | Done (Ok a) => k a
  | Done (Err e) => Done (Err e)
  | Panic => Panic
  | NoFuel => NoFuel
  end.
Notation "'try!' x <- e ; k" := (bindR e (fun x => k))
  (at level 200, x pattern, e at level 100, k at level 200, right associativity).
