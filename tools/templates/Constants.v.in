(** * src/constants.rs *)
From Coq Require Import ZArith.
From Verif.Model Require Import Float.
Local Open Scope Z_scope.
Local Open Scope f_scope.

Section Constants.
Context {F : Type} {FO : FloatOps F}.

(** constants.rs:1 re-exports std::f64::consts::PI *)
Definition kPI : F := fpi.
@@rename PI=kPI
@@const constants.rs 3-38 k
End Constants.
