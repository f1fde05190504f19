(** * Kepler's equation in the variables of the theory (specification)

    With the eccentricity vector (ax, ay) the equation for the angle E is
    u = E - ax sin E + ay cos E. *)
From Coq Require Import ZArith.
From Verif.Model Require Import Float.
Local Open Scope f_scope.

Section Spec.
Context {F : Type} {FO : FloatOps F}.

(** one Newton correction from the guess [E] *)
Definition newton (ax ay u E : F) : F :=
  (u - ay * fcos E + ax * fsin E - E) / ((L 1 0) - fcos E * ax - fsin E * ay).
(** limited to 0.95 in magnitude *)
Definition limited (c : F) : F :=
  if (L 95 2) <=? fabs c then (if (L 0 0) <? c then (L 95 2) else - (L 95 2)) else c.
(** the sequence of guesses, starting from u *)
Fixpoint guess (ax ay u : F) (k : nat) : F :=
  match k with O => u | S j => guess ax ay u j + limited (newton ax ay u (guess ax ay u j)) end.
(** the k-th correction (k = 0, 1, ...) *)
Definition corr (ax ay u : F) (k : nat) : F := limited (newton ax ay u (guess ax ay u k)).
(** a correction is still large *)
Definition large (c : F) : bool := (L 1 12) <=? fabs c.
End Spec.
