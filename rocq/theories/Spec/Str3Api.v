(** * Reading the published theory against the API

    The mean elements handed to [sgp4init], and which angle its Kepler solver settles on. *)
From Coq Require Import ZArith Reals.
From Verif.Model Require Import Float Satrec Sgp4init.
From Verif.Inst Require Import RInst.
From Verif.Spec Require Import KeplerSpec.
From Verif.Spec Require Str3.
Local Open Scope R_scope.

Definition elements (o : SGP4InitOptions R) : Str3.Elements :=
  Str3.MkElements (in_xno o) (in_xecco o) (in_xinclo o) (in_xmo o) (in_xargpo o) (in_xnodeo o) (in_xbstar o).

(** element sets the theory is about: positive mean motions, an ellipse *)
Definition orbital (el : Str3.Elements) : Prop := 0 < Str3.n0 el /\ 0 <= Str3.e0 el < 1 /\ 0 < Str3.n el.

(** orbital period (minutes) of the recovered mean motion *)
Definition period (el : Str3.Elements) : R := 2 * PI / Str3.n el.

(** [E] is the angle reached by limited Newton corrections on U = E - ax sin E + ay cos E, started at [U] and
    continued while they are 1e-12 or more, at most nine times. *)
Definition kepler_angle (ax ay U E : R) : Prop :=
  exists j, (j < 10)%nat /\ E = guess ax ay U j /\
    (forall k, (k < j)%nat -> 1 / 1000000000000 <= Rabs (corr ax ay U k)) /\
    (j = 9%nat \/ Rabs (corr ax ay U j) < 1 / 1000000000000).

(** eccentricities that are not an error *)
Definition ecc_ok (e : R) : Prop := - (1 / 1000) <= e < 1.
