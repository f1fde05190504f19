(** * Energy and angular momentum of a state (specification)

    Kepler's problem in kilometres and seconds: a body on an ellipse with semi-major axis [a] and semi-latus rectum
    [p] has v^2/2 - mu/r = - mu/(2a) and |r x v| = sqrt (mu p).  The oblateness of the Earth disturbs both by a
    few J2 (Re/p)^2. *)
From Coq Require Import Reals.
From Verif.Model Require Import Vec3.
From Verif.Spec Require Import Vectors3.
Local Open Scope R_scope.

Definition mu : R := 3986005 / 10.
Definition Re : R := 6378137 / 1000.
Definition J2 : R := 108262998905 / 100000000000000.

Definition vis_viva (slack a p : R) (r v : Vec3 R) : Prop :=
  Rabs (norm v ^ 2 / 2 - mu / norm r + mu / (2 * a)) <= (301 / 100 * J2 * (Re / p) ^ 2 + slack) * (mu / norm r).
Definition momentum (slack p : R) (r v : Vec3 R) : Prop :=
  Rabs (norm (cross r v) - sqrt (mu * p)) <= (35 / 10 * J2 * (Re / p) ^ 2 + slack) * sqrt (mu * p).
Definition keplerian (slack a p : R) (r v : Vec3 R) : Prop := vis_viva slack a p r v /\ momentum slack p r v.
