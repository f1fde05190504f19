(** * Specification: line of sight

    The Earth is the WGS-84 ellipsoid (kilometres).  A point is in sight of a site unless the straight segment
    between them passes through the interior of the ellipsoid. *)
From Coq Require Import Reals.
From Verif.Model Require Import Vec3.
From Verif.Spec Require Import Vectors3.
Local Open Scope R_scope.

Definition equatorial_radius : R := 6378137 / 1000.
Definition polar_radius : R := 63567523142 / 10000000.
Definition inside_earth (p : Vec3 R) : Prop :=
  (v_x p ^ 2 + v_y p ^ 2) / equatorial_radius ^ 2 + v_z p ^ 2 / polar_radius ^ 2 < 1.
(** the point of the segment from [s] to [p] at the fraction [c] of the way *)
Definition on_the_way (s p : Vec3 R) (c : R) : Vec3 R := plus (scale (1 - c) s) (scale c p).
Definition in_sight (s p : Vec3 R) : Prop := forall c, 0 <= c <= 1 -> ~ inside_earth (on_the_way s p c).
