(** * Euclidean vectors (specification) *)
From Coq Require Import Reals.
From Verif.Model Require Import Vec3.
Local Open Scope R_scope.

Definition dot (a b : Vec3 R) : R := v_x a * v_x b + v_y a * v_y b + v_z a * v_z b.
Definition cross (a b : Vec3 R) : Vec3 R :=
  MkVec3 (v_y a * v_z b - v_z a * v_y b) (v_z a * v_x b - v_x a * v_z b) (v_x a * v_y b - v_y a * v_x b).
Definition norm (a : Vec3 R) : R := sqrt (dot a a).
Definition scale (k : R) (a : Vec3 R) : Vec3 R := MkVec3 (k * v_x a) (k * v_y a) (k * v_z a).
Definition plus (a b : Vec3 R) : Vec3 R := MkVec3 (v_x a + v_x b) (v_y a + v_y b) (v_z a + v_z b).
