(** * src/lib.rs: vectors and the small result structs *)
From Coq Require Import ZArith.
From Verif.Model Require Import Float.
Local Open Scope Z_scope.
Local Open Scope f_scope.

Section Vec3.
Context {F : Type} {FO : FloatOps F}.

(** lib.rs:12-16; [Ecf] and [Eci] are aliases (18-19) *)
Record Vec3 := MkVec3 {
  v_x : F;
  v_y : F;
  v_z : F
}.
(** lib.rs:22-31 *)
Record TopoCentric := MkTopo {
  tc_top_s : F;
  tc_top_e : F;
  tc_top_z : F
}.
(** lib.rs:35-44 *)
Record Geodedic := MkGeodedic {
  gd_longitude : F;
  gd_latitude : F;
  gd_height : F
}.
(** lib.rs:48-57 *)
Record Bearing := MkBearing {
  be_azimuth : F;
  be_elevation : F;
  be_range : F
}.

(** Vec3::range, lib.rs:60-63 *)
Definition vrange (self to : Vec3) : F :=
  fsqrt (fpow (v_x self - v_x to) (L 2 0) + fpow (v_y self - v_y to) (L 2 0)
         + fpow (v_z self - v_z to) (L 2 0)).
(** Vec3::add, lib.rs:65-71 *)
Definition vadd (self by_ : Vec3) : Vec3 :=
  MkVec3 (v_x self + v_x by_) (v_y self + v_y by_) (v_z self + v_z by_).
(** Vec3::subtract, lib.rs:73-79 *)
Definition vsub (self by_ : Vec3) : Vec3 :=
  MkVec3 (v_x self - v_x by_) (v_y self - v_y by_) (v_z self - v_z by_).
End Vec3.
Arguments Vec3 F : clear implicits.
Arguments TopoCentric F : clear implicits.
Arguments Geodedic F : clear implicits.
Arguments Bearing F : clear implicits.
