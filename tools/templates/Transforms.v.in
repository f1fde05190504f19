(** * src/transforms.rs *)
From Coq Require Import ZArith Bool.
From Verif.Model Require Import Float Constants Vec3.
Local Open Scope Z_scope.
Local Open Scope f_scope.

Section Transforms.
Context {F : Type} {FO : FloatOps F}.
@@consts

(** transforms.rs:8-10 *)
Definition radians_to_degrees (radians : F) : F := radians * kRAD_TO_DEG.
(** transforms.rs:12-14 *)
Definition degrees_to_radians (degrees : F) : F := degrees * kDEG_2_RAD.
(** degrees_lat, transforms.rs:16-22 *)
Definition degrees_lat (radians : F) : outcome F :=
  if (radians <? (- fpi2)) || (fpi2 <? radians) then Panic else Done (radians_to_degrees radians).
(** degrees_long, transforms.rs:24-30 *)
Definition degrees_long (radians : F) : outcome F :=
  if (radians <? (- kPI)) || (kPI <? radians) then Panic else Done (radians_to_degrees radians).
(** radians_lat, transforms.rs:32-38 *)
Definition radians_lat (degrees : F) : outcome F :=
  if (degrees <? (- (L 90 0))) || ((L 90 0) <? degrees) then Panic else Done (degrees_to_radians degrees).
(** radians_long, transforms.rs:40-46 *)
Definition radians_long (degrees : F) : outcome F :=
  if (degrees <? (- (L 180 0))) || ((L 180 0) <? degrees) then Panic else Done (degrees_to_radians degrees).

(** transforms.rs:49-52 (and 64-68, the same values) *)
@@const transforms.rs 49-52 geo_

@@proj geodetic=gd_:geodetic
(** geodedic_to_ecf, transforms.rs:48-61 *)
Definition geodedic_to_ecf (geodetic : Geodedic F) : Vec3 F :=
  @@rs transforms.rs 54-58
  MkVec3 x y z.

(** The longitude loops, transforms.rs:72-78. *)
Fixpoint long_up (fuel : nat) (l : F) : outcome F :=
  if l <? (- kPI) then match fuel with O => NoFuel | S n => long_up n (l + kTWO_PI) end else Done l.
Fixpoint long_down (fuel : nat) (l : F) : outcome F :=
  if kPI <? l then match fuel with O => NoFuel | S n => long_down n (l - kTWO_PI) end else Done l.
Definition normalize_long (fuel : nat) (l : F) : outcome F :=
  do! l <- long_up fuel l; long_down fuel l.

(** One pass of the latitude loop, transforms.rs:88-89. *)
Definition lat_c (latitude : F) : F := (L 1 0) / ((L 1 0) - geo_E2 * fpowi (fsin latitude) 2).
Definition lat_step (z r latitude : F) : F :=
  let c := lat_c latitude in
  fatan2 (z + geo_A * c * geo_E2 * fsin latitude) r.
(** The latitude loop, transforms.rs:87-91; returns (latitude, c). *)
Fixpoint lat_loop (n : nat) (z r latitude c : F) : F * F :=
  match n with
  | O => (latitude, c)
  | S n' => lat_loop n' z r (lat_step z r latitude) (lat_c latitude)
  end.

(** eci_to_geodedic, transforms.rs:63-100 *)
Definition eci_to_geodedic (fuel : nat) (eci : Vec3 F) (gmst : F) : outcome (Geodedic F) :=
  let r := fsqrt (v_x eci * v_x eci + v_y eci * v_y eci) in
  do! longitude <- normalize_long fuel (fatan2 (v_y eci) (v_x eci) - gmst);
  let latitude := fatan2 (v_z eci) (fsqrt (fpowi (v_x eci) 2 + fpowi (v_y eci) 2)) in
  let (latitude, c) := lat_loop 20 (v_z eci) r latitude (L 0 0) in
  let height := r / fcos latitude - geo_A * c in
  Done (MkGeodedic longitude latitude height).

@@proj ecf=v_:ecf eci=v_:eci
(** ecf_to_eci, transforms.rs:102-108 *)
Definition ecf_to_eci (ecf : Vec3 F) (gmst : F) : Vec3 F :=
  @@rs transforms.rs 103-105
  MkVec3 x y z.
(** eci_to_ecf, transforms.rs:110-116 *)
Definition eci_to_ecf (eci : Vec3 F) (gmst : F) : Vec3 F :=
  @@rs transforms.rs 111-113
  MkVec3 x y z.

@@proj observer=gd_:observer r=v_:r
(** topocentric, transforms.rs:118-138 *)
Definition topocentric (observer : Geodedic F) (satellite : Vec3 F) : TopoCentric F :=
  let observer_ecf := geodedic_to_ecf observer in
  let r := vsub satellite observer_ecf in
  @@rs transforms.rs 123-131
  MkTopo top_s top_e top_z.

@@proj tc=tc_:tc
(** topocentric_to_look_angles, transforms.rs:140-150 *)
Definition topocentric_to_look_angles (tc : TopoCentric F) : Bearing F :=
  @@rs transforms.rs 141-143
  MkBearing az el range_sat.

(** ecf_to_look_angles, transforms.rs:152-156 *)
Definition ecf_to_look_angles (observer : Geodedic F) (satellite : Vec3 F) : Bearing F :=
  topocentric_to_look_angles (topocentric observer satellite).
End Transforms.
