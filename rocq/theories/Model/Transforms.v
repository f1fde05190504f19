(** * src/transforms.rs *)
From Coq Require Import ZArith Bool.
From Verif.Model Require Import Float Constants Vec3.
Local Open Scope Z_scope.
Local Open Scope f_scope.

Section Transforms.
Context {F : Type} {FO : FloatOps F}.

(** transforms.rs:8-10 *)
Definition radians_to_degrees (radians : F) : F := radians * kRAD_TO_DEG.
(** transforms.rs:12-14 *)
Definition degrees_to_radians (degrees : F) : F := degrees * kDEG_2_RAD.
(** degrees_lat, transforms.rs:16-22 *)
Definition degrees_lat (radians : F) : outcome F :=
  if (radians <? (- fpi2)) || (fpi2 <? radians) then Panic else Done (radians_to_degrees radians).
(** degrees_long, transforms.rs:24-30 *)
Definition degrees_long (radians : F) : outcome F :=
  if (radians <? (- kPI)) || (kPI <? radians) then Panic else Done (radians_to_degrees radians).
(** radians_lat, transforms.rs:32-38 *)
Definition radians_lat (degrees : F) : outcome F :=
  if (degrees <? (- (L 90 0))) || ((L 90 0) <? degrees) then Panic else Done (degrees_to_radians degrees).
(** radians_long, transforms.rs:40-46 *)
Definition radians_long (degrees : F) : outcome F :=
  if (degrees <? (- (L 180 0))) || ((L 180 0) <? degrees) then Panic else Done (degrees_to_radians degrees).

(** transforms.rs:49-52 (and 64-68, the same values) *)
Definition geo_A : F := (L 6378137 3). (* transforms.rs:49 *)
Definition geo_B : F := (L 63567523142 7). (* transforms.rs:50 *)
Definition geo_F : F := (geo_A - geo_B) / geo_A. (* transforms.rs:51 *)
Definition geo_E2 : F := (L 2 0) * geo_F - geo_F * geo_F. (* transforms.rs:52 *)

(** geodedic_to_ecf, transforms.rs:48-61 *)
Definition geodedic_to_ecf (geodetic : Geodedic F) : Vec3 F :=
  let normal := geo_A / fsqrt ((L 1 0) - geo_E2 * fpow (fsin (gd_latitude geodetic)) (L 2 0)) in
  let x := (normal + gd_height geodetic) * fcos (gd_latitude geodetic) * fcos (gd_longitude geodetic) in
  let y := (normal + gd_height geodetic) * fcos (gd_latitude geodetic) * fsin (gd_longitude geodetic) in
  let z := (normal * ((L 1 0) - geo_E2) + gd_height geodetic) * fsin (gd_latitude geodetic) in
  MkVec3 x y z.

(** The longitude loops, transforms.rs:72-78. *)
Fixpoint long_up (fuel : nat) (l : F) : outcome F :=
  if l <? (- kPI) then match fuel with O => NoFuel | S n => long_up n (l + kTWO_PI) end else Done l.
Fixpoint long_down (fuel : nat) (l : F) : outcome F :=
  if kPI <? l then match fuel with O => NoFuel | S n => long_down n (l - kTWO_PI) end else Done l.
Definition normalize_long (fuel : nat) (l : F) : outcome F :=
  do! l <- long_up fuel l; long_down fuel l.

(** One pass of the latitude loop, transforms.rs:88-89. *)
Definition lat_c (latitude : F) : F := (L 1 0) / ((L 1 0) - geo_E2 * fpowi (fsin latitude) 2).
Definition lat_step (z r latitude : F) : F :=
  let c := lat_c latitude in
  fatan2 (z + geo_A * c * geo_E2 * fsin latitude) r.
(** The latitude loop, transforms.rs:87-91; returns (latitude, c). *)
Fixpoint lat_loop (n : nat) (z r latitude c : F) : F * F :=
  match n with
  | O => (latitude, c)
  | S n' => lat_loop n' z r (lat_step z r latitude) (lat_c latitude)
  end.

(** eci_to_geodedic, transforms.rs:63-100 *)
Definition eci_to_geodedic (fuel : nat) (eci : Vec3 F) (gmst : F) : outcome (Geodedic F) :=
  let r := fsqrt (v_x eci * v_x eci + v_y eci * v_y eci) in
  do! longitude <- normalize_long fuel (fatan2 (v_y eci) (v_x eci) - gmst);
  let latitude := fatan2 (v_z eci) (fsqrt (fpowi (v_x eci) 2 + fpowi (v_y eci) 2)) in
  let (latitude, c) := lat_loop 20 (v_z eci) r latitude (L 0 0) in
  let height := r / fcos latitude - geo_A * c in
  Done (MkGeodedic longitude latitude height).

(** ecf_to_eci, transforms.rs:102-108 *)
Definition ecf_to_eci (ecf : Vec3 F) (gmst : F) : Vec3 F :=
  let x := v_x ecf * fcos gmst - v_y ecf * fsin gmst in
  let y := v_x ecf * fsin gmst + v_y ecf * fcos gmst in
  let z := v_z ecf in
  MkVec3 x y z.
(** eci_to_ecf, transforms.rs:110-116 *)
Definition eci_to_ecf (eci : Vec3 F) (gmst : F) : Vec3 F :=
  let x := v_x eci * fcos gmst + v_y eci * fsin gmst in
  let y := v_x eci * (- fsin gmst) + v_y eci * fcos gmst in
  let z := v_z eci in
  MkVec3 x y z.

(** topocentric, transforms.rs:118-138 *)
Definition topocentric (observer : Geodedic F) (satellite : Vec3 F) : TopoCentric F :=
  let observer_ecf := geodedic_to_ecf observer in
  let r := vsub satellite observer_ecf in
  let top_s := fsin (gd_latitude observer) * fcos (gd_longitude observer) * v_x r + fsin (gd_latitude observer) * fsin (gd_longitude observer) * v_y r - fcos (gd_latitude observer) * v_z r in
  let top_e := (- fsin (gd_longitude observer)) * v_x r + fcos (gd_longitude observer) * v_y r in
  let top_z := fcos (gd_latitude observer) * fcos (gd_longitude observer) * v_x r + fcos (gd_latitude observer) * fsin (gd_longitude observer) * v_y r + fsin (gd_latitude observer) * v_z r in
  MkTopo top_s top_e top_z.

(** topocentric_to_look_angles, transforms.rs:140-150 *)
Definition topocentric_to_look_angles (tc : TopoCentric F) : Bearing F :=
  let range_sat := fsqrt (fpowi (tc_top_s tc) 2 + fpowi (tc_top_e tc) 2 + fpowi (tc_top_z tc) 2) in
  let el := fasin (tc_top_z tc / range_sat) in
  let az := fatan2 (- tc_top_e tc) (tc_top_s tc) + kPI in
  MkBearing az el range_sat.

(** ecf_to_look_angles, transforms.rs:152-156 *)
Definition ecf_to_look_angles (observer : Geodedic F) (satellite : Vec3 F) : Bearing F :=
  topocentric_to_look_angles (topocentric observer satellite).
End Transforms.
