(** * Turning an orbit about the Earth's axis, and advancing its angles (specification) *)
From Coq Require Import Reals ZArith.
From Verif.Model Require Import Float Satrec Vec3 Sgp4 Sgp4init.
From Verif.Inst Require Import RInst.
Local Open Scope R_scope.

(** rotation by the angle [d] about the z axis *)
Definition turned (d : R) (v : Vec3 R) : Vec3 R :=
  MkVec3 (v_x v * cos d - v_y v * sin d) (v_x v * sin d + v_y v * cos d) (v_z v).
(** the same for a propagation result: position and velocity turn, errors stay *)
Definition turned_result (d : R) (r : result (SGP4Result R) SGP4Error) : result (SGP4Result R) SGP4Error :=
  match r with
  | Ok (MkSGP4Result p v) => Ok (MkSGP4Result (turned d p) (turned d v))
  | Err e => Err e
  end.

(** the options [o'] describe the orbit of [o] with the three angles moved by the given amounts; the shape, the
    inclination and the drag term are the same.  Name, epoch and mode may differ. *)
Definition moved (o : SGP4InitOptions R) (dM dw dnode : R) (o' : SGP4InitOptions R) : Prop :=
  in_xno o' = in_xno o /\ in_xecco o' = in_xecco o /\ in_xinclo o' = in_xinclo o /\ in_xbstar o' = in_xbstar o /\
  in_xmo o' = in_xmo o + dM /\ in_xargpo o' = in_xargpo o + dw /\ in_xnodeo o' = in_xnodeo o + dnode.

(** [k] whole turns *)
Definition turns (k : Z) : R := 2 * PI * IZR k.
