(** * C09: the sub-second part of a timestamp is ignored *)
From Coq Require Import ZArith Bool List.
From Verif.Model Require Import Float Str Satrec Constants Vec3 Ext Gstime Sgp4 Propagate.
From Verif.Inst Require Import B64.
From Verif.Golden Require Import Sats.

(** Two timestamps within the same second, however far apart. *)
Definition same_second (t t' : DateTime) : Prop :=
  dt_year t = dt_year t' /\ dt_month t = dt_month t' /\ dt_day t = dt_day t' /\
  dt_hour t = dt_hour t' /\ dt_minute t = dt_minute t' /\ dt_second t = dt_second t'.

(** They give the same Julian date, the same sidereal time and the same propagated state. *)
Theorem C09_subsecond_ignored :
  forall (F : Type) (FO : FloatOps F) (t t' : DateTime),
    same_second t t' ->
    jday_datetime t = jday_datetime t' /\
    gstime_datetime t = gstime_datetime t' /\
    forall (fuel : nat) (s : Satrec F), propogate_datetime fuel s t = propogate_datetime fuel s t'.
Proof.
  intros F FO [y m d h mi sec ns] [y' m' d' h' mi' sec' ns'] (E1 & E2 & E3 & E4 & E5 & E6). cbn in *. subst.
  refine (conj eq_refl (conj eq_refl _)). intros. reflexivity.
Qed.
Print Assumptions C09_subsecond_ignored.

(** Non-vacuity: half a second apart (the satellite moves 4 km in that time), identical results; one
    second apart, different results. *)
Definition t_a : DateTime := MkDateTime 2019 3 28 20 6 9 0.
Definition t_b : DateTime := MkDateTime 2019 3 28 20 6 9 500000000.
Definition t_c : DateTime := MkDateTime 2019 3 28 20 6 10 0.
Definition px (t : DateTime) : option b64 :=
  match propogate_datetime (FO := GoldenOps) 10 iss t with Done (Ok r) => Some (v_x (g4_position r)) | _ => None end.
Example C09_example :
  same_second t_a t_b /\ t_a <> t_b /\
  match px t_a, px t_c with Some a, Some c => feq a c | _, _ => true end = false.
Proof. refine (conj _ (conj _ _)); [repeat split|discriminate|vm_compute; reflexivity]. Qed.
