(** * Concrete satellites for the examples that accompany the theorems

    Records obtained by running the modelled parser and initialiser on real element sets in binary64
    with the concrete libm of Golden/Libm.v. *)
From Coq Require Import ZArith List Bool String.
From Verif.Model Require Import Float Str Satrec Vec3 Sgp4 Sgp4init Io.
From Verif.Inst Require Import B64.
From Verif.Golden Require Export Libm.
From Flocq Require Import IEEE754.BinarySingleNaN.
Import ListNotations.

(** ISS, near earth, full drag model (io.rs:460-462) *)
Definition iss1 := of_string "1 25544U 98067A   19085.83761025  .00001292  00000-0  28282-4 0  9995".
Definition iss2 := of_string "2 25544  51.6446  50.5941 0002332 117.0184 328.1109 15.52438493162461".
(** 88888, near earth, simplified drag (lib.rs:112-113) *)
Definition leo1 := of_string "1 88888U          80275.98708465  .00073094  13844-3  66816-4 0    8".
Definition leo2 := of_string "2 88888  72.8435 115.9689 0086731  52.6988 110.5714 16.05824518  105".
(** 11801, deep space, no resonance (lib.rs:179-180) *)
Definition ds1 := of_string "1 11801U          80230.29629788  .01431103  00000-0  14311-1        ".
Definition ds2 := of_string "2 11801  46.7916 230.4354 7318036  47.4722  10.4117  2.28537848      ".
(** a geostationary satellite: deep space, one-day resonance *)
Definition geo1 := of_string "1 28626U 05008A   06176.46683397 -.00000205  00000-0  10000-3 0  2190".
Definition geo2 := of_string "2 28626   0.0019 286.9433 0000335  13.7918  55.6504  1.00270176  4891".
(** a Molniya satellite: deep space, half-day resonance *)
Definition mol1 := of_string "1 08195U 75081A   06176.33215444  .00000099  00000-0  11873-3 0   813".
Definition mol2 := of_string "2 08195  64.1586 279.0717 6877146 264.7651  20.2257  2.00491383225656".

Definition of_tle (l1 l2 : str) : Satrec b64 :=
  match twoline2satrec 10 l1 l2 with Done (Ok s) => s | _ => satrec_zero end.
Definition iss_run := of_tle iss1 iss2.
Definition leo_run := of_tle leo1 leo2.
Definition ds_run := of_tle ds1 ds2.
Definition geo_run := of_tle geo1 geo2.
Definition mol_run := of_tle mol1 mol2.

Definition is_ok {A E} (o : outcome (result A E)) : bool :=
  match o with Done (Ok _) => true | _ => false end.
Definition prop_ok (s : Satrec b64) (t : b64) : bool :=
  match sgp4 100 s t with Done (_, Ok _) => true | _ => false end.

