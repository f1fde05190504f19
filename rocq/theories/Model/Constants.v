(** * src/constants.rs *)
From Coq Require Import ZArith.
From Verif.Model Require Import Float.
Local Open Scope Z_scope.
Local Open Scope f_scope.

Section Constants.
Context {F : Type} {FO : FloatOps F}.

(** constants.rs:1 re-exports std::f64::consts::PI *)
Definition kPI : F := fpi.
Definition kTWO_PI : F := kPI * (L 2 0). (* constants.rs:4 *)
Definition kDEG_2_RAD : F := kPI / (L 180 0). (* constants.rs:7 *)
Definition kRAD_TO_DEG : F := (L 180 0) / kPI. (* constants.rs:10 *)
Definition kMINUTES_PER_DAY : F := (L 1440 0). (* constants.rs:13 *)
Definition kMU : F := (L 3986005 1). (* constants.rs:15 *)
Definition kEARTH_RADIUS : F := (L 6378137 3). (* constants.rs:18 *)
Definition kX2O3 : F := (L 2 0) / (L 3 0). (* constants.rs:21 *)
Definition kC : F := (L 299792458 3). (* constants.rs:24 *)
Definition kKM_TO_MI : F := (L 62137 5). (* constants.rs:27 *)
Definition kMI_TO_KM : F := (L 1 0) / (L 62137 5). (* constants.rs:30 *)
Definition kJ2 : F := (L 108262998905 14). (* constants.rs:32 *)
Definition kJ3 : F := (- (L 253215306 14)). (* constants.rs:33 *)
Definition kJ4 : F := (- (L 161098761 14)). (* constants.rs:34 *)
Definition kJ3OJ2 : F := kJ3 / kJ2. (* constants.rs:35 *)
Definition kXKE : F := (L 7436685316871385 17). (* constants.rs:36 *)
Definition kTUMIN : F := (L 13446851082044981 15). (* constants.rs:37 *)
Definition kXPDOTP : F := (L 1440 0) / ((L 2 0) * kPI). (* constants.rs:38 *)
End Constants.
