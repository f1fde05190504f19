(** * C19: the lunar-solar periodics of node, perigee, mean anomaly and eccentricity do not reach the state *)
From Coq Require Import ZArith List Bool.
From Verif.Model Require Import Float Str Satrec Constants Vec3 Dspace Dpper Sgp4.
From Verif.Spec Require Import Sgp4Spec DeepSpec.
From Verif.Proofs Require Import DeepFrame.
From Verif.Golden Require Import Sats.

(** Replacing the periodic coefficients of mean anomaly, argument of perigee and node changes nothing in
    what a propagation returns. *)
Theorem C19_angles_discarded :
  forall (F : Type) (FO : FloatOps F) (s : Satrec F) (w : LunarSolar F) (t : F) n,
    returned (sgp4 n (ln_overwrite w s) t) = returned (sgp4 n s t).
Proof.
  intros F FO s w t n. apply ln_sgp4.
Qed.
Print Assumptions C19_angles_discarded.

(** Replacing the periodic coefficients of the eccentricity can only turn the [Ep] error on or off. *)
Theorem C19_eccentricity_discarded :
  forall (F : Type) (FO : FloatOps F) (s : Satrec F) (w : LunarSolarEcc F) (t : F) n n' s1 s2 r r',
    sgp4 n s t = Done (s1, r) -> sgp4 n' (ec_overwrite w s) t = Done (s2, r') ->
    r' = r \/ r' = Err Ep \/ r = Err Ep.
Proof.
  intros F FO s w t n n' s1 s2 r r' H H'. apply sgp4_result in H, H'. subst.
  rewrite ec_em_of. apply ec_result.
Qed.
Print Assumptions C19_eccentricity_discarded.

(** Non-vacuity: in the deep-space record the coefficients are not zero, [dpper] does compute different
    angles after the replacement, and propagation succeeds. *)
Definition none : LunarSolar _ := let z := lit 0 0 in MkLunarSolar z z z z z z z z z z z z z z z z z z z.
Definition none_ecc : LunarSolarEcc _ := let z := lit 0 0 in MkLunarSolarEcc z z z z z.
Definition corrected s := periodics s (lit 1500 0).
Example C19_example :
  (prop_ok ds (lit 1500 0), prop_ok (ec_overwrite none_ecc ds) (lit 1500 0),
   feq (pr_mp (corrected ds)) (pr_mp (corrected (ln_overwrite none ds))),
   feq (pr_nodep (corrected ds)) (pr_nodep (corrected (ln_overwrite none ds))),
   feq (pr_argpp (corrected ds)) (pr_argpp (corrected (ln_overwrite none ds))),
   feq (pr_ep (corrected ds)) (pr_ep (corrected (ec_overwrite none_ecc ds))))
  = (true, true, false, false, false, false).
Proof. vm_compute. reflexivity. Qed.
