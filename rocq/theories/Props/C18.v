(** * C18: the deep-space secular and resonance terms do not reach the propagated state *)
From Coq Require Import ZArith List Bool.
From Verif.Model Require Import Float Str Satrec Constants Vec3 Dspace Sgp4.
From Verif.Spec Require Import DeepSpec.
From Verif.Proofs Require Import DeepFrame.
From Verif.Golden Require Import Sats.

(** Whatever the resonance coefficients, the rates of inclination, node, perigee and mean anomaly, the
    sidereal time at epoch and the integrator state are replaced by, a propagation that returns gives the
    same position and velocity, or the same error.  (Any arithmetic.) *)
Theorem C18_resonance_discarded :
  forall (F : Type) (FO : FloatOps F) (s : Satrec F) (w : Resonance F) (t : F) n n' s1 s2 r r',
    sgp4 n s t = Done (s1, r) -> sgp4 n' (rs_overwrite w s) t = Done (s2, r') -> r' = r.
Proof.
  intros F FO s w t n n' s1 s2 r r' H H'. apply sgp4_result in H, H'. subst.
  rewrite rs_em_of. apply rs_result.
Qed.
Print Assumptions C18_resonance_discarded.

(** Non-vacuity: for the geostationary record the overwritten data are not trivial (its resonance class is
    not zero), and both propagations return. *)
Definition no_resonance : Resonance _ :=
  let z := lit 0 0 in MkResonance z z z z z z z z z z z z z z z z z z z z z z z z.
Example C18_example :
  (prop_ok geo (lit 1500 0), feq (sr_irez geo) (lit 0 0), flt (lit 0 0) (fabs (sr_didt geo)),
   flt (lit 0 0) (fabs (sr_del1 geo)), prop_ok (rs_overwrite no_resonance geo) (lit 1500 0))
  = (true, false, true, true, true).
Proof. vm_compute. reflexivity. Qed.
