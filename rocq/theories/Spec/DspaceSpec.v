(** * Specification vocabulary for the resonance integrator *)
From Coq Require Import ZArith List.
From Verif.Model Require Import Float Constants Dspace.
Import ListNotations.

Section Spec.
Context {F : Type} {FO : FloatOps F}.

(** The integrator state a caller carries from one call to the next. *)
Definition carried (r : DspaceResult F) : F * F * F := (sx_atime r, sx_xli r, sx_xni r).

(** Options [o] with the integrator state replaced. *)
Definition resume (g : F * F * F) (o : DspaceOptions F) : DspaceOptions F :=
  let '(atime, xli, xni) := g in
  MkDspaceOptions (so_irez o) (so_d2201 o) (so_d2211 o) (so_d3210 o) (so_d3222 o) (so_d4410 o) (so_d4422 o)
    (so_d5220 o) (so_d5232 o) (so_d5421 o) (so_d5433 o) (so_dedt o) (so_del1 o) (so_del2 o) (so_del3 o)
    (so_didt o) (so_dmdt o) (so_dnodt o) (so_domdt o) (so_argpo o) (so_argpdot o) (so_t o) (so_tc o) (so_gsto o)
    (so_xfact o) (so_xlamo o) (so_no o) atime (so_em o) (so_argpm o) (so_inclm o) xli
    (so_mm o) xni (so_nodem o) (so_nm o).

(** Two calls concern the same satellite: same resonance class, coefficients and epoch values.
    Times, mean elements and everything else may differ. *)
Definition same_satellite (o o' : DspaceOptions F) : Prop :=
  so_irez o = so_irez o' /\ so_d2201 o = so_d2201 o' /\ so_d2211 o = so_d2211 o' /\ so_d3210 o = so_d3210 o' /\
  so_d3222 o = so_d3222 o' /\ so_d4410 o = so_d4410 o' /\ so_d4422 o = so_d4422 o' /\ so_d5220 o = so_d5220 o' /\
  so_d5232 o = so_d5232 o' /\ so_d5421 o = so_d5421 o' /\ so_d5433 o = so_d5433 o' /\ so_del1 o = so_del1 o' /\
  so_del2 o = so_del2 o' /\ so_del3 o = so_del3 o' /\ so_argpo o = so_argpo o' /\ so_argpdot o = so_argpdot o' /\
  so_xfact o = so_xfact o' /\ so_xlamo o = so_xlamo o' /\ so_no o = so_no o'.

(** A session: each call resumes from the state the previous one returned. *)
Fixpoint session (g : F * F * F) (calls : list (nat * DspaceOptions F)) : outcome (list (DspaceResult F)) :=
  match calls with
  | [] => Done []
  | (fuel, o) :: rest =>
      do! r <- dspace fuel (resume g o);
      do! rs <- session (carried r) rest;
      Done (r :: rs)
  end.
End Spec.
