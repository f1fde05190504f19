(** * C20: the periodics are the identity at initialisation *)
From Coq Require Import ZArith List Bool.
From Verif.Model Require Import Float Str Satrec Constants Vec3 Dpper Sgp4 Sgp4init Io.
From Verif.Proofs Require Import InitKind InitElems.
From Verif.Golden Require Import Sats.

(** In init mode [dpper] returns the five elements it was given. *)
Theorem C20_identity :
  forall (F : Type) (FO : FloatOps F) (s : Satrec F) (o : DpperOptions F),
    po_init o = InitY ->
    let r := dpper s o in
    pr_ep r = po_ep o /\ pr_inclp r = po_inclp o /\ pr_nodep r = po_nodep o /\
    pr_argpp r = po_argpp o /\ pr_mp r = po_mp o.
Proof. intros F FO s [i m a b c d e f] H. cbn in H. subst i. cbv zeta. rewrite dpper_init_identity. repeat split; reflexivity. Qed.
Print Assumptions C20_identity.

(** Consequently initialisation stores the elements of the element set unchanged, in deep space too. *)
Theorem C20_elements_stored :
  forall (F : Type) (FO : FloatOps F) (fuel : nat) (s0 s : Satrec F) (o : SGP4InitOptions F) r,
    sgp4init fuel s0 o = Done (s, r) ->
    sr_ecco s = in_xecco o /\ sr_inclo s = in_xinclo o /\ sr_nodeo s = in_xnodeo o /\
    sr_argpo s = in_xargpo o /\ sr_mo s = in_xmo o /\ sr_bstar s = in_xbstar o.
Proof.
  intros F FO fuel s0 s o r H. apply sgp4init_elems in H. destruct H as [H _].
  repeat split.
  - exact (f_equal el_ecco H).
  - exact (f_equal el_inclo H).
  - exact (f_equal el_nodeo H).
  - exact (f_equal el_argpo H).
  - exact (f_equal el_mo H).
  - exact (f_equal el_bstar H).
Qed.
Print Assumptions C20_elements_stored.

(** Non-vacuity: outside init mode [dpper] does change the same elements of a deep-space record, and
    deep-space initialisation succeeds. *)
Definition opts i := MkDpperOptions i (sr_operationmode ds) (sr_inclo ds) (sr_ecco ds) (sr_inclo ds) (sr_nodeo ds) (sr_argpo ds) (sr_mo ds).
Example C20_example :
  (feq (pr_ep (dpper (set_t (lit 1000 0) ds) (opts InitY))) (sr_ecco ds),
   feq (pr_ep (dpper (set_t (lit 1000 0) ds) (opts InitN))) (sr_ecco ds),
   match sgp4init 10 satrec_zero (tle_options ds) with Done (s, Ok _) => sr_method s | _ => MethodN end)
  = (true, false, MethodD).
Proof. vm_compute. reflexivity. Qed.
