(** * C07: a record obtained from a TLE is ready to use *)
From Coq Require Import ZArith List Bool String.
From Verif.Model Require Import Float Str Satrec Constants Vec3 Sgp4 Sgp4init Io.
From Verif.Spec Require Import Sgp4Spec.
From Verif.Proofs Require Import Sgp4Frame InitFrame InitKind InitElems.
From Verif.Inst Require Import B64.
From Verif.Golden Require Import Sats.
Local Open Scope Z_scope.

(** [p] is the record decoded from the two lines; [s] the initialised record handed to the caller. *)
Theorem C07_ready :
  forall (F : Type) (FO : FloatOps F) (fuel : nat) (l1 l2 : str) (s : Satrec F),
    twoline2satrec fuel l1 l2 = Done (Ok s) ->
    exists p v,
      parse_satrec l1 l2 = Done (Ok p) /\
      (* usable: no error, initialised, at epoch, improved mode, no name *)
      sr_error s = 0 /\ sr_init s = InitN /\ sr_t s = L 0 0 /\ sr_operationmode s = OpsI /\ sr_name s = None /\
      (* identification and epoch are the decoded ones *)
      sr_satnum s = sr_satnum p /\ sr_epochyr s = sr_epochyr p /\ sr_epochdays s = sr_epochdays p /\
      sr_jdsatepoch s = sr_jdsatepoch p /\ sr_ndot s = sr_ndot p /\ sr_nddot s = sr_nddot p /\
      sr_a s = sr_a p /\ sr_alta s = sr_alta p /\ sr_altp s = sr_altp p /\
      (* and so are the elements, except the mean motion, which is un-Kozai'd *)
      sr_bstar s = sr_bstar p /\ sr_inclo s = sr_inclo p /\ sr_nodeo s = sr_nodeo p /\
      sr_ecco s = sr_ecco p /\ sr_argpo s = sr_argpo p /\ sr_mo s = sr_mo p /\
      (* propagating to the epoch succeeds *)
      returned (sgp4 fuel s (L 0 0)) = Done (Ok v).
Proof.
  intros F FO fuel l1 l2 s. unfold twoline2satrec.
  destruct (parse_satrec l1 l2) as [[p|e]| |] eqn:P; cbn [bindR]; try discriminate.
  destruct (sgp4init fuel p (tle_options p)) as [[s' [v|e]]| |] eqn:I; cbn [bindO]; try discriminate.
  intros H. injection H as <-. exists p, v. split; [reflexivity|].
  pose proof (sgp4init_elems fuel p (tle_options p) s' (Ok v) I) as [E T].
  injection E as E1 E2 E3 E4 E5 _ E7 E8 E9 _.
  pose proof (sgp4init_replay fuel p (tle_options p) s' (Ok v) I) as R.
  pose proof (sgp4init_graft fuel p p (tle_options p)) as G. rewrite I in G. cbn [bindO fst snd] in G.
  injection G as G.
  assert (N : sr_name p = None).
  { unfold parse_satrec in P. destruct (parse_line1 l1) as [[a|]| |]; cbn [bindR] in P; try discriminate.
    destruct (parse_line2 l2) as [[b|]| |]; cbn [bindR] in P; try discriminate. injection P as <-. reflexivity. }
  assert (X : sr_error s' = 0).
  { apply sgp4init_inv in I. destruct I as (s1 & I & ->). apply sgp4_frame in I. destruct I as [HN HD].
    destruct (sr_method (sgp4init_elements (tle_options p) p)).
    - now rewrite (HN eq_refl).
    - destruct (HD eq_refl) as (a & x & c & q & w & ->). reflexivity. }
  assert (Q : sr_name s' = sr_name p /\ sr_satnum s' = sr_satnum p /\ sr_epochyr s' = sr_epochyr p /\
    sr_epochdays s' = sr_epochdays p /\ sr_jdsatepoch s' = sr_jdsatepoch p /\ sr_ndot s' = sr_ndot p /\
    sr_nddot s' = sr_nddot p /\ sr_a s' = sr_a p /\ sr_alta s' = sr_alta p /\ sr_altp s' = sr_altp p).
  { rewrite G. repeat split. }
  destruct Q as (Q0 & Q1 & Q2 & Q3 & Q4 & Q5 & Q6 & Q7 & Q8 & Q9).
  repeat (split; [first [assumption | congruence]|]). exact R.
Qed.
Print Assumptions C07_ready.

(** Golden/Sats.v: [sats_kinds] shows five element sets for which [twoline2satrec] returns Ok. *)
Example C07_example :
  match twoline2satrec (FO := GoldenOps) 10 leo1 leo2 with
  | Done (Ok s) => (sr_error s, sr_satnum s, sr_epochyr s) | _ => (9, nil, 0) end
  = (0, of_string "88888"%string, 80)%Z.
Proof. vm_compute. reflexivity. Qed.
