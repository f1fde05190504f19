(** * C05: initialisation does not depend on the record's previous contents *)
From Coq Require Import ZArith List Bool.
From Verif.Model Require Import Float Str Satrec Vec3 Sgp4 Sgp4init Io.
From Verif.Spec Require Import Sgp4Spec.
From Verif.Proofs Require Import Sgp4Frame InitFrame.
From Verif.Inst Require Import B64.
From Verif.Golden Require Import Sats.
Import ListNotations.

(** Initialising two records with the same options returns the same result, and the two records then
    differ at most in the ten fields initialisation does not own. *)
Theorem C05_reinit :
  forall (F : Type) (FO : FloatOps F) (fuel : nat) (s1 s2 s1' : Satrec F) (o : SGP4InitOptions F) r,
    sgp4init fuel s1 o = Done (s1', r) ->
    sgp4init fuel s2 o =
      Done (set_name (sr_name s2) (set_satnum (sr_satnum s2) (set_epochyr (sr_epochyr s2)
             (set_epochdays (sr_epochdays s2) (set_ndot (sr_ndot s2) (set_nddot (sr_nddot s2)
             (set_a (sr_a s2) (set_alta (sr_alta s2) (set_altp (sr_altp s2)
             (set_jdsatepoch (sr_jdsatepoch s2) s1'))))))))), r).
Proof. intros F FO fuel s1 s2 s1' o r H. rewrite (sgp4init_graft fuel s2 s1 o), H. reflexivity. Qed.
Print Assumptions C05_reinit.

(** The ten fields are left as they were. *)
Theorem C05_unowned_fields :
  forall (F : Type) (FO : FloatOps F) (fuel : nat) (s s' : Satrec F) (o : SGP4InitOptions F) r,
    sgp4init fuel s o = Done (s', r) ->
    sr_name s' = sr_name s /\ sr_satnum s' = sr_satnum s /\ sr_epochyr s' = sr_epochyr s /\
    sr_epochdays s' = sr_epochdays s /\ sr_ndot s' = sr_ndot s /\ sr_nddot s' = sr_nddot s /\
    sr_a s' = sr_a s /\ sr_alta s' = sr_alta s /\ sr_altp s' = sr_altp s /\ sr_jdsatepoch s' = sr_jdsatepoch s.
Proof.
  intros F FO fuel s s' o r H. pose proof (C05_reinit F FO fuel s s s' o r H) as E.
  rewrite H in E. injection E as E. rewrite E. repeat split.
Qed.
Print Assumptions C05_unowned_fields.

(** Hence re-initialising a record with the same options changes nothing and returns the same. *)
Theorem C05_idempotent :
  forall (F : Type) (FO : FloatOps F) (fuel : nat) (s s' : Satrec F) (o : SGP4InitOptions F) r,
    sgp4init fuel s o = Done (s', r) -> sgp4init fuel s' o = Done (s', r).
Proof.
  intros F FO fuel s s' o r H. rewrite (C05_reinit F FO fuel s s' s' o r H).
  f_equal. f_equal. destruct s'; reflexivity.
Qed.
Print Assumptions C05_idempotent.

(** Re-initialising a used deep-space record with near-earth options succeeds and gives the same
    near-earth record. *)
Example C05_example :
  match sgp4init 10 geo (tle_options leo) with
  | Done (s', Ok _) => Some (sr_method s', sr_isimp s', sr_error s')
  | _ => None
  end = Some (MethodN, 1%Z, 0%Z).
Proof. vm_compute. reflexivity. Qed.
