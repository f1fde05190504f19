(** * C02: propagation only touches its scratch fields *)
From Coq Require Import ZArith List Bool.
From Verif.Model Require Import Float Str Satrec Vec3 Sgp4.
From Verif.Spec Require Import Sgp4Spec.
From Verif.Proofs Require Import Sgp4Frame.
From Verif.Inst Require Import B64.
From Verif.Golden Require Import Sats.

(** Near earth: the record after the call is the record before it with new [t] and [error]. *)
Theorem C02_near_earth :
  forall (F : Type) (FO : FloatOps F) (fuel : nat) (s s' : Satrec F) (t : F) r,
    sr_method s = MethodN ->
    sgp4 fuel s t = Done (s', r) ->
    exists e, s' = set_error e (set_t t s).
Proof. intros F FO fuel s s' t r HN H. exists (flag_of r). exact (proj1 (sgp4_frame fuel s t s' r H) HN). Qed.
Print Assumptions C02_near_earth.

(** Deep space: additionally [aycof], [xlcof], [con41], [x1mth2], [x7thm1] may be new. *)
Theorem C02_deep_space :
  forall (F : Type) (FO : FloatOps F) (fuel : nat) (s s' : Satrec F) (t : F) r,
    sr_method s = MethodD ->
    sgp4 fuel s t = Done (s', r) ->
    exists e a x c p q,
      s' = set_error e (set_t t (set_aycof a (set_xlcof x (set_con41 c (set_x1mth2 p (set_x7thm1 q s)))))).
Proof.
  intros F FO fuel s s' t r HD H. exists (flag_of r).
  exact (proj2 (sgp4_frame fuel s t s' r H) HD).
Qed.
Print Assumptions C02_deep_space.

(** In particular elements, epoch, identification and integrator state never change, over any history. *)
Theorem C02_elements_preserved :
  forall (F : Type) (FO : FloatOps F) (calls : list (nat * F)) (s s' : Satrec F),
    after_calls s calls = Done s' ->
    sr_name s' = sr_name s /\ sr_satnum s' = sr_satnum s /\ sr_epochyr s' = sr_epochyr s /\
    sr_epochdays s' = sr_epochdays s /\ sr_jdsatepoch s' = sr_jdsatepoch s /\
    sr_bstar s' = sr_bstar s /\ sr_inclo s' = sr_inclo s /\ sr_nodeo s' = sr_nodeo s /\
    sr_ecco s' = sr_ecco s /\ sr_argpo s' = sr_argpo s /\ sr_mo s' = sr_mo s /\ sr_no s' = sr_no s /\
    sr_method s' = sr_method s /\ sr_isimp s' = sr_isimp s /\ sr_init s' = sr_init s /\
    sr_operationmode s' = sr_operationmode s /\
    sr_atime s' = sr_atime s /\ sr_xli s' = sr_xli s /\ sr_xni s' = sr_xni s.
Proof.
  intros F FO calls. induction calls as [|[n t0] rest IH]; intros s s' H; cbn [after_calls] in H.
  - injection H as <-. repeat split.
  - destruct (sgp4 n s t0) as [[s1 r1]| |] eqn:E; cbn [bindO] in H; try discriminate.
    apply IH in H. apply sgp4_frame in E. destruct E as [HN HD].
    assert (E : exists e a x c p q, s1 = set_error e (set_t t0 (scratch5 a x c p q s))).
    { destruct (sr_method s).
      - exists (flag_of r1). do 5 eexists. rewrite (HN eq_refl). f_equal. f_equal. apply scratch_id.
      - exists (flag_of r1). exact (HD eq_refl). }
    destruct E as (e & a & x & c & p & q & ->). exact H.
Qed.
Print Assumptions C02_elements_preserved.

(** Non-vacuity: both methods occur with successful calls. *)
Example C02_example : (prop_ok iss (lit 100 0), prop_ok ds (lit 100 0)) = (true, true).
Proof. vm_compute. reflexivity. Qed.
