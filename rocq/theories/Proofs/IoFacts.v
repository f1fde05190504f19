(** * The element set decoder *)
From Coq Require Import ZArith List Bool Lia PeanoNat String.
From Verif.Model Require Import Float Str Satrec Constants Ext Sgp4 Sgp4init Io.
From Verif.Proofs Require Import StrFacts.
Import ListNotations.
Local Open Scope Z_scope.

Section S.
Context {F : Type} {FO : FloatOps F}.

Lemma bindR_ok {A B E} (x : outcome (result A E)) (k : A -> outcome (result B E)) y :
  bindR x k = Done (Ok y) -> exists a, x = Done (Ok a) /\ k a = Done (Ok y).
Proof. destruct x as [[a|e]| |]; cbn; try discriminate. intros H. now exists a. Qed.
Lemma sliceR_ok l a b y : sliceR l a b = Done (Ok y) <-> slice l a b = Done y.
Proof. unfold sliceR. destruct (slice l a b); cbn; split; congruence. Qed.
Lemma parse_int_ok l n a b v : parse_int l n a b = Done (Ok v) <-> exists x, slice l a b = Done x /\ parse_i64 (trim x) = Some v.
Proof.
  unfold parse_int. destruct (slice l a b) as [x| |]; cbn [bindO].
  - destruct (parse_i64 (trim x)) as [w|] eqn:E; split.
    + intros [= <-]. now exists x.
    + intros (x' & [= <-] & E'). congruence.
    + discriminate.
    + intros (x' & [= <-] & E'). congruence.
  - split; [discriminate|]. now intros (x & ? & _).
  - split; [discriminate|]. now intros (x & ? & _).
Qed.
Lemma parse_float_ok l n a b v : parse_float l n a b = Done (Ok v) <-> exists x, slice l a b = Done x /\ parse_f64 (trim x) = Some v.
Proof.
  unfold parse_float. destruct (slice l a b) as [x| |]; cbn [bindO].
  - destruct (parse_f64 (trim x)) as [w|] eqn:E; split.
    + intros [= <-]. now exists x.
    + intros (x' & [= <-] & E'). congruence.
    + discriminate.
    + intros (x' & [= <-] & E'). congruence.
  - split; [discriminate|]. now intros (x & ? & _).
  - split; [discriminate|]. now intros (x & ? & _).
Qed.

(** What a decoded record is. *)
Lemma parse_satrec_inv l1 l2 s : parse_satrec l1 l2 = Done (Ok s) ->
  exists a b, parse_line1 l1 = Done (Ok a) /\ parse_line2 l2 = Done (Ok b) /\ s = make_satrec a b.
Proof.
  unfold parse_satrec. intros H. apply bindR_ok in H. destruct H as (a & Ha & H).
  apply bindR_ok in H. destruct H as (b & Hb & H). injection H as <-. now exists a, b.
Qed.
Lemma parse_line1_inv l a : parse_line1 l = Done (Ok a) ->
  exists x1 x2 x3 x4 yr nd,
    slice l 2 7 = Done x1 /\ l1_satnum a = trim x1 /\
    slice l 18 20 = Done x2 /\ parse_i64 (trim x2) = Some (l1_epochyr a) /\
    slice l 20 32 = Done x3 /\ parse_f64 (trim x3) = Some (l1_epochdays a) /\
    slice l 33 43 = Done x4 /\ parse_f64 (trim x4) = Some nd /\ l1_ndot a = fdiv nd (fmul kXPDOTP (L 1440 0)) /\
    parse_nddot l = Done (Ok (l1_nddot a)) /\ parse_bstar l = Done (Ok (l1_bstar a)) /\ yr = l1_epochyr a.
Proof.
  unfold parse_line1. intros H.
  apply bindR_ok in H. destruct H as (x1 & H1 & H). apply sliceR_ok in H1.
  apply bindR_ok in H. destruct H as (yr & H2 & H). apply parse_int_ok in H2. destruct H2 as (x2 & H2 & P2).
  apply bindR_ok in H. destruct H as (ed & H3 & H). apply parse_float_ok in H3. destruct H3 as (x3 & H3 & P3).
  apply bindR_ok in H. destruct H as (nd & H4 & H). apply parse_float_ok in H4. destruct H4 as (x4 & H4 & P4).
  apply bindR_ok in H. destruct H as (ndd & H5 & H). apply bindR_ok in H. destruct H as (bs & H6 & H).
  injection H as <-. exists x1, x2, x3, x4, yr, nd. cbn. repeat (split; [assumption || reflexivity|]). reflexivity.
Qed.
(** the year column holds at most two characters *)
Lemma epochyr_range l a : parse_line1 l = Done (Ok a) -> -9 <= l1_epochyr a <= 99.
Proof.
  intros H. apply parse_line1_inv in H. destruct H as (x1 & x2 & x3 & x4 & yr & nd & _ & _ & S2 & P2 & _).
  apply (parse_i64_short _ _ P2). apply slice_blen in S2. pose proof (trim_blen x2). pose proof (length_le_blen (trim x2)). lia.
Qed.
End S.
