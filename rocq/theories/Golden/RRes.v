(** * Concrete resonant element sets in exact arithmetic

    Drag-free, mean motion ke/c^3 with 2 <= c <= 3 (semi-major axis c^2 earth radii), eccentricity up to 0.8, at any
    inclination, epoch, phase, node and perigee. *)
From Coq Require Import ZArith List Bool Reals Lra Psatz.
From Flocq Require Import Core.Raux.
From Verif.Model Require Import Float Str Satrec Constants Vec3 Dscom Dpper Dsinit Dspace Sgp4 Sgp4init.
From Verif.Inst Require Import RInst RTac.
From Verif.Proofs Require Import Str3Init.
From Verif.Spec Require Import Str3Api.
From Verif.Spec Require Str3.
From Verif.Golden Require Import RDeep.
Local Open Scope R_scope.

Definition rso (c ep e i w M nd : R) : SGP4InitOptions R :=
  MkSGP4InitOptions OpsI nil ep 0 e w i M (Str3.ke / c ^ 3) nd.
Section Rso.
Variables c ep e i w M nd : R.
Hypothesis Hc : 2 <= c <= 3.
Hypothesis He : 0 <= e <= 4 / 5.
Notation el := (elements (rso c ep e i w M nd)).
Lemma rso_beta : 3 / 5 <= Str3.beta0 el <= 1.
Proof.
  unfold Str3.beta0. cbn [elements rso Str3.e0 in_xecco]. assert (0 <= e ^ 2 <= (4 / 5) ^ 2) by nra. split.
  - replace (3 / 5) with (sqrt ((3 / 5) ^ 2)) by (apply sqrt_pow2; lra). apply sqrt_le_1_alt. lra.
  - apply Rle_trans with (sqrt 1); [apply sqrt_le_1_alt; lra|rewrite sqrt_1; lra].
Qed.
Lemma rso_kozai a : exists k, 0 <= k <= 4 / 1000 /\ Str3.kozai el a = k * (3 * cos i ^ 2 - 1) / a ^ 2.
Proof.
  exists (3 / 2 * Str3.k2 / Str3.beta0 el ^ 3). split.
  - pose proof rso_beta as B. set (b := Str3.beta0 el) in *. clearbody b.
    assert (216 / 1000 <= b ^ 3) by (assert (36 / 100 <= b ^ 2) by nra; simpl in *; nra).
    assert (I : 0 < / b ^ 3 <= / (216 / 1000)) by (split; [apply Rinv_0_lt_compat; lra|apply Rinv_le_contravar; lra]).
    unfold Rdiv. set (q := / b ^ 3) in *. clearbody q. unfold Str3.k2, Str3.J2. lra.
  - unfold Str3.kozai, Str3.theta. cbn [elements rso Str3.i0 in_xinclo]. unfold Rdiv.
    generalize (/ Str3.beta0 el ^ 3) (/ a ^ 2). intros z q. ring.
Qed.
Lemma rso_a1 : Str3.a1 el = c ^ 2.
Proof.
  unfold Str3.a1. cbn [elements rso Str3.n0 in_xno].
  replace (Str3.ke / (Str3.ke / c ^ 3)) with (c ^ 3) by (field; pose proof ke_pos; lra).
  unfold Str3.two_thirds. rewrite <- Rpower_pow by lra. rewrite Rpower_mult.
  replace (INR 3 * (2 / 3)) with (INR 2) by (simpl; field). rewrite Rpower_pow by lra. reflexivity.
Qed.
Lemma small_q z q : - (4 / 1000) <= z <= 8 / 1000 -> 0 < q <= / 12 -> - (1 / 1000) <= z * q <= 1 / 1000.
Proof. intros. split; nra. Qed.
Lemma rso_d0 : - (1 / 1000) <= Str3.d0 el <= 1 / 1000.
Proof.
  pose proof (cos2_le i) as C.
  assert (K : forall a, 12 <= a ^ 2 -> - (1 / 1000) <= Str3.kozai el a <= 1 / 1000).
  { intros a Ha. destruct (rso_kozai a) as (k & K & ->). unfold Rdiv at 2 4. apply small_q; [split; nra|].
    split; [apply Rinv_0_lt_compat; lra|apply Rinv_le_contravar; lra]. }
  assert (C2 : 4 <= c ^ 2) by nra.
  assert (D1 : - (1 / 1000) <= Str3.d1 el <= 1 / 1000).
  { unfold Str3.d1. apply K. rewrite rso_a1. nra. }
  unfold Str3.d0. apply K.
  assert (A0 : 39 / 10 <= Str3.a0 el).
  { unfold Str3.a0. rewrite rso_a1. set (d := Str3.d1 el) in *. clearbody d.
    assert (0 <= d ^ 2 <= 1 / 1000) by nra. assert (- (1 / 1000) <= d ^ 3 <= 1 / 1000) by nra.
    set (f := 1 - _ - _ - _). assert (39 / 40 <= f) by (unfold f; lra). clearbody f. nra. }
  nra.
Qed.
Lemma rso_n_b : Str3.ke / c ^ 3 * (998 / 1000) <= Str3.n el <= Str3.ke / c ^ 3 * (1002 / 1000).
Proof.
  change (Str3.n el) with (Str3.ke / c ^ 3 / (1 + Str3.d0 el)).
  pose proof rso_d0 as D. pose proof ke_pos as K. set (d := Str3.d0 el) in *. clearbody d.
  assert (I : 998 / 1000 <= / (1 + d) <= 1002 / 1000).
  { split.
    - apply Rmult_le_reg_r with (1 + d); [lra|]. rewrite Rinv_l by lra. lra.
    - apply Rmult_le_reg_r with (1 + d); [lra|]. rewrite Rinv_l by lra. lra. }
  assert (P : 0 < Str3.ke / c ^ 3) by (apply Rdiv_lt_0_compat; [exact K|apply pow_lt; lra]).
  set (v := Str3.ke / c ^ 3) in *. clearbody v. change (v / (1 + d)) with (v * / (1 + d)). split; apply Rmult_le_compat_l; lra.
Qed.
Lemma rso_orbital : orbital el /\ 225 <= period el.
Proof.
  pose proof rso_n_b as N. pose proof ke_pos as K.
  assert (C3 : 8 <= c ^ 3) by (assert (4 <= c ^ 2) by nra; simpl in *; nra).
  assert (P : 0 < Str3.ke / c ^ 3 <= Str3.ke / 8).
  { split; [apply Rdiv_lt_0_compat; lra|]. unfold Rdiv. apply Rmult_le_compat_l; [lra|apply Rinv_le_contravar; lra]. }
  split.
  - split; [exact (proj1 P)|]. split; [cbn; lra|]. lra.
  - unfold period. pose proof PI_lo. assert (Str3.ke = 7436685316871385 / 100000000000000000) as KE by reflexivity. rewrite KE in P, N.
    apply Rmult_le_reg_r with (Str3.n el); [lra|]. unfold Rdiv. rewrite Rmult_assoc, Rinv_l by lra. lra.
Qed.
End Rso.
