(** * A concrete deep-space element set in exact arithmetic

    Drag-free, semi-major axis 4 earth radii, eccentricity up to 0.28, at any inclination, epoch, phase, node
    and perigee. *)
From Coq Require Import ZArith List Bool Reals Lra Psatz.
From Flocq Require Import Core.Raux.
From Verif.Model Require Import Float Str Satrec Constants Vec3 Dscom Dpper Dsinit Dspace Sgp4 Sgp4init.
From Verif.Inst Require Import RInst RTac.
From Verif.Proofs Require Import Sgp4Frame InitKind InitElems DeepInit Str3Init Sgp4Errors.
From Verif.Spec Require Import Str3Api Sgp4Spec.
From Verif.Spec Require Str3.
Local Open Scope R_scope.

Definition dso (ep e i w M nd : R) : SGP4InitOptions R :=
  MkSGP4InitOptions OpsI nil ep 0 e w i M (Str3.ke / 8) nd.
Section Dso.
Variables ep e i w M nd : R.
Hypothesis He : 0 <= e <= 7 / 25.
Notation el := (elements (dso ep e i w M nd)).
Lemma dso_beta : 24 / 25 <= Str3.beta0 el <= 1.
Proof.
  unfold Str3.beta0. cbn [elements dso Str3.e0 in_xecco]. assert (0 <= e ^ 2 <= (7 / 25) ^ 2) by nra. split.
  - replace (24 / 25) with (sqrt ((24 / 25) ^ 2)) by (apply sqrt_pow2; lra). apply sqrt_le_1_alt. lra.
  - apply Rle_trans with (sqrt 1); [apply sqrt_le_1_alt; lra|rewrite sqrt_1; lra].
Qed.
Lemma dso_kozai a : exists k, 0 <= k <= 2 / 1000 /\ Str3.kozai el a = k * (3 * cos i ^ 2 - 1) / a ^ 2.
Proof.
  exists (3 / 2 * Str3.k2 / Str3.beta0 el ^ 3). split.
  - pose proof dso_beta as B. set (b := Str3.beta0 el) in *. clearbody b.
    assert (88 / 100 <= b ^ 3) by (assert (92 / 100 <= b ^ 2) by nra; simpl in *; nra).
    assert (I : 0 < / b ^ 3 <= / (88 / 100)) by (split; [apply Rinv_0_lt_compat; lra|apply Rinv_le_contravar; lra]).
    unfold Rdiv. set (q := / b ^ 3) in *. clearbody q. unfold Str3.k2, Str3.J2. lra.
  - unfold Str3.kozai, Str3.theta. cbn [elements dso Str3.i0 in_xinclo]. unfold Rdiv.
    generalize (/ Str3.beta0 el ^ 3) (/ a ^ 2). intros z q. ring.
Qed.
Lemma dso_a1 : Str3.a1 el = 4.
Proof.
  unfold Str3.a1. cbn [elements dso Str3.n0 in_xno].
  replace (Str3.ke / (Str3.ke / 8)) with (2 ^ 3) by (field; pose proof ke_pos; lra).
  unfold Str3.two_thirds. rewrite <- Rpower_pow by lra. rewrite Rpower_mult.
  replace (INR 3 * (2 / 3)) with (INR 2) by (simpl; field). rewrite Rpower_pow by lra. lra.
Qed.
Lemma cos2_le x : 0 <= cos x ^ 2 <= 1.
Proof. pose proof (COS_bound x). split; [apply pow2_ge_0|nra]. Qed.
Lemma dso_d0 : - (1 / 1000) <= Str3.d0 el <= 1 / 1000.
Proof.
  pose proof (cos2_le i) as C.
  assert (D1 : - (1 / 1000) <= Str3.d1 el <= 1 / 1000).
  { unfold Str3.d1. destruct (dso_kozai (Str3.a1 el)) as (k & K & ->). rewrite dso_a1. nra. }
  assert (A0 : 39 / 10 <= Str3.a0 el <= 41 / 10).
  { unfold Str3.a0. rewrite dso_a1. set (d := Str3.d1 el) in *. clearbody d.
    assert (0 <= d ^ 2 <= 1 / 1000) by nra. assert (- (1 / 1000) <= d ^ 3 <= 1 / 1000) by nra. lra. }
  unfold Str3.d0. destruct (dso_kozai (Str3.a0 el)) as (k & K & ->). set (a := Str3.a0 el) in *. clearbody a.
  assert (0 < / a ^ 2 <= / 15).
  { split; [apply Rinv_0_lt_compat; nra|]. apply Rinv_le_contravar; nra. }
  unfold Rdiv. set (q := / a ^ 2) in *. clearbody q.
  assert (- (2 / 1000) <= k * (3 * cos i ^ 2 - 1) <= 4 / 1000) by nra.
  set (z := k * (3 * cos i ^ 2 - 1)) in *. clearbody z. nra.
Qed.
Lemma dso_n_b : Str3.ke * (124 / 1000) <= Str3.n el <= Str3.ke * (126 / 1000).
Proof.
  change (Str3.n el) with (Str3.ke / 8 / (1 + Str3.d0 el)).
  pose proof dso_d0 as D. pose proof ke_pos as K. set (d := Str3.d0 el) in *. clearbody d.
  assert (I : 998 / 1000 <= / (1 + d) <= 1002 / 1000).
  { split.
    - apply Rmult_le_reg_r with (1 + d); [lra|]. rewrite Rinv_l by lra. lra.
    - apply Rmult_le_reg_r with (1 + d); [lra|]. rewrite Rinv_l by lra. lra. }
  unfold Rdiv at 2 4. nra.
Qed.
Lemma PI_lo : 26 / 10 <= PI.
Proof. pose proof (PI_ineq 0) as [H _]. unfold tg_alt, PI_tg in H. simpl in H. lra. Qed.
Lemma dso_orbital : orbital el /\ 225 <= period el.
Proof.
  pose proof dso_n_b as N. pose proof ke_pos as K. split.
  - split; [cbn; lra|]. split; [cbn; lra|]. lra.
  - unfold period. pose proof PI_lo. assert (Str3.ke = 7436685316871385 / 100000000000000000) as KE by reflexivity. rewrite KE in N.
    apply Rmult_le_reg_r with (Str3.n el); [lra|]. unfold Rdiv. rewrite Rmult_assoc, Rinv_l by lra. lra.
Qed.
Lemma dso_a : 39 / 10 <= Str3.a el <= 41 / 10.
Proof.
  unfold Str3.a. pose proof dso_n_b as N. pose proof ke_pos as K.
  set (q := Str3.ke / Str3.n el). assert (Q : 79 / 10 <= q <= 81 / 10).
  { unfold q. split.
    - apply Rmult_le_reg_r with (Str3.n el); [lra|]. unfold Rdiv at 2. rewrite Rmult_assoc, Rinv_l by lra. nra.
    - apply Rmult_le_reg_r with (Str3.n el); [lra|]. unfold Rdiv at 1. rewrite Rmult_assoc, Rinv_l by lra. nra. }
  clearbody q. unfold Str3.two_thirds.
  assert (C : Rpower q (2 / 3) ^ 3 = q ^ 2).
  { rewrite <- Rpower_pow by apply exp_pos. rewrite Rpower_mult. replace (2 / 3 * INR 3) with (INR 2) by (simpl; field).
    rewrite Rpower_pow by lra. reflexivity. }
  pose proof (exp_pos (2 / 3 * ln q)) as P. fold (Rpower q (2 / 3)) in P. set (z := Rpower q (2 / 3)) in *. clearbody z.
  split; apply Rnot_lt_le; intros B.
  - assert (z ^ 3 < (39 / 10) ^ 3) by (assert (z ^ 2 < (39 / 10) ^ 2) by nra; simpl in *; nra). nra.
  - assert ((41 / 10) ^ 3 < z ^ 3) by (assert ((41 / 10) ^ 2 < z ^ 2) by nra; simpl in *; nra). nra.
Qed.

(** Outside every resonance, so no integration steps. *)
Lemma dso_irez s0 : sr_method (sgp4init_elements (dso ep e i w M nd) s0) = MethodD /\ sr_irez (sgp4init_elements (dso ep e i w M nd) s0) = 0.
Proof.
  destruct dso_orbital as [HO HP].
  assert (D : sr_method (sgp4init_elements (dso ep e i w M nd) s0) = MethodD).
  { destruct (elements_coefs (dso ep e i w M nd) s0 HO) as (_ & _ & _ & _ & ->).
    change (2 * PI / Str3.n el) with (period el). now rewrite Rle_bool_true by exact HP. }
  split; [exact D|].
  destruct (elements_deep (dso ep e i w M nd) s0 _ eq_refl D) as (u & _ & _ & Z).
  set (q := deep_options _ _ _ u) in Z.
  assert (NM : no_nm q = Str3.n el) by (apply initl_no_T, HO).
  assert (EM : no_em q = e) by reflexivity.
  clearbody q. pose proof (f_equal z_irez Z) as ZI. cbn [rez_of rez_r z_irez] in ZI. rewrite ZI, dsinit_irez_eq, NM, EM.
  unfold dsinit_irez. cbv zeta. rops.
  pose proof dso_n_b as N. assert (Str3.ke = 7436685316871385 / 100000000000000000) as KE by reflexivity. rewrite KE in N.
  rewrite (Rlt_bool_false (Str3.n el) (52359877 / 10000000000)) by lra. rewrite (Rle_bool_false (5 / 10) e) by lra.
  rewrite !andb_false_r. reflexivity.
Qed.
End Dso.

Lemma unresonant_done fuel (s : Satrec R) t : sr_irez s = 0 -> exists s' r, sgp4 fuel s t = Done (s', r).
Proof.
  intros D. unfold sgp4. cbv zeta.
  assert (X : exists em, sgp4_em fuel (set_error 0 (set_t t s)) (sgp4_secular (set_error 0 (set_t t s))) = Done em).
  { unfold sgp4_em. destruct (method_eqb _ _); [|eauto]. unfold dspace.
    cbv zeta. match goal with |- context [if ?b then _ else _] => assert (b = false) as -> end.
    - change (sr_irez s) with (sr_irez s). change (so_irez _) with (sr_irez s). rewrite D. rops. now rewrite Req_bool_true by reflexivity.
    - cbn [bindO]. eauto. }
  destruct X as [em ->]. cbn [bindO].
  match goal with |- context [if ?b then _ else _] => destruct b end; [eauto|].
  match goal with |- context [if ?b then _ else _] => destruct b end; [eauto|].
  match goal with |- context [sgp4_tail ?a ?b ?c ?d] => destruct (sgp4_tail a b c d) as [s' r] end. eauto.
Qed.
Lemma dso_done fuel s0 ep e i w M nd : 0 <= e <= 7 / 25 -> exists s r, sgp4init fuel s0 (dso ep e i w M nd) = Done (s, r) /\ sr_irez s = 0.
Proof.
  intros He. destruct (dso_irez ep e i w M nd He s0) as [D Z].
  destruct (unresonant_done fuel _ 0 Z) as (s1 & r1 & H).
  assert (X : exists s r, sgp4init fuel s0 (dso ep e i w M nd) = Done (s, r)).
  { unfold sgp4init. change (@L R ROps 0 0) with 0. rewrite H. cbn [bindO]. destruct r1; eauto. }
  destruct X as (s & r & X). exists s, r. split; [exact X|].
  apply sgp4init_kind in X. pose proof (f_equal kd_irez X) as I. cbn [kind_of kd_irez] in I. now rewrite I.
Qed.

(** The circular one stays well clear of every error condition of the theory, whatever the time and the
    inclination there. *)
Section Circular.
Variables ep i0 w M nd : R.
Notation el := (elements (dso ep 0 i0 w M nd)).
Lemma zle : 0 <= 0 <= 7 / 25. Proof. lra. Qed.
Lemma ci_C1 : Str3.C1 el = 0.
Proof. unfold Str3.C1. cbn [elements dso Str3.Bstar in_xbstar]. ring. Qed.
Lemma ci_e t : Str3.e_unclamped el false t 0 = 0.
Proof. unfold Str3.e_unclamped, Str3.if_full. cbn [elements dso Str3.Bstar Str3.e0 in_xbstar in_xecco]. ring. Qed.
Lemma ci_e2 t : Str3.e el false t 0 = 1 / 1000000.
Proof. unfold Str3.e. rewrite ci_e. apply Rmax_right. lra. Qed.
Lemma ci_at t : Str3.at_ el false t = Str3.a el.
Proof. unfold Str3.at_, Str3.if_full. rewrite ci_C1. ring. Qed.
Lemma ci_eL t i : 0 <= Str3.eL2 el false t 0 i <= 1 / 100000.
Proof.
  unfold Str3.eL2, Str3.axN, Str3.ayN. rewrite ci_e2, ci_at. pose proof (dso_a ep 0 i0 w M nd zle) as A.
  set (a := Str3.a el) in *. clearbody a. set (v := Str3.w el false t). clearbody v.
  pose proof (COS_bound v). pose proof (SIN_bound v). pose proof (SIN_bound i).
  assert (Q : - (1 / 1000) <= Str3.A30 * sin i / (4 * Str3.k2 * a * (1 - (1 / 1000000) ^ 2)) <= 1 / 1000).
  { assert (IA : 0 < / a <= / (39 / 10)) by (split; [apply Rinv_0_lt_compat; lra|apply Rinv_le_contravar; lra]).
    replace (Str3.A30 * sin i / (4 * Str3.k2 * a * (1 - (1 / 1000000) ^ 2))) with
      (Str3.A30 / (4 * Str3.k2 * (1 - (1 / 1000000) ^ 2)) * (sin i * / a)) by (unfold Str3.k2, Str3.J2; field; lra).
    assert (- (26 / 100) <= sin i * / a <= 26 / 100) by nra.
    assert (0 <= Str3.A30 / (4 * Str3.k2 * (1 - (1 / 1000000) ^ 2)) <= 2 / 1000).
    { unfold Str3.A30, Str3.k2, Str3.J2, Str3.J3. lra. }
    set (x := sin i * / a) in *. set (y := Str3.A30 / _) in *. clearbody x y. nra. }
  set (q := Str3.A30 * sin i / _) in *. clearbody q.
  assert (0 <= cos v ^ 2 <= 1 /\ 0 <= sin v ^ 2 <= 1) by (split; split; nra).
  assert (0 <= (1 / 1000000 * cos v) ^ 2 <= 1 / 1000000) by nra.
  assert (- (2 / 1000) <= 1 / 1000000 * sin v + q <= 2 / 1000) by lra.
  set (z := 1 / 1000000 * sin v + q) in *. clearbody z. nra.
Qed.
Lemma ci_pL t i : 38 / 10 <= Str3.pL el false t 0 i.
Proof. unfold Str3.pL. rewrite ci_at. pose proof (ci_eL t i). pose proof (dso_a ep 0 i0 w M nd zle). nra. Qed.
Lemma ci_rk t i E u : 1 <= Str3.rk el false t 0 i E u.
Proof.
  unfold Str3.rk. pose proof (ci_pL t i) as P. pose proof (ci_eL t i) as L2.
  assert (R : 38 / 10 <= Str3.r el false t 0 i E).
  { unfold Str3.r. rewrite ci_at. pose proof (dso_a ep 0 i0 w M nd zle) as A.
    assert (C : Str3.e_cosE el false t 0 i E <= 1 / 100).
    { unfold Str3.e_cosE. unfold Str3.eL2 in L2.
      set (x := Str3.axN el false t 0) in *. set (y := Str3.ayN el false t 0 i) in *. clearbody x y.
      pose proof (sin2_cos2 E) as S. unfold Rsqr in S. pose proof (pow2_ge_0 (x * sin E - y * cos E)).
      assert ((x * cos E + y * sin E) ^ 2 <= (x ^ 2 + y ^ 2) * (cos E * cos E + sin E * sin E)) by nra.
      replace (cos E * cos E + sin E * sin E) with 1 in * by lra. nra. }
    nra. }
  set (r := Str3.r el false t 0 i E) in *. clearbody r.
  set (p := Str3.pL el false t 0 i) in *. clearbody p.
  assert (B : 0 <= sqrt (1 - Str3.eL2 el false t 0 i) <= 1).
  { split; [apply sqrt_pos|]. apply Rle_trans with (sqrt 1); [apply sqrt_le_1_alt; lra|rewrite sqrt_1; lra]. }
  set (b := sqrt _) in *. clearbody b.
  assert (Q : / p ^ 2 <= 1) by (rewrite <- Rinv_1; apply Rinv_le_contravar; [lra|nra]).
  assert (Q0 : 0 < / p ^ 2) by (apply Rinv_0_lt_compat; nra).
  assert (Q2 : 0 < / p <= 1) by (split; [apply Rinv_0_lt_compat; lra|rewrite <- Rinv_1; apply Rinv_le_contravar; lra]).
  pose proof (cos2_le i) as C. pose proof (COS_bound (2 * u)) as CU.
  replace (3 / 2 * Str3.k2 * b / p ^ 2 * (3 * cos i ^ 2 - 1)) with (3 / 2 * Str3.k2 * ((b * / p ^ 2) * (3 * cos i ^ 2 - 1))) by (unfold Rdiv; ring).
  replace (Str3.k2 / (2 * p) * (1 - cos i ^ 2) * cos (2 * u)) with (Str3.k2 / 2 * ((/ p * (1 - cos i ^ 2)) * cos (2 * u))) by (field; lra).
  set (q := / p ^ 2) in *. set (q1 := / p) in *. clearbody q q1.
  assert (0 <= b * q <= 1) by nra. set (bq := b * q) in *. clearbody bq.
  set (c := cos i ^ 2) in *. clearbody c. set (cu := cos (2 * u)) in *. clearbody cu.
  assert (- 1 <= bq * (3 * c - 1) <= 2) by nra.
  assert (0 <= q1 * (1 - c) <= 1) by nra. set (x := q1 * (1 - c)) in *. set (y := bq * (3 * c - 1)) in *. clearbody x y.
  assert (- 1 <= x * cu <= 1) by nra. set (z := x * cu) in *. clearbody z.
  unfold Str3.k2, Str3.J2. nra.
Qed.
End Circular.
