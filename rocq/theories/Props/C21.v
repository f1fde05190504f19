(** * C21: long-period lunar-solar corrections *)
From Coq Require Import ZArith List Bool Reals Lra Lia.
From Flocq Require Import Core.Raux.
From Verif.Model Require Import Float Str Satrec Constants Vec3 Dpper.
From Verif.Inst Require Import RInst RTac B64Rem Atan2.
From Verif.Spec Require Import PeriodicSpec.
Import ListNotations.

(** In init mode dpper returns the elements it was given, whatever the arithmetic. *)
Theorem C21_init_mode :
  forall {F} {FO : FloatOps F} (s : Satrec F) (o : DpperOptions F),
    po_init o <> InitN ->
    dpper s o = MkDpperResult (po_ep o) (po_inclp o) (po_nodep o) (po_argpp o) (po_mp o).
Proof.
  intros F FO s o H. unfold dpper. cbv zeta. destruct (po_init o); [|now elim H]. reflexivity.
Qed.
Print Assumptions C21_init_mode.

Local Open Scope R_scope.
Lemma f2_R f : 5 / 10 * sin f * sin f - 25 / 100 = - cos (2 * f) / 4.
Proof. rewrite cos_2a_sin. field. Qed.
Lemma f3_R f : - (5 / 10) * sin f * cos f = - sin (2 * f) / 4.
Proof. rewrite sin_2a. field. Qed.

Lemma terms_R (s : Satrec R) : let p := dpper_terms s InitN in let t := sr_t s in
  pt_pe p - sr_peo s = d_ecc s t /\ pt_pinc p - sr_pinco s = d_incl s t /\
  pt_pl p - sr_plo s = d_mean s t /\ pt_pgh p - sr_pgho s = d_gh s t /\ pt_ph p - sr_pho s = d_h s t.
Proof.
  cbv zeta. unfold dpper_terms. cbv zeta. cbn [init_eqb pt_pe pt_pinc pt_pl pt_pgh pt_ph].
  unfold dpper_ZNS, dpper_ZES, dpper_ZNL, dpper_ZEL. rops.
  assert (S : sr_zmos s + 119459 / 10000000000 * sr_t s + 2 * (1675 / 100000) * sin (sr_zmos s + 119459 / 10000000000 * sr_t s) = sun_at s (sr_t s)).
  { unfold sun_at, longitude, n_sun, e_sun. assert (E : 0.0000119459 = 119459 / 10000000000) by lra. rewrite E. lra. }
  assert (M : sr_zmol s + 15835218 / 100000000000 * sr_t s + 2 * (549 / 10000) * sin (sr_zmol s + 15835218 / 100000000000 * sr_t s) = moon_at s (sr_t s)).
  { unfold moon_at, longitude, n_moon, e_moon. assert (E : 0.00015835218 = 15835218 / 100000000000) by lra. rewrite E. lra. }
  rewrite S, M, !f2_R, !f3_R. clear S M.
  unfold d_ecc, d_incl, d_mean, d_gh, d_h, wave. repeat split; field.
Qed.

Section Cases.
Context (s : Satrec R) (o : DpperOptions R).
Let t := sr_t s.
Let i1 := po_inclp o + d_incl s t.
Lemma dpper_R : po_init o = InitN ->
  dpper s o = if Rle_bool (2 / 10) i1
    then dpper_direct (sin i1) (cos i1) (po_ep o + d_ecc s t) i1 (po_nodep o) (po_argpp o) (po_mp o) (d_mean s t) (d_gh s t) (d_h s t)
    else dpper_lyddane (po_opsmode o) (sin i1) (cos i1) (po_ep o + d_ecc s t) i1 (po_nodep o) (po_argpp o) (po_mp o) (d_incl s t) (d_mean s t) (d_gh s t) (d_h s t).
Proof.
  intros I. destruct (terms_R s) as (E1 & E2 & E3 & E4 & E5). unfold dpper. rewrite I. cbv zeta. cbn [init_eqb].
  rops. rewrite E1, E2, E3, E4, E5. reflexivity.
Qed.
End Cases.

(** Eccentricity, inclination and mean anomaly are corrected directly in every case. *)
Theorem C21_direct_elements :
  forall (s : Satrec R) (o : DpperOptions R),
    po_init o = InitN ->
    let t := sr_t s in let r := dpper s o in
    pr_ep r = po_ep o + d_ecc s t /\ pr_inclp r = po_inclp o + d_incl s t /\ pr_mp r = po_mp o + d_mean s t.
Proof.
  intros s o I t r. unfold r. rewrite (dpper_R s o I). case Rle_bool; repeat split.
Qed.
Print Assumptions C21_direct_elements.

(** From a corrected inclination of 0.2 rad the node and perigee are corrected by the direct formulas. *)
Theorem C21_direct :
  forall (s : Satrec R) (o : DpperOptions R),
    po_init o = InitN -> let t := sr_t s in let i1 := po_inclp o + d_incl s t in
    0.2 <= i1 ->
    let r := dpper s o in
    pr_nodep r = po_nodep o + d_h s t / sin i1 /\
    pr_argpp r = po_argpp o + (d_gh s t - cos i1 * (d_h s t / sin i1)) /\
    pr_argpp r + cos i1 * pr_nodep r = po_argpp o + cos i1 * po_nodep o + d_gh s t.
Proof.
  intros s o I t i1 H r. unfold r. rewrite (dpper_R s o I).
  rewrite Rle_bool_t by (fold t; fold i1; lra). unfold dpper_direct. cbv zeta. cbn [pr_nodep pr_argpp]. rops. fold t. fold i1.
  repeat split; ring.
Qed.
Print Assumptions C21_direct.

(** Below 0.2 rad (Lyddane): the returned node has the direction of the corrected vector
    (alpha, beta) = sin i (sin node, cos node) + its first-order change, lies within half a turn of a
    representative xn of the input node, and mean anomaly + perigee + cos(i) node is the corrected
    longitude. *)
Theorem C21_lyddane :
  forall (s : Satrec R) (o : DpperOptions R),
    po_init o = InitN -> let t := sr_t s in let i1 := po_inclp o + d_incl s t in let node := po_nodep o in
    i1 < 0.2 ->
    let r := dpper s o in
    let alpha := sin i1 * sin node + (d_h s t * cos node + d_incl s t * cos i1 * sin node) in
    let beta := sin i1 * cos node + (- d_h s t * sin node + d_incl s t * cos i1 * cos node) in
    let rho := sqrt (beta * beta + alpha * alpha) in
    (beta = rho * cos (pr_nodep r) /\ alpha = rho * sin (pr_nodep r)) /\
    exists (xn : R) (k : Z),
      xn = node + 2 * PI * IZR k /\ - (2 * PI) < xn < 2 * PI /\ (po_opsmode o = OpsA -> 0 <= xn) /\
      Rabs (pr_nodep r - xn) <= PI /\
      pr_mp r + pr_argpp r + cos i1 * pr_nodep r =
        po_mp o + po_argpp o + cos i1 * xn + (d_mean s t + d_gh s t - d_incl s t * xn * sin i1).
Proof.
  intros s o I t i1 node H r alpha beta rho. unfold r. rewrite (dpper_R s o I).
  rewrite Rle_bool_f by (fold t; fold i1; lra). fold t. fold i1. fold node. clear r.
  unfold dpper_lyddane. cbv zeta. cbn [pr_nodep pr_argpp pr_mp]. unfold dpper_TWO_PI, kPI. rops.
  fold alpha. fold beta. pose proof PI_RGT_0 as P.
  pose proof (Rrem_lt node (2 * PI) ltac:(lra)) as A. rewrite (Rabs_pos_eq (2 * PI)) in A by lra. apply Rabs_def2 in A.
  assert (K : Rrem node (2 * PI) = node + 2 * PI * IZR (- Ztrunc (node / (2 * PI)))).
  { unfold Rrem. rewrite opp_IZR. ring. }
  set (ma := opsmode_eqb (po_opsmode o) OpsA).
  set (xn := if (Rlt_bool (Rrem node (2 * PI)) 0 && ma)%bool then Rrem node (2 * PI) + 2 * PI else Rrem node (2 * PI)).
  assert (X : (exists k : Z, xn = node + 2 * PI * IZR k) /\ - (2 * PI) < xn < 2 * PI /\ (ma = true -> 0 <= xn)).
  { unfold xn. case Rlt_bool_spec; intros HN; destruct ma; cbn [andb].
    - split; [|split; [lra|intros _; lra]]. exists (- Ztrunc (node / (2 * PI)) + 1)%Z. rewrite K, plus_IZR. ring.
    - split; [eexists; exact K|]. split; [lra|discriminate].
    - split; [eexists; exact K|]. split; [lra|intros _; lra].
    - split; [eexists; exact K|]. split; [lra|discriminate]. }
  destruct X as ((k & X1) & X2 & X3). clearbody xn. clear K A.
  destruct (Ratan2_polar alpha beta) as [B1 B2]. fold rho in B1, B2. pose proof (Ratan2_range alpha beta) as RR.
  set (n0 := Ratan2 alpha beta) in *.
  set (n1 := if (Rlt_bool n0 0 && ma)%bool then n0 + 2 * PI else n0).
  assert (N1 : (cos n1 = cos n0 /\ sin n1 = sin n0) /\ Rabs (xn - n1) < 3 * PI).
  { unfold n1. case Rlt_bool_spec; intros HN; destruct ma eqn:EM; cbn [andb].
    - split; [split; [replace (n0 + 2 * PI) with (n0 + 2 * PI * IZR 1) by ring; apply cos_turns
                     |replace (n0 + 2 * PI) with (n0 + 2 * PI * IZR 1) by ring; apply sin_turns]|].
      specialize (X3 eq_refl). apply Rabs_def1; lra.
    - split; [now split|]. apply Rabs_def1; lra.
    - split; [now split|]. specialize (X3 eq_refl). apply Rabs_def1; lra.
    - split; [now split|]. destruct (Rle_lt_dec xn 0); apply Rabs_def1; lra. }
  destruct N1 as [[C1 S1] D1]. clearbody n1.
  set (n2 := if Rlt_bool PI (Rabs (xn - n1)) then (if Rlt_bool n1 xn then n1 + 2 * PI else n1 - 2 * PI) else n1).
  assert (N2 : (cos n2 = cos n1 /\ sin n2 = sin n1) /\ Rabs (n2 - xn) <= PI).
  { unfold n2. apply Rabs_def2 in D1. case Rlt_bool_spec; intros HN.
    - case Rlt_bool_spec; intros HM.
      + rewrite Rabs_pos_eq in HN by lra. split; [|apply Rabs_le; lra].
        replace (n1 + 2 * PI) with (n1 + 2 * PI * IZR 1) by ring. split; [apply cos_turns|apply sin_turns].
      + rewrite Rabs_left1 in HN by lra. split; [|apply Rabs_le; lra].
        replace (n1 - 2 * PI) with (n1 + 2 * PI * IZR (-1)) by ring. split; [apply cos_turns|apply sin_turns].
    - split; [now split|]. rewrite Rabs_minus_sym. exact HN. }
  destruct N2 as [[C2 S2] D2]. clearbody n2.
  split; [rewrite C2, S2, C1, S1; now split|].
  exists xn, k. split; [exact X1|]. split; [exact X2|]. split; [intros E; apply X3; unfold ma; now rewrite E|].
  split; [exact D2|ring].
Qed.
Print Assumptions C21_lyddane.

(** Non-vacuity: records whose periodics are not zero on both sides of the limit. *)
Definition zs : Satrec R := set_t 0 satrec_zero.
Example C21_example :
  exists (s : Satrec R) (o1 o2 : DpperOptions R),
    po_init o1 = InitN /\ po_init o2 = InitN /\ d_incl s (sr_t s) = 0.1 /\
    0.2 <= po_inclp o1 + d_incl s (sr_t s) /\ po_inclp o2 + d_incl s (sr_t s) < 0.2.
Proof.
  exists (set_pinco (-0.1) satrec_zero), (MkDpperOptions InitN OpsI 0.1 0.1 0.1 1 1 1), (MkDpperOptions InitN OpsI 0.1 0.1 0.05 1 1 1).
  assert (E : d_incl (set_pinco (-0.1) satrec_zero) (sr_t (set_pinco (-0.1) satrec_zero)) = 0.1).
  { unfold d_incl, wave. cbn [sr_si2 sr_si3 sr_xi2 sr_xi3 sr_pinco set_pinco satrec_zero]. rops. lra. }
  rewrite E. cbn [po_init po_inclp]. repeat split; lra.
Qed.
