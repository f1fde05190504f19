(** * C12: the solver of Kepler's equation *)
From Coq Require Import ZArith List Bool Reals Lra Lia.
From Flocq Require Import Core.Raux IEEE754.BinarySingleNaN.
From Verif.Model Require Import Float Str Satrec Constants Vec3 Sgp4.
From Verif.Inst Require Import RInst RTac B64.
From Verif.Proofs Require Import KeplerFacts KeplerHigh.
From Verif.Spec Require Import KeplerSpec Sgp4Spec.
From Verif.Golden Require Import Libm Sats.
Local Open Scope R_scope.

(** Exact arithmetic: the solver applies between 1 and 10 limited Newton corrections to the starting
    value u, each of magnitude at most 0.95; it goes on only while corrections are >= 1e-12 and stops
    early only on one below 1e-12.  It returns the sine and cosine of the guess before the last
    correction, and the last guess. *)
Theorem C12_iteration :
  forall ax ay u : R,
    exists j, (j < 10)%nat /\
      sgp4_kepler ax ay u = MkKeplerOut (sin (guess ax ay u j)) (cos (guess ax ay u j)) (guess ax ay u (S j)) /\
      (forall i, Rabs (corr ax ay u i) <= 95 / 100) /\
      (forall i, (i < j)%nat -> 1 / 1000000000000 <= Rabs (corr ax ay u i)) /\
      (j = 9%nat \/ Rabs (corr ax ay u j) < 1 / 1000000000000).
Proof.
  intros ax ay u. destruct (kepler_trace ax ay u large_R) as (j & J1 & J2 & J3 & J4).
  exists j. split; [exact J1|]. split; [exact J2|]. split; [|split].
  - intros i. apply limited_le.
  - intros i Hi. apply J3 in Hi. unfold large in Hi. rops_in Hi. apply Rle_bool_iff in Hi. exact Hi.
  - destruct J4 as [->|J4]; [now left|right]. unfold large in J4. rops_in J4. now apply Rle_bool_iff_f in J4.
Qed.
Print Assumptions C12_iteration.

(** Binary64, whatever libm returns and for every input including NaN and infinities: the same
    iteration; no correction exceeds 0.95 in magnitude (a correction can be NaN, and then the solver
    stops). *)
Theorem C12_iteration_binary64 :
  forall (lm : libm) (ax ay u : b64),
    let g := @guess b64 (B64Ops lm) ax ay u in
    exists j, (j < 10)%nat /\
      @sgp4_kepler b64 (B64Ops lm) ax ay u = MkKeplerOut (lm_sin lm (g j)) (lm_cos lm (g j)) (g (S j)) /\
      (forall i, Bltb (b64_lit 95 (-2)) (Babs (@corr b64 (B64Ops lm) ax ay u i)) = false) /\
      (forall i, (i < j)%nat -> Bleb (b64_lit 1 (-12)) (Babs (@corr b64 (B64Ops lm) ax ay u i)) = true) /\
      (j = 9%nat \/ Bleb (b64_lit 1 (-12)) (Babs (@corr b64 (B64Ops lm) ax ay u j)) = false).
Proof.
  intros lm ax ay u g. assert (Hl : @large b64 (B64Ops lm) (L 99999 1) = true) by (vm_compute; reflexivity).
  destruct (@kepler_trace b64 (B64Ops lm) ax ay u Hl) as (j & J1 & J2 & J3 & J4).
  exists j. split; [exact J1|]. split; [exact J2|]. split; [|exact (conj J3 J4)].
  clear. intros i. unfold corr. generalize (@newton b64 (B64Ops lm) ax ay u (@guess b64 (B64Ops lm) ax ay u i)). intros c.
  unfold limited. destruct (@fle b64 (B64Ops lm) (L 95 2) (fabs c)) eqn:E.
  - destruct (@flt b64 (B64Ops lm) (L 0 0) c); vm_compute; reflexivity.
  - revert E. change (@fle b64 (B64Ops lm) (L 95 2) (fabs c)) with (Bleb (b64_lit 95 (-2)) (Babs c)).
    unfold Bleb, Bltb, SpecFloat.SFleb, SpecFloat.SFltb. destruct (SpecFloat.SFcompare _ _) as [[]|]; congruence.
Qed.
Print Assumptions C12_iteration_binary64.

(** Exact arithmetic, eccentricity vector inside the unit disc: Kepler's equation
    u = E - ax sin E + ay cos E has exactly one solution. *)
Theorem C12_unique_solution :
  forall ax ay u : R, ax * ax + ay * ay < 1 ->
    exists! E, u = E - ax * sin E + ay * cos E.
Proof.
  intros ax ay u H. set (e := sqrt (ax * ax + ay * ay)).
  assert (N : 0 <= ax * ax + ay * ay) by nra.
  assert (E2 : ax * ax + ay * ay = e * e) by (unfold e; rewrite sqrt_sqrt; auto).
  assert (He : 0 <= e < 1). { split; [apply sqrt_pos|]. unfold e. rewrite <- sqrt_1. now apply sqrt_lt_1_alt. }
  destruct (kep_root ax ay u e He E2) as (r & R1 & R2). exists r. split; [symmetry; exact R1|].
  intros y Hy. apply (kep_inj ax ay e He E2). rewrite R1. exact Hy.
Qed.
Print Assumptions C12_unique_solution.

(** When it stops before the tenth correction, the sine and cosine returned are those of an angle E
    whose residual is at most 1e-12 times the derivative there, and which is within
    2e-12 / (1 - e) of the solution. *)
Theorem C12_residual :
  forall ax ay u e : R, 0 <= e < 1 -> ax * ax + ay * ay = e * e ->
    exists E, ko_sineo1 (sgp4_kepler ax ay u) = sin E /\ ko_coseo1 (sgp4_kepler ax ay u) = cos E /\
      (Rabs (ko_eo1 (sgp4_kepler ax ay u) - E) < 1 / 1000000000000 ->
         Rabs (u - (E - ax * sin E + ay * cos E)) <= / 1000000000000 * (1 - ax * cos E - ay * sin E) /\
         forall r, u = r - ax * sin r + ay * cos r -> Rabs (E - r) <= 2 / 1000000000000 / (1 - e)).
Proof.
  intros ax ay u e He H. destruct (kepler_trace ax ay u large_R) as (j & J1 & -> & _ & _).
  exists (guess ax ay u j). unfold out. cbn [ko_sineo1 ko_coseo1 ko_eo1]. split; [reflexivity|]. split; [reflexivity|].
  cbn [guess]. rops. fold (corr ax ay u j). intros S.
  assert (S' : large (corr ax ay u j) = false).
  { unfold large. rops. apply Rle_bool_false.
    replace (corr ax ay u j) with (guess ax ay u j + corr ax ay u j - guess ax ay u j) by ring. exact S. }
  pose proof (small_residual ax ay u e He H (guess ax ay u j) S') as Q. unfold kep, dkep in Q.
  rewrite (Rmult_comm (cos _)), (Rmult_comm (sin _) ay) in Q.
  split; [exact Q|]. intros r Hr.
  pose proof (dkep_bounds ax ay e He H (guess ax ay u j)) as B. unfold dkep in B.
  rewrite (Rmult_comm (cos _)), (Rmult_comm (sin _) ay) in B.
  pose proof (kep_expands ax ay e He H (guess ax ay u j) r) as K. unfold kep in K at 1. rewrite <- Hr in K.
  assert (K2 : (1 - e) * Rabs (guess ax ay u j - r) <= 2 / 1000000000000).
  { rewrite Rabs_minus_sym. eapply Rle_trans; [exact K|]. unfold kep. eapply Rle_trans; [exact Q|]. lra. }
  apply Rmult_le_reg_l with (1 - e); [lra|]. replace ((1 - e) * (2 / 1000000000000 / (1 - e))) with (2 / 1000000000000) by (field; lra).
  exact K2.
Qed.
Print Assumptions C12_residual.

(** For eccentricities up to 1/2 it always does stop that way, after at most seven corrections. *)
Theorem C12_converges :
  forall ax ay u e : R, 0 <= e <= / 2 -> ax * ax + ay * ay = e * e ->
    exists j, (j <= 6)%nat /\
      sgp4_kepler ax ay u = MkKeplerOut (sin (guess ax ay u j)) (cos (guess ax ay u j)) (guess ax ay u (S j)) /\
      Rabs (guess ax ay u (S j) - guess ax ay u j) < 1 / 1000000000000.
Proof.
  intros ax ay u e He H. assert (He1 : 0 <= e < 1) by lra.
  destruct (kep_root ax ay u e He1 H) as (r & R1 & R2).
  pose proof (seventh_small ax ay u e He1 H (proj2 He) r R1 R2) as S.
  destruct (kepler_trace ax ay u large_R) as (j & J1 & J2 & J3 & J4). exists j.
  assert (J : (j <= 6)%nat).
  { destruct (Compare_dec.le_lt_dec j 6) as [|G]; [assumption|]. apply J3 in G. congruence. }
  split; [exact J|]. split; [exact J2|]. destruct J4 as [->|J4]; [lia|].
  cbn [guess]. rops. fold (corr ax ay u j). replace (guess ax ay u j + corr ax ay u j - guess ax ay u j) with (corr ax ay u j) by ring.
  unfold large in J4. rops_in J4. now apply Rle_bool_iff_f in J4.
Qed.
Print Assumptions C12_converges.

(** For eccentricities up to 0.77 (geostationary transfer and Molniya orbits included) it still stops that way, so the limit of ten corrections never cuts the iteration short, and the angle whose
    sine and cosine it returns is within 9e-12 of the one solution. *)
Theorem C12_converges_eccentric :
  forall ax ay u e : R, 0 <= e <= 77 / 100 -> ax * ax + ay * ay = e * e ->
    exists (j : nat) (E : R), (j < 10)%nat /\
      sgp4_kepler ax ay u = MkKeplerOut (sin (guess ax ay u j)) (cos (guess ax ay u j)) (guess ax ay u (S j)) /\
      Rabs (guess ax ay u (S j) - guess ax ay u j) < 1 / 1000000000000 /\
      u = E - ax * sin E + ay * cos E /\ Rabs (guess ax ay u j - E) <= 9 / 1000000000000.
Proof.
  intros ax ay u e He H. assert (He1 : 0 <= e < 1) by lra.
  destruct (kep_root ax ay u e He1 H) as (r & R1 & R2).
  destruct (tenth_small ax ay u e He H r R1 R2) as (_ & S).
  destruct (kepler_trace ax ay u large_R) as (j & J1 & J2 & J3 & J4). exists j, r. split; [exact J1|]. split; [exact J2|].
  assert (SM : large (corr ax ay u j) = false) by (destruct J4 as [->|J4]; assumption).
  split; [|split].
  - cbn [guess]. rops. fold (corr ax ay u j). replace (guess ax ay u j + corr ax ay u j - guess ax ay u j) with (corr ax ay u j) by ring.
    unfold large in SM. rops_in SM. now apply Rle_bool_iff_f in SM.
  - rewrite <- R1. reflexivity.
  - pose proof (small_residual ax ay u e He1 H _ SM) as Q. pose proof (dkep_bounds _ _ e He1 H (guess ax ay u j)) as DB.
    pose proof (kep_expands ax ay e He1 H (guess ax ay u j) r) as KE. rewrite R1, (Rabs_minus_sym r) in KE.
    pose proof (Rabs_pos (guess ax ay u j - r)). nra.
Qed.
Print Assumptions C12_converges_eccentric.

(** Non-vacuity: an eccentricity vector of length 1/2; in binary64, one of length 0.72, where the solver
    stops on its sixth correction. *)
Example C12_example :
  (3/10) * (3/10) + (4/10) * (4/10) = (1/2) * (1/2) /\
  (72/125) * (72/125) + (54/125) * (54/125) = (72/100) * (72/100) /\
  map (fun i => large (corr (lit 6 (-1)) (lit 4 (-1)) (lit 1 0) i)) (seq 0 6)
  = (true :: true :: true :: true :: true :: false :: nil)%list.
Proof. split; [lra|]. split; [lra|]. vm_compute. reflexivity. Qed.
