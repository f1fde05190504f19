(** * C14: Kepler's third law ties mean motion and semi-major axis *)
From Coq Require Import ZArith List Bool Reals Lra.
From Flocq Require Import Core.Raux.
From Verif.Model Require Import Float Str Satrec Constants Vec3 Initl Sgp4 Sgp4init Io.
From Verif.Inst Require Import RInst RTac.
From Verif.Proofs Require Import IoFacts InitElems.
From Verif.Spec Require Import Sgp4Spec.
From Verif.Golden Require Import RSat Sats.
From Verif.Props Require Import C13.
Import ListNotations.
Local Open Scope R_scope.

(** sqrt(mu) in earth radii^1.5 per minute (WGS-72), minutes per time unit, J2: the documented values *)
Definition xke : R := 7436685316871385 / 100000000000000000.
Definition tumin : R := 13446851082044981 / 1000000000000000.
Definition j2 : R := 108262998905 / 100000000000000.

Lemma pow23 x : 0 < x -> (Rpow x (2 / 3)) ^ 3 = x ^ 2.
Proof.
  intros H. unfold Rpow. rewrite Rlt_bool_true by exact H.
  rewrite <- !Rpower_pow; [|exact H|apply exp_pos]. rewrite Rpower_mult. f_equal. simpl; field.
Qed.
Lemma pow23_pos x : 0 < x -> 0 < Rpow x (2 / 3).
Proof. intros H. unfold Rpow. rewrite Rlt_bool_true by exact H. apply exp_pos. Qed.
Lemma pow_m23 x : 0 < x -> (Rpow x (- (2) / 3)) ^ 3 * x ^ 2 = 1 /\ 0 < Rpow x (- (2) / 3).
Proof.
  intros H. unfold Rpow. rewrite Rlt_bool_true by exact H. split; [|apply exp_pos].
  rewrite <- !Rpower_pow; [|exact H|apply exp_pos]. rewrite Rpower_mult, <- Rpower_plus.
  replace (- (2) / 3 * INR 3 + INR 2) with 0 by (simpl; field). apply Rpower_O, H.
Qed.
Lemma pow15 x : 0 < x -> (Rpow x (15 / 10)) ^ 2 = x ^ 3 /\ 0 < Rpow x (15 / 10).
Proof.
  intros H. unfold Rpow. rewrite Rlt_bool_true by exact H. split; [|apply exp_pos].
  rewrite <- !Rpower_pow; [|exact H|apply exp_pos]. rewrite Rpower_mult. f_equal. simpl; field.
Qed.

(** Initialisation constants (exact arithmetic), whenever the recovered mean motion is positive. *)
Theorem C14_init_third_law :
  forall o : InitlOptions R, let r := initl o in let e := il_ecco o in let i := il_inclo o in
    0 < ir_no r ->
    ir_ao r ^ 3 * ir_no r ^ 2 = xke ^ 2 /\ 0 < ir_ao r /\ ir_ainv r * ir_ao r = 1 /\
    ir_rp r = ir_ao r * (1 - e) /\ ir_posq r = (ir_ao r * (1 - e ^ 2)) ^ 2 /\
    ir_con41 r = 3 * cos i ^ 2 - 1 /\ ir_con42 r = 1 - 5 * cos i ^ 2 /\
    ir_omeosq r = 1 - e ^ 2 /\ ir_rteosq r = sqrt (1 - e ^ 2) /\ ir_eccsq r = e ^ 2 /\
    ir_cosio r = cos i /\ ir_sinio r = sin i /\ ir_cosio2 r = cos i ^ 2.
Proof.
  intros o r e i Hn.
  assert (A : ir_ao r = Rpow (kXKE / ir_no r) (2 / 3)). { rewrite <- kX2O3_R. reflexivity. }
  assert (X : 0 < kXKE / ir_no r). { apply Rdiv_lt_0_compat; [rewrite kXKE_R; lra|exact Hn]. }
  assert (P : 0 < ir_ao r) by (rewrite A; now apply pow23_pos).
  split. { rewrite A, pow23 by exact X. rewrite kXKE_R. unfold xke. field. lra. }
  split; [exact P|].
  unfold r, e, i in *. clear A X. unfold initl in *. cbv zeta in *.
  cbn [ir_no ir_ao ir_ainv ir_rp ir_posq ir_con41 ir_con42 ir_omeosq ir_rteosq ir_eccsq ir_cosio ir_sinio ir_cosio2] in *.
  match goal with H : 0 < ?a |- _ /\ ?b = ?a * _ /\ _ => set (ao := a) in * end.
  rops.
  split; [field; lra|]. split; [reflexivity|]. split; [ring|]. split; [ring|]. split; [ring|].
  split; [ring|]. split; [f_equal; ring|]. split; [ring|]. split; [reflexivity|]. split; [reflexivity|ring].
Qed.
Print Assumptions C14_init_third_law.

(** The mean motion is the one Brouwer's theory recovers from the Kozai mean motion of the element set:
    a1 from the third law, one secular J2 correction, a second one from the corrected axis. *)
Theorem C14_recovered_mean_motion :
  forall o : InitlOptions R, let n := il_no o in let e := il_ecco o in
    0 < n -> 0 < 1 - e ^ 2 ->
    exists a1 d1 a0 d0 : R,
      0 < a1 /\ a1 ^ 3 * n ^ 2 = xke ^ 2 /\
      let k := 3 / 4 * j2 * (3 * cos (il_inclo o) ^ 2 - 1) / (sqrt (1 - e ^ 2) * (1 - e ^ 2)) in
      d1 = k / a1 ^ 2 /\
      a0 = a1 * (1 - d1 / 3 - d1 ^ 2 - 134 / 81 * d1 ^ 3) /\
      d0 = k / (a0 * a0) /\
      ir_no (initl o) = n / (1 + d0).
Proof.
  intros o n e Hn He.
  assert (X : 0 < kXKE / n). { apply Rdiv_lt_0_compat; [rewrite kXKE_R; lra|exact Hn]. }
  set (a1 := Rpow (kXKE / n) (2 / 3)).
  assert (P : 0 < a1) by now apply pow23_pos.
  set (k := 3 / 4 * j2 * (3 * cos (il_inclo o) ^ 2 - 1) / (sqrt (1 - e ^ 2) * (1 - e ^ 2))).
  set (d1 := k / a1 ^ 2). set (a0 := a1 * (1 - d1 / 3 - d1 ^ 2 - 134 / 81 * d1 ^ 3)).
  exists a1, d1, a0, (k / (a0 * a0)). split; [exact P|].
  split. { unfold a1. rewrite pow23 by exact X. rewrite kXKE_R. unfold xke. field. lra. }
  cbv zeta. split; [reflexivity|]. split; [reflexivity|]. split; [reflexivity|].
  unfold initl. cbv zeta. cbn [ir_no]. rops. fold n e.
  unfold kJ2. rewrite kX2O3_R. rlit. fold a1.
  assert (K : 75 / 100 * (108262998905 / 100000000000000) * (3 * (cos (il_inclo o) * cos (il_inclo o)) - 1) /
    (sqrt (1 - e * e) * (1 - e * e)) = k).
  { unfold k, j2. replace (1 - e * e) with (1 - e ^ 2) by ring. field.
    assert (0 < sqrt (1 - e ^ 2)) by now apply sqrt_lt_R0. split; lra. }
  rewrite K.
  assert (D : k / (a1 * a1) = d1) by (unfold d1; f_equal; ring). rewrite D.
  assert (A : a1 * (1 - d1 * d1 - d1 * (1 / 3 + 134 * d1 * d1 / 81)) = a0) by (unfold a0; field). rewrite A.
  reflexivity.
Qed.
Print Assumptions C14_recovered_mean_motion.

(** A parsed element set: a^3 (no TUMIN)^2 = 1, apogee and perigee altitude a(1+e) - 1, a(1-e) - 1. *)
Theorem C14_parsed_third_law :
  forall (l1 l2 : str) (s : Satrec R),
    parse_satrec l1 l2 = Done (Ok s) -> 0 < sr_no s ->
    sr_a s ^ 3 * (sr_no s * tumin) ^ 2 = 1 /\ 0 < sr_a s /\
    sr_alta s + 1 = sr_a s * (1 + sr_ecco s) /\ sr_altp s + 1 = sr_a s * (1 - sr_ecco s).
Proof.
  intros l1 l2 s H Hn. apply parse_satrec_inv in H. destruct H as (a & b & _ & _ & ->).
  assert (A : sr_a (make_satrec a b) = Rpow (sr_no (make_satrec a b) * kTUMIN) (- (2) / 3)) by reflexivity.
  assert (E : sr_alta (make_satrec a b) = sr_a (make_satrec a b) * (1 + sr_ecco (make_satrec a b)) - 1) by reflexivity.
  assert (E2 : sr_altp (make_satrec a b) = sr_a (make_satrec a b) * (1 - sr_ecco (make_satrec a b)) - 1) by reflexivity.
  set (s := make_satrec a b) in *. clearbody s.
  assert (T : @kTUMIN R ROps = tumin). { unfold kTUMIN. rlit. reflexivity. }
  rewrite T in A.
  assert (Q : 0 < sr_no s * tumin) by (apply Rmult_lt_0_compat; [exact Hn|unfold tumin; lra]).
  destruct (pow_m23 _ Q) as [Q1 Q2]. rewrite <- A in Q1, Q2.
  split; [exact Q1|]. split; [exact Q2|]. split; [rewrite E; ring|rewrite E2; ring].
Qed.
Print Assumptions C14_parsed_third_law.

(** During propagation the mean motion and semi-major axis used at time t obey the same law. *)
Theorem C14_propagated_third_law :
  forall (s : Satrec R) (t : R), 0 < a_at s t -> a_at s t ^ 3 * n_at s t ^ 2 = xke ^ 2.
Proof.
  intros s t H. unfold n_at. rops. destruct (pow15 _ H) as [<- P]. rewrite kXKE_R. unfold xke. field. lra.
Qed.
Print Assumptions C14_propagated_third_law.

(** Non-vacuity: the ISS element set parses with a positive mean motion; initialisation with mean motion
    XKE recovers a positive mean motion; the semi-major axis of the sample record is 4. *)
Example C14_example :
  (exists s : Satrec R, parse_satrec iss1 iss2 = Done (Ok s) /\ 0 < sr_no s) /\
  0 < ir_no (initl (MkInitlOptions OpsI MethodN nil 0 0 0 kXKE)) /\ 0 < a_at rsat 0.
Proof.
  split; [|split; [pose proof (ro_no 0) as H; unfold brouwer_no, ro in H; cbn [in_opsmode in_satn in_xecco in_epoch in_xinclo in_xno] in H; lra
                  |rewrite rs_a; lra]].
  assert (H : match parse_satrec (F := R) iss1 iss2 with Done (Ok s) => True | _ => False end).
  { lazy delta [iss1 iss2]. lazy. exact I. }
  destruct (parse_satrec (F := R) iss1 iss2) as [[s|e]| |] eqn:E; try contradiction.
  exists s. split; [reflexivity|].
  apply parse_satrec_inv in E. destruct E as (a & b & _ & E & ->).
  assert (N : sr_no (make_satrec a b) = l2_no b) by reflexivity. rewrite N. clear N.
  assert (P : match parse_line2 (F := R) iss2 with Done (Ok b) => l2_no b = fdiv (flit 1552438493 (-8)) kXPDOTP | _ => False end).
  { lazy -[kXPDOTP flit fdiv ROps]. reflexivity. }
  rewrite E in P. rewrite P. unfold kXPDOTP, kPI. rops. cbn. pose proof PI_RGT_0. apply Rdiv_lt_0_compat; [lra|].
  apply Rdiv_lt_0_compat; lra.
Qed.
