(** * C41: longitude and latitude returned by eci_to_geodedic *)
From Coq Require Import ZArith List Bool Reals Lra Lia Psatz.
From Flocq Require Import Core.Raux Core IEEE754.BinarySingleNaN.
From Verif.Model Require Import Float Constants Vec3 Transforms.
From Verif.Inst Require Import RInst RTac B64 B64Facts Atan2.
From Verif.Golden Require Import Libm.
From Verif.Proofs Require Import LongFacts.
From Verif.Props Require Import C15 C45.
Local Open Scope R_scope.

Lemma Ratan2_half y x : 0 <= x -> - (PI / 2) <= Ratan2 y x <= PI / 2.
Proof.
  intros H. pose proof PI_RGT_0. unfold Ratan2. pose proof (atan_bound (y / x)). case Rlt_bool_spec; intros; [lra|].
  rewrite Rlt_bool_false by lra. case Rlt_bool_spec; intros; [lra|]. case Rlt_bool_spec; intros; lra.
Qed.
Lemma lat_loop_range n (z r lat c : R) : 0 <= r -> - (PI / 2) <= lat <= PI / 2 -> - (PI / 2) <= fst (lat_loop n z r lat c) <= PI / 2.
Proof.
  intros Hr. revert lat c. induction n as [|n IH]; intros lat c H; cbn [lat_loop]; [exact H|]. apply IH.
  unfold lat_step. cbv zeta. rops. now apply Ratan2_half.
Qed.

(** Exact arithmetic: the longitude is the right ascension minus the sidereal angle, up to whole turns,
    in [-pi, pi]; the latitude is in [-pi/2, pi/2]. *)
Theorem C41_ranges :
  forall fuel (p : Vec3 R) (gmst : R) (g : Geodedic R),
    eci_to_geodedic fuel p gmst = Done g ->
    let rho := sqrt (v_x p * v_x p + v_y p * v_y p) in
    (v_x p = rho * cos (gd_longitude g + gmst) /\ v_y p = rho * sin (gd_longitude g + gmst)) /\
    (exists k : Z, gd_longitude g = Ratan2 (v_y p) (v_x p) - gmst + 2 * PI * IZR k) /\
    - PI <= gd_longitude g <= PI /\ - (PI / 2) <= gd_latitude g <= PI / 2.
Proof.
  intros fuel p gmst g H. unfold eci_to_geodedic in H. cbv zeta in H. rops_in H.
  pose proof (normalize_R fuel (Ratan2 (v_y p) (v_x p) - gmst)) as N.
  destruct (normalize_long fuel (Ratan2 (v_y p) (v_x p) - gmst)) as [l| |]; cbn [bindO] in H; [|elim N|discriminate H].
  destruct N as [(k & K) N].
  match type of H with context [lat_loop 20 ?z ?r ?l0 ?c] =>
    pose proof (lat_loop_range 20 z r l0 c (sqrt_pos _) (Ratan2_half _ _ (sqrt_pos _))) as LR; destruct (lat_loop 20 z r l0 c) as [la c'] end.
  injection H as <-. cbn [gd_longitude gd_latitude]. cbn [fst] in LR. cbv zeta.
  split; [|split; [now exists k|split; [exact N|exact LR]]].
  destruct (Ratan2_polar (v_y p) (v_x p)) as [X Y].
  replace (l + gmst) with (Ratan2 (v_y p) (v_x p) + 2 * PI * IZR k) by lra. rewrite cos_turns, sin_turns. now split.
Qed.
Print Assumptions C41_ranges.

(** Exact arithmetic: the loops always terminate, after at most (|angle| - pi) / 2 pi turns, and
    nothing panics. *)
Theorem C41_terminates :
  forall fuel (p : Vec3 R) (gmst : R),
    Rabs (Ratan2 (v_y p) (v_x p) - gmst) <= PI + 2 * PI * INR fuel ->
    exists g, eci_to_geodedic fuel p gmst = Done g.
Proof.
  intros fuel p gmst H. unfold eci_to_geodedic. cbv zeta. rops.
  pose proof (normalize_R fuel (Ratan2 (v_y p) (v_x p) - gmst)) as N.
  destruct (normalize_long fuel (Ratan2 (v_y p) (v_x p) - gmst)) as [l| |]; cbn [bindO]; [|elim N|lra].
  destruct (lat_loop 20 _ _ _ _) as [la c']. now eexists.
Qed.
Print Assumptions C41_terminates.

(** Binary64, any libm: a returned longitude is NaN or within [-PI, PI] (PI the constant). *)
Theorem C41_binary64_longitude :
  forall (lm : libm) fuel (p : Vec3 b64) (gmst : b64) (g : Geodedic b64),
    @eci_to_geodedic _ (B64Ops lm) fuel p gmst = Done g ->
    is_nan (gd_longitude g) = true \/ (is_finite (gd_longitude g) = true /\ - FULL_PI <= B2R (gd_longitude g) <= FULL_PI).
Proof.
  intros lm fuel p gmst g H. unfold eci_to_geodedic in H. cbv zeta in H.
  match type of H with context [normalize_long fuel ?l] => pose proof (normalize_B lm fuel l) as N; destruct (normalize_long fuel l) as [l'| |] end;
    cbn [bindO] in H; [|elim N|discriminate H].
  destruct (lat_loop 20 _ _ _ _) as [la c'].
  assert (E : gd_longitude g = l'). { apply Done_inj in H. now rewrite <- H. }
  rewrite E. destruct N as [-> |N]; [now left|now right].
Qed.
Print Assumptions C41_binary64_longitude.

(** Binary64: it terminates for sidereal angles up to 2^49 in magnitude and hangs (no amount of steps
    is enough) from 2^58 on and for infinite ones, provided libm's atan2 returns a number of
    magnitude at most 4. *)
Theorem C41_binary64_termination :
  forall (lm : libm) (p : Vec3 b64) (gmst : b64),
    let a := lm_atan2 lm (v_y p) (v_x p) in
    is_finite a = true -> Rabs (B2R a) <= 4 ->
    (is_finite gmst = true -> Rabs (B2R gmst) <= bpow radix2 49 ->
       exists fuel g, @eci_to_geodedic _ (B64Ops lm) fuel p gmst = Done g) /\
    ((is_finite gmst = true /\ bpow radix2 58 <= Rabs (B2R gmst)) \/ gmst = B754_infinity true \/ gmst = B754_infinity false ->
       forall fuel, @eci_to_geodedic _ (B64Ops lm) fuel p gmst = NoFuel).
Proof.
  intros lm p gmst a Fa Ba. unfold eci_to_geodedic. cbv zeta. change (@fatan2 _ (B64Ops lm) (v_y p) (v_x p)) with a.
  assert (B3 : 8 = bpow radix2 3) by reflexivity.
  split.
  - intros Fg Bg.
    assert (S : Rabs (B2R a - B2R gmst) <= bpow radix2 50).
    { change 50%Z with (1 + 49)%Z. rewrite bpow_plus. change (bpow radix2 1) with 2.
      assert (8 <= bpow radix2 49) by (rewrite B3; apply bpow_le; lia). apply Rabs_le_inv in Ba, Bg. apply Rabs_le. lra. }
    destruct (sub_fin lm a gmst Fa Fg) as [E F]; [apply Rle_trans with (1 := S); apply bpow_le; lia|].
    destruct (normalize_terminates lm (@fsub _ (B64Ops lm) a gmst) F) as (n & l' & H).
    { rewrite E. apply rnd_abs_le; [apply fmt_bpow; lia|exact S]. }
    exists n. rewrite H. cbn [bindO]. destruct (lat_loop 20 _ _ _ _) as [la c']. now eexists.
  - intros G fuel. rewrite (normalize_diverges lm fuel (@fsub _ (B64Ops lm) a gmst)); [reflexivity|].
    destruct G as [[Fg Bg]|[-> | ->]].
    + destruct (is_finite (@fsub _ (B64Ops lm) a gmst)) eqn:F.
      * left. split; [reflexivity|].
        pose proof (Bminus_correct prec emax _ _ mode_NE a gmst Fa Fg) as C.
        change (round radix2 (SpecFloat.fexp prec emax) (round_mode mode_NE) (B2R a - B2R gmst)) with (rnd (B2R a - B2R gmst)) in C.
        assert (GE : bpow radix2 57 <= Rabs (B2R a - B2R gmst)).
        { change 58%Z with (1 + 57)%Z in Bg. rewrite bpow_plus in Bg. change (bpow radix2 1) with 2 in Bg.
          assert (8 <= bpow radix2 57) by (rewrite B3; apply bpow_le; lia).
          pose proof (Rabs_triang (B2R a - B2R gmst) (- B2R a)) as T. rewrite Rabs_Ropp in T.
          replace (B2R a - B2R gmst + - B2R a) with (- B2R gmst) in T by ring. rewrite Rabs_Ropp in T. lra. }
        change (@fsub _ (B64Ops lm) a gmst) with (Bminus mode_NE a gmst) in *. revert C. case Rlt_bool_spec; intros _ C.
        -- destruct C as (C1 & _). rewrite C1. apply rnd_abs_ge; [apply fmt_bpow; lia|exact GE].
        -- exfalso. destruct C as [C _]. rewrite <- is_finite_SF_B2SF, C in F. revert F. clear.
           cbn. intros K. discriminate K.
      * right. change (@fsub _ (B64Ops lm) a gmst) with (Bminus mode_NE a gmst) in *.
        destruct (nonfin_cases _ F) as [N|[N|N]]; [|now left|now right]. exfalso.
        revert Fa Fg N. clear. destruct a as [| | |sa ma ea Ha], gmst as [| | |sg mg eg Hg]; intros Fa Fg; try discriminate Fa; try discriminate Fg; try discriminate.
        -- cbn. destruct (Bool.eqb _ _); discriminate.
        -- intros N. pose proof (Bminus_correct prec emax _ _ mode_NE (B754_finite sa ma ea Ha) (B754_finite sg mg eg Hg) eq_refl eq_refl) as C.
           rewrite N in C. destruct (Rlt_bool _ _); [destruct C as (_ & C & _); discriminate C|]. destruct C as [C _]. discriminate C.
    + right. right. destruct a; try discriminate Fa; reflexivity.
    + right. left. destruct a; try discriminate Fa; reflexivity.
Qed.
Print Assumptions C41_binary64_termination.

(** Non-vacuity: a position on the x axis at sidereal angle 5 gives longitude 2 pi - 5. *)
Example C41_example :
  (exists g, eci_to_geodedic 1 (MkVec3 7000 0 0) 5 = Done g /\ gd_longitude g = 2 * PI - 5) /\
  (match @eci_to_geodedic _ (B64Ops the_libm) 3 (MkVec3 (lit 7000 0) (lit 0 0) (lit 0 0)) (lit 5 0) with Done g => fle (lit 128318 (-5)) (gd_longitude g) | _ => false end) = true.
Proof.
  split; [|vm_compute; reflexivity].
  assert (A : Ratan2 0 7000 = 0). { unfold Ratan2. rewrite Rlt_bool_t by lra. replace (0 / 7000) with 0 by field. apply atan_0. }
  pose proof PI_RGT_0 as P. pose proof PI_4 as P4. assert (P3 : 3 < PI) by (pose proof PI2_3_2; lra).
  destruct (C41_terminates 1 (MkVec3 7000 0 0) 5) as [g G].
  { cbn [v_x v_y]. rewrite A. replace (0 - 5) with (-5) by ring. rewrite Rabs_left by lra. cbn [INR]. lra. }
  exists g. split; [exact G|]. apply C41_ranges in G. destruct G as (_ & (k & K) & G & _). cbn [v_x v_y] in K. rewrite A in K.
  assert (k = 1%Z); [|subst k; lra].
  assert (B : 0 < IZR k < 2) by (split; nra). destruct B as [B1 B2]. apply lt_IZR in B1, B2. lia.
Qed.
