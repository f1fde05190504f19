(** * C06: near-earth/deep-space selection, simplified-drag flag, resonance flag *)
From Coq Require Import ZArith List Bool Reals Lra.
From Flocq Require Import Core.Raux.
From Verif.Model Require Import Float Str Satrec Constants Vec3 Sgp4 Sgp4init Io.
From Verif.Proofs Require Import InitKind.
From Verif.Inst Require Import RInst RTac B64.
From Verif.Golden Require Import Sats.
Local Open Scope Z_scope.

Section Spec.
Context {F : Type} {FO : FloatOps F}.
(** Orbital period in minutes from the record's (un-Kozai'd) mean motion. *)
Definition period (s : Satrec F) : F := fdiv kTWO_PI (sr_no s).
(** Perigee radius in earth radii: a (1 - e) with a from Kepler's third law. *)
Definition perigee_radius (s : Satrec F) : F :=
  fmul (fpow (fdiv kXKE (sr_no s)) kX2O3) (fsub (L 1 0) (sr_ecco s)).
(** The element set is one initialisation works on at all. *)
Definition initialisable (s : Satrec F) : bool :=
  fle (L 0 0) (fsub (L 1 0) (fmul (sr_ecco s) (sr_ecco s))) || fle (L 0 0) (sr_no s).
Definition is_deep (s : Satrec F) : bool := initialisable s && fle (L 225 0) (period s).
Definition is_low (s : Satrec F) : bool :=
  initialisable s && flt (perigee_radius s) (fadd (fdiv (L 220 0) kEARTH_RADIUS) (L 1 0)).
End Spec.

Theorem C06_selection :
  forall (F : Type) (FO : FloatOps F) (fuel : nat) (s0 s : Satrec F) (o : SGP4InitOptions F) r,
    sgp4init fuel s0 o = Done (s, r) ->
    (sr_method s = MethodD <-> is_deep s = true) /\
    (sr_isimp s = 1 <-> is_deep s = true \/ is_low s = true) /\
    (sr_isimp s = 0 <-> is_deep s = false /\ is_low s = false) /\
    (sr_isimp s = 1 -> sr_d2 s = L 0 0 /\ sr_d3 s = L 0 0 /\ sr_d4 s = L 0 0 /\
                       sr_t3cof s = L 0 0 /\ sr_t4cof s = L 0 0 /\ sr_t5cof s = L 0 0) /\
    (sr_irez s = L 0 0 \/ sr_irez s = L 1 0 \/ sr_irez s = L 2 0) /\
    (sr_method s = MethodN -> sr_irez s = L 0 0).
Proof.
  intros F FO fuel s0 s o r H. apply sgp4init_decides in H.
  destruct H as (_ & HM & HI & HD & HR & HN).
  unfold is_deep, is_low.
  change (initialisable s) with (attempted s). change (perigee_radius s) with (perigee_of s).
  change (period s) with (fdiv kTWO_PI (sr_no s)).
  rewrite HM, HI in *.
  destruct (attempted s); cbn [andb orb] in *.
  - destruct (fle (L 225 0) (fdiv kTWO_PI (sr_no s))); cbn [andb orb] in *.
    + repeat split; intros; try tauto; try discriminate; intuition discriminate.
    + destruct (flt (perigee_of s) _); repeat split; intros; try tauto; try discriminate; intuition discriminate.
  - repeat split; intros; try tauto; try discriminate; intuition discriminate.
Qed.
Print Assumptions C06_selection.

(** In exact arithmetic, with the period and the perigee height as physical quantities. *)
Theorem C06_selection_exact :
  forall (fuel : nat) (s0 s : Satrec R) (o : SGP4InitOptions R) r,
    sgp4init fuel s0 o = Done (s, r) -> (sr_no s <> 0)%R ->
    (sr_method s = MethodD <-> (225 <= 2 * PI / sr_no s)%R) /\
    ((0 < sr_no s)%R ->
       (sr_isimp s = 1 <-> (225 <= 2 * PI / sr_no s)%R \/
         ((Rpower (kXKE / sr_no s) (2 / 3) * (1 - in_xecco o) - 1) * 6378.137 < 220)%R)).
Proof.
  intros fuel s0 s o r H Hno. pose proof H as H'.
  apply sgp4init_decides in H'. destruct H' as (He & _).
  apply C06_selection in H. destruct H as (HM & HI & _).
  assert (P : @period R ROps s = (2 * PI / sr_no s)%R) by (unfold period; rewrite kTWO_PI_R; reflexivity).
  split.
  - rewrite HM. unfold is_deep. rewrite P. rops. rewrite andb_true_iff, Rle_bool_iff. split; [tauto|].
    intros G. split; [|exact G]. unfold initialisable. rops. apply orb_true_iff. right.
    apply Rle_bool_iff. destruct (Rle_lt_dec 0 (sr_no s)) as [?|N]; [assumption|exfalso].
    assert (2 * PI / sr_no s < 0)%R.
    { pose proof PI_RGT_0. pose proof (Rinv_lt_0_compat _ N). unfold Rdiv. nra. }
    lra.
  - intros Hp. rewrite HI. unfold is_deep, is_low. rewrite P.
    assert (A : @initialisable R ROps s = true).
    { unfold initialisable. rops. apply orb_true_iff. right. apply Rle_bool_iff. lra. }
    rewrite A. cbn [andb]. unfold perigee_radius. rewrite kX2O3_R, kEARTH_RADIUS_R. rops.
    rewrite Rle_bool_iff, Rlt_bool_iff.
    assert (Q : (0 < @kXKE R ROps / sr_no s)%R).
    { apply Rdiv_lt_0_compat; [rewrite kXKE_R; lra|exact Hp]. }
    assert (E : Rpow (@kXKE R ROps / sr_no s) (2 / 3) = Rpower (@kXKE R ROps / sr_no s) (2 / 3)).
    { unfold Rpow. now rewrite Rlt_bool_t. }
    rewrite E, He. set (rp := (Rpower _ _ * _)%R). clearbody rp.
    assert (T : (rp < 220 / (6378137 / 1000) + 1)%R <-> ((rp - 1) * 6378.137 < 220)%R).
    { assert (C : (220 / (6378137 / 1000) * 6378.137 = 220)%R) by lra. split; intros; lra. }
    tauto.
Qed.
Print Assumptions C06_selection_exact.

(** Non-vacuity: the five satellites of Golden/Sats.v are initialised records of all kinds (near earth
    with and without the simplified drag, deep space non resonant, one-day and half-day resonant). *)
Example C06_example :
  (match sgp4init 10 leo (tle_options mol) with
   | Done (s, _) => (sr_method s, sr_isimp s) | _ => (MethodN, 7) end) = (MethodD, 1).
Proof. vm_compute. reflexivity. Qed.
