(** * C15: sidereal time is an angle in [0, 2 pi) *)
From Coq Require Import ZArith List Bool Reals Lra Lia.
From Flocq Require Import Core.Raux Core IEEE754.BinarySingleNaN.
From Verif.Model Require Import Float Str Satrec Constants Vec3 Gstime Initl Sgp4 Sgp4init Io Ext Propagate.
From Verif.Inst Require Import RInst RTac B64 B64Facts B64Rem.
From Verif.Proofs Require Import InitElems.
From Verif.Golden Require Import Libm Sats.
From Verif.Spec Require Import Calendar.
From Verif.Props Require Import C13 C22.
Import ListNotations.
Local Open Scope R_scope.

(** Greenwich mean sidereal time, IAU 1982: seconds of time at Julian date jd (UT1), and the angle. *)
Definition gmst_seconds (jd : R) : R :=
  let T := (jd - 2451545) / 36525 in
  67310.54841 + (876600 * 3600 + 8640184.812866) * T + 0.093104 * T ^ 2 - 0.0000062 * T ^ 3.
Definition gmst_angle (jd : R) : R := 2 * PI / 86400 * gmst_seconds jd.

(** reduction to [0, 2 pi): remainder, then one turn added if negative *)
Lemma reduce_R x : let y := if Rlt_bool (Rrem x (2 * PI)) 0 then Rrem x (2 * PI) + 2 * PI else Rrem x (2 * PI) in
  0 <= y < 2 * PI /\ exists k : Z, y = x + 2 * PI * IZR k.
Proof.
  pose proof PI_RGT_0 as P. assert (N : 2 * PI <> 0) by lra.
  pose proof (Rrem_lt x (2 * PI) N) as A. rewrite (Rabs_pos_eq (2 * PI)) in A by lra. apply Rabs_def2 in A.
  cbv zeta. case Rlt_bool_spec; intros H.
  - split; [lra|]. exists (1 - Ztrunc (x / (2 * PI)))%Z. unfold Rrem. rewrite minus_IZR. ring.
  - split; [lra|]. exists (- Ztrunc (x / (2 * PI)))%Z. unfold Rrem. rewrite opp_IZR. ring.
Qed.

(** Exact arithmetic: gstime is the sidereal angle reduced to [0, 2 pi). *)
Theorem C15_gstime :
  forall jd : R, 0 <= gstime jd < 2 * PI /\ exists k : Z, gstime jd = gmst_angle jd + 2 * PI * IZR k.
Proof.
  intros jd. unfold gstime. cbv zeta. rewrite kTWO_PI_R. unfold kDEG_2_RAD, kPI. rops.
  match goal with |- context [Rrem ?x (2 * PI)] => set (a := x) end.
  destruct (reduce_R a) as [A (k & B)]. split; [exact A|]. exists k. rewrite B. f_equal.
  unfold a, gmst_angle, gmst_seconds. cbv zeta. unfold Q2R. cbn [QArith_base.Qnum QArith_base.Qden]. field.
Qed.
Print Assumptions C15_gstime.

(** It is the only such value. *)
Theorem C15_unique :
  forall (jd y : R) (k : Z), 0 <= y < 2 * PI -> y = gmst_angle jd + 2 * PI * IZR k -> gstime jd = y.
Proof.
  intros jd y k Hy E. destruct (C15_gstime jd) as [G (j & K)]. pose proof PI_RGT_0 as P.
  assert (J : j = k).
  { assert (D : gstime jd - y = 2 * PI * IZR (j - k)) by (rewrite minus_IZR, K, E; ring).
    assert (A : - (2 * PI) < 2 * PI * IZR (j - k) < 2 * PI) by lra.
    assert (B : -1 < IZR (j - k) < 1) by (split; nra).
    destruct B as [B1 B2]. apply lt_IZR in B1, B2. lia. }
  now rewrite K, E, J.
Qed.
Print Assumptions C15_unique.

(** The sidereal time of a calendar timestamp is that of its Julian date, counted in days from
    2000-01-01 0h (JD 2451544.5). *)
Theorem C15_datetime :
  forall (t : DateTime) (n : Z),
    valid (Date (dt_year t) (dt_month t) (dt_day t)) ->
    before (Date 1900 3 1) (Date (dt_year t) (dt_month t) (dt_day t)) -> before (Date (dt_year t) (dt_month t) (dt_day t)) (Date 2100 2 28) ->
    days_from (Date 2000 1 1) (Date (dt_year t) (dt_month t) (dt_day t)) n ->
    0 <= gstime_datetime t < 2 * PI /\
    exists k : Z, gstime_datetime t
      = gmst_angle (2451544.5 + IZR n + (IZR (dt_hour t) + IZR (dt_minute t) / 60 + IZR (dt_second t) / 3600) / 24) + 2 * PI * IZR k.
Proof.
  intros t n V B1 B2 H. unfold gstime_datetime, jday_datetime.
  change (@fofZ R ROps) with IZR. rewrite (C22_jday_exact _ _ _ n _ _ _ _ V B1 B2 H).
  replace (IZR 0 / 3600000) with 0 by lra. rewrite Rplus_0_r. apply C15_gstime.
Qed.
Print Assumptions C15_datetime.

(** The sidereal time kept by initialisation is in [0, 2 pi) in every operation mode (exact
    arithmetic); except in the AFSPC mode it is gstime of the epoch. *)
Theorem C15_gsto :
  forall fuel (s0 s : Satrec R) (o : SGP4InitOptions R) r,
    sgp4init fuel s0 o = Done (s, r) ->
    0 <= sr_gsto s < 2 * PI /\
    (in_opsmode o <> OpsA -> sr_gsto s = gstime (in_epoch o + 2433281.5)).
Proof.
  intros fuel s0 s o r H. apply sgp4init_elems in H. destruct H as [H _].
  pose proof (f_equal el_gsto H) as G. cbn [el_gsto elems_of] in G. rewrite G. unfold initl_gsto.
  destruct (in_opsmode o); cbn [opsmode_eqb].
  - split; [|now intros N; elim N]. cbv zeta. rewrite kTWO_PI_R. rops. apply reduce_R.
  - split; [apply C15_gstime|]. intros _. rops. reflexivity.
  - split; [apply C15_gstime|]. intros _. rops. reflexivity.
Qed.
Print Assumptions C15_gsto.

(** The three computations share one last step: reduce an angle, then add a turn if negative. *)
Section Reduce.
Context {F : Type} {FO : FloatOps F}.
Local Open Scope Z_scope.
Local Open Scope f_scope.
Definition reduce (x : F) : F := let r := x %% kTWO_PI in if r <? L 0 0 then r + kTWO_PI else r.
Definition gst_raw (jd : F) : F :=
  let t := (jd - (L 2451545 0)) / (L 36525 0) in
  ((- (L 62 7)) * t * t * t + (L 93104 6) * t * t + ((L 876600 0) * (L 3600 0) + (L 8640184812866 6)) * t + (L 6731054841 5))
  * kDEG_2_RAD / (L 240 0).
Definition gsto_raw (e : F) : F :=
  let t := e - (L 7305 0) in let d := ffloor (t + (L 1 8)) in
  (L 17321343856509374 16) + (L 172027916940703639 19) * d + ((L 172027916940703639 19) + kTWO_PI) * (t - d)
  + t * t * (L 507551419432269442 32).
Lemma gstime_reduce jd : gstime jd = reduce (gst_raw jd).
Proof. reflexivity. Qed.
Lemma gsto_A_reduce e : initl_gsto OpsA e = reduce (gsto_raw e).
Proof. reflexivity. Qed.
Lemma gsto_I_reduce m e : m <> OpsA -> initl_gsto m e = reduce (gst_raw (e + (L 24332815 1))).
Proof. intros N. destruct m; [now elim N|reflexivity|reflexivity]. Qed.
End Reduce.

(** ** Binary64 *)
Section B64.
Context (lm : libm).
Notation B := (B64Ops lm).
Notation two_pi := (@kTWO_PI b64 B).
Definition TPI : R := 884279719003555 / 140737488355328.
Lemma two_pi_fin : fin two_pi = true /\ B2R two_pi = TPI.
Proof.
  assert (H : B2SF two_pi = SpecFloat.S754_finite false 7074237752028440 (-50)) by (vm_compute; reflexivity).
  split; [vm_compute; reflexivity|]. rewrite <- SF2R_B2SF, H. unfold SF2R, F2R, TPI. cbn. lra.
Qed.
Lemma TPI_bounds : 6 < TPI < 7. Proof. unfold TPI. lra. Qed.

Definition angle (y : b64) : Prop := fin y = true /\ 0 <= B2R y <= TPI.
Lemma rem_nonfin x y : fin x = false -> b64_rem x y = B754_nan.
Proof. destruct x; cbn; intros H; try discriminate H; destruct y; reflexivity. Qed.
Notation reduce := (@reduce b64 B).
Lemma reduce_B x : (fin x = false /\ is_nan (reduce x) = true) \/ (fin x = true /\ angle (reduce x)).
Proof.
  destruct two_pi_fin as [TF TR]. pose proof TPI_bounds as TB.
  destruct (fin x) eqn:Fx; [right|left].
  - split; [reflexivity|]. unfold reduce. cbv zeta.
    destruct (rem_fin x two_pi Fx TF) as [E F]; [lra|].
    change (@frem _ B x two_pi) with (b64_rem x two_pi). set (y := b64_rem x two_pi) in *. clearbody y.
    rewrite TR in E.
    assert (A : - TPI < B2R y < TPI).
    { rewrite E. pose proof (Rrem_lt (B2R x) TPI ltac:(lra)) as A. rewrite (Rabs_pos_eq TPI) in A by lra. apply Rabs_def2 in A. lra. }
    destruct (lit_int_fin lm 0) as [Z1 Z2]; [lia|].
    rewrite (lt_fin lm y _ F Z2), Z1. case Rlt_bool_spec; intros H.
    + destruct (add_fin lm y two_pi F TF) as [E2 F2].
      { rewrite TR. apply Rle_trans with (bpow radix2 3); [|apply bpow_le; lia]. change (bpow radix2 3) with 8. apply Rabs_le. lra. }
      split; [exact F2|]. rewrite E2, TR. split.
      * apply rnd_ge_fmt; [apply generic_format_0|lra].
      * apply rnd_le_fmt; [|lra]. rewrite <- TR. apply fmt_B2R.
    + split; [exact F|]. lra.
  - split; [reflexivity|]. unfold reduce. cbv zeta.
    change (@frem _ B x two_pi) with (b64_rem x two_pi). rewrite (rem_nonfin x two_pi Fx). reflexivity.
Qed.

End B64.

(** Binary64: whatever the Julian date, gstime returns NaN or an angle between 0 and the constant
    TWO_PI, both included; likewise the sidereal time at epoch in both modes. *)
Theorem C15_binary64_range :
  forall (lm : libm) (jd : b64),
    let ok y := is_nan y = true \/ (is_finite y = true /\ 0 <= B2R y <= TPI) in
    ok (@gstime _ (B64Ops lm) jd) /\ forall m, ok (@initl_gsto _ (B64Ops lm) m jd).
Proof.
  intros lm jd ok.
  assert (R : forall x, ok (@reduce _ (B64Ops lm) x)).
  { intros x. destruct (reduce_B lm x) as [[_ H]|[_ H]]; [now left|now right]. }
  assert (G : forall j, ok (@gstime _ (B64Ops lm) j)).
  { intros j. rewrite gstime_reduce. apply R. }
  split; [apply G|]. intros m. destruct (opsmode_eqb m OpsA) eqn:E.
  - destruct m; try discriminate. rewrite gsto_A_reduce. apply R.
  - rewrite gsto_I_reduce by (intros ->; discriminate). apply R.
Qed.
Print Assumptions C15_binary64_range.

Section B64b.
Context (lm : libm).
Notation B := (B64Ops lm).
#[local] Hint Extern 0 (FloatOps _) => exact (B64Ops lm) : typeclass_instances.
Lemma fl (z : Z) (k : Z) (j : Z) : (-1074 <= j <= 1000)%Z -> fin (@L _ B z k) = true -> Bleb (Babs (@L _ B z k)) (b64_norm 1 j) = true -> bnd (@L _ B z k) j.
Proof. apply bnd_const. Qed.
Lemma opp_bnd x j : bnd x j -> bnd (@fneg _ B x) j.
Proof. intros [A C]. destruct (neg_fin lm x) as [E F]. split; [now rewrite F|]. now rewrite E, Rabs_Ropp. Qed.
Lemma ge1 x : fin x = true -> Bleb (b64_norm 1 0) x = true -> 1 <= Rabs (B2R x).
Proof.
  intros F H. rewrite Bleb_correct in H; [|apply (norm_fin 1); lia|exact F].
  rewrite (proj1 (norm_fin 1 ltac:(lia))) in H. revert H. case Rle_bool_spec; [|discriminate].
  intros H _. rewrite Rabs_pos_eq; lra.
Qed.
Ltac lits j := apply bnd_const; [lia|vm_compute; reflexivity|vm_compute; reflexivity].
Lemma gst_raw_finite jd : bnd jd 300 -> fin (@gst_raw _ B jd) = true.
Proof.
  intros H. unfold gst_raw. cbv zeta.
  assert (T : bnd (@fdiv _ B (@fsub _ B jd (@L _ B 2451545 0)) (@L _ B 36525 0)) 301).
  { apply bnd_div; [|apply ge1; vm_compute; reflexivity|lia]. apply (bnd_sub lm _ _ 300); [exact H| |lia].
    lits 300. }
  set (t := @fdiv _ B (@fsub _ B jd (@L _ B 2451545 0)) (@L _ B 36525 0)) in *. clearbody t.
  refine (proj1 (_ : bnd _ 960)).
  apply bnd_div; [|apply ge1; vm_compute; reflexivity|lia].
  apply (bnd_weaken _ (940 + 1)); [|lia]. apply bnd_mul; [|lits 1|lia].
  apply (bnd_weaken _ (930 + 1)); [|lia]. apply bnd_add; [|lits 930|lia].
  apply (bnd_weaken _ (920 + 1)); [|lia]. apply bnd_add; [| |lia].
  - apply (bnd_weaken _ (910 + 1)); [|lia]. apply bnd_add; [| |lia].
    + apply (bnd_weaken _ (((1 + 301) + 301) + 301)); [|lia].
      apply bnd_mul; [|exact T|lia]. apply bnd_mul; [|exact T|lia]. apply bnd_mul; [|exact T|lia]. apply opp_bnd. lits 1.
    + apply (bnd_weaken _ ((1 + 301) + 301)); [|lia]. apply bnd_mul; [|exact T|lia]. apply bnd_mul; [|exact T|lia]. lits 1.
  - apply (bnd_weaken _ (40 + 301)); [|lia]. apply bnd_mul; [|exact T|lia].
    apply (bnd_weaken _ (35 + 1)); [|lia]. apply bnd_add; [| |lia].
    + apply (bnd_weaken _ (20 + 12)); [|lia]. apply bnd_mul; [lits 20|lits 12|lia].
    + lits 35.
Qed.
Lemma gsto_raw_finite e : bnd e 290 -> fin (@gsto_raw _ B e) = true.
Proof.
  intros H. unfold gsto_raw. cbv zeta.
    set (t := @fsub _ B e (@L _ B 7305 0)).
    assert (T : bnd t 291). { apply (bnd_sub lm _ _ 290); [exact H| |lia]. lits 290. }
    set (d := @ffloor _ B (@fadd _ B t (@L _ B 1 8))).
    assert (D : bnd d 292). { apply bnd_floor; [|lia]. apply (bnd_add lm _ _ 291); [exact T| |lia]. lits 291. }
    refine (proj1 (_ : bnd _ 960)).
    apply (bnd_weaken _ (900 + 1)); [|lia]. apply bnd_add; [| |lia].
    + apply (bnd_weaken _ (800 + 1)); [|lia]. apply bnd_add; [| |lia].
      * apply (bnd_weaken _ (700 + 1)); [|lia]. apply bnd_add; [lits 700| |lia].
        apply (bnd_weaken _ (1 + 292)); [|lia]. apply bnd_mul; [lits 1|exact D|lia].
      * apply (bnd_weaken _ (10 + 293)); [|lia]. apply bnd_mul; [lits 10| |lia].
        apply (bnd_sub lm _ _ 292); [apply (bnd_weaken _ 291); [exact T|lia]|exact D|lia].
    + apply (bnd_weaken _ ((291 + 291) + 1)); [|lia]. apply bnd_mul; [apply bnd_mul; [exact T|exact T|lia]|lits 1|lia].
Qed.
End B64b.

(** It is not NaN for any finite Julian date up to 2^290 in magnitude (which includes every instant a
    calendar date can name). *)
Theorem C15_binary64_finite :
  forall (lm : libm) (jd : b64),
    is_finite jd = true -> Rabs (B2R jd) <= bpow radix2 290 ->
    let angle y := is_finite y = true /\ 0 <= B2R y <= TPI in
    angle (@gstime _ (B64Ops lm) jd) /\ forall m, angle (@initl_gsto _ (B64Ops lm) m jd).
Proof.
  intros lm jd F H angle. assert (R : forall x, fin x = true -> angle (@reduce _ (B64Ops lm) x)).
  { intros x Hx. destruct (reduce_B lm x) as [[K _]|[_ K]]; [congruence|exact K]. }
  split.
  - rewrite gstime_reduce. apply R, gst_raw_finite. apply (bnd_weaken _ 290); [now split|lia].
  - intros m. destruct (opsmode_eqb m OpsA) eqn:E.
    + destruct m; try discriminate. rewrite gsto_A_reduce. apply R, gsto_raw_finite. now split.
    + rewrite gsto_I_reduce by (intros ->; discriminate). apply R, gst_raw_finite.
      apply (bnd_weaken _ (290 + 1)); [|lia]. apply bnd_add; [now split| |lia].
      apply bnd_const; [lia|vm_compute; reflexivity|vm_compute; reflexivity].
Qed.
Print Assumptions C15_binary64_finite.

(** Non-vacuity: sidereal time at J2000.0 (JD 2451545) is 280.46 degrees = 4.894961 rad, in exact
    arithmetic up to whole turns and in binary64; initialisation completes in exact arithmetic. *)
Example C15_example :
  gmst_seconds 2451545 = 67310.54841 /\
  (exists s r, sgp4init 0 satrec_zero (ro 0) = Done (s, r)) /\
  (fle (lit 4894961 (-6)) (gstime (lit 2451545 0)), fle (gstime (lit 2451545 0)) (lit 4894962 (-6))) = (true, true).
Proof.
  split; [unfold gmst_seconds; cbv zeta; lra|]. split; [apply ro_done|]. vm_compute. reflexivity.
Qed.
