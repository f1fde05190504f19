(** * days2mdhms *)
From Coq Require Import ZArith Bool List Reals Lra Lia Psatz.
From Flocq Require Import Core IEEE754.BinarySingleNaN.
From Verif.Model Require Import Float Ext.
From Verif.Spec Require Import Calendar.
From Verif.Inst Require Import RInst RTac B64 B64Facts B64Approx.
From Verif.Proofs Require Import CalendarFacts JdayFacts.
Local Open Scope Z_scope.

(** February of the crate: only the rule of 4. *)
Definition lp4 (y : Z) : Z := if y mod 4 =? 0 then 1 else 0.
Definition len4 (y m : Z) : Z := if m =? 2 then 28 + lp4 y else if (m =? 4) || (m =? 6) || (m =? 9) || (m =? 11) then 30 else 31.
Lemma lp4_leap y : leap y = (y mod 4 =? 0) -> lp4 y = (if leap y then 1 else 0) /\ forall m, len4 y m = month_length y m.
Proof.
  intros E. unfold lp4, len4, month_length. rewrite <- E. split; [reflexivity|]. intros m.
  destruct (m =? 2); [|reflexivity]. destruct (leap y); unfold lp4; rewrite <- E; reflexivity.
Qed.

Definition mb_table (l m : Z) : Z :=
  if m =? 1 then 0 else if m =? 2 then 31 else if m =? 3 then 59 + l else if m =? 4 then 90 + l else if m =? 5 then 120 + l
  else if m =? 6 then 151 + l else if m =? 7 then 181 + l else if m =? 8 then 212 + l else if m =? 9 then 243 + l
  else if m =? 10 then 273 + l else if m =? 11 then 304 + l else 334 + l.
Lemma mb_eq l m : 1 <= m <= 12 -> months_before l m = mb_table l m.
Proof. intros H. months H; reflexivity. Qed.
(** The month loop, for every day number: month, and the days before it; when the day number is in the
    year, the rest is a day of that month. *)
Lemma month_loop_spec y D i t : month_loop D (lmonth y) 1 0 = (i, t) ->
  1 <= i <= 12 /\ t = months_before (lp4 y) i /\ (0 <= D -> 0 <= D - t) /\ (1 <= D <= 365 + lp4 y -> 1 <= D - t <= len4 y i).
Proof.
  unfold lmonth, len4, lp4. set (f := if y mod 4 =? 0 then 29 else 28).
  assert (Ef : f = 28 + (if y mod 4 =? 0 then 1 else 0)) by (unfold f; now destruct (y mod 4 =? 0)).
  rewrite Ef. clear Ef f. set (l := if y mod 4 =? 0 then 1 else 0).
  assert (Hl : 0 <= l <= 1) by (unfold l; destruct (y mod 4 =? 0); lia). clearbody l.
  cbn [month_loop].
  repeat match goal with |- context [if ?a <? ?b then _ else _] => destruct (Z.ltb_spec a b) end;
    intros EQ; apply pair_equal_spec in EQ; destruct EQ as [<- <-]; rewrite mb_eq by lia; unfold mb_table;
    match goal with |- (1 <= ?i <= 12) /\ _ => let i' := eval compute in i in change i with i' end;
    cbn [Z.eqb Pos.eqb orb]; lia.
Qed.

(** ** Exact arithmetic *)
Local Open Scope R_scope.
Lemma days2mdhms_R y (days : R) : exists i t h mi s,
  let D := clamp_u64 (Ztrunc (IZR (Zfloor days))) in
  month_loop D (lmonth y) 1 0 = (i, t) /\
  days2mdhms y days = MkMDHMS (IZR i) (IZR (D - t)) (IZR h) (IZR mi) s /\
  days = IZR D + (IZR h + (IZR mi + s / 60) / 60) / 24 /\
  (0 <= days - IZR D < 1 -> (0 <= h <= 23)%Z) /\ (0 <= mi <= 59)%Z /\ 0 <= s < 60.
Proof.
  unfold days2mdhms. cbn [ftoU64 ffloor ROps]. set (D := clamp_u64 _).
  destruct (month_loop D (lmonth y) 1 0) as [i t] eqn:E. exists i, t. cbn zeta. rops.
  set (T := (days - IZR D) * 24). exists (Zfloor T). set (U := (T - IZR (Zfloor T)) * 60). exists (Zfloor U), ((U - IZR (Zfloor U)) * 60).
  pose proof (Zfloor_lb T). pose proof (Zfloor_ub T). pose proof (Zfloor_lb U). pose proof (Zfloor_ub U).
  assert (HU : 0 <= U < 60) by (unfold U; lra).
  assert (FU : (0 <= Zfloor U <= 59)%Z).
  { split; [apply Zfloor_lub; lra|]. assert (Zfloor U < 60)%Z by (apply lt_IZR; lra). lia. }
  refine (conj eq_refl (conj eq_refl (conj _ (conj _ (conj FU _))))).
  - unfold U, T. field.
  - intros Hd. assert (HT : 0 <= T < 24) by (unfold T; lra).
    split; [apply Zfloor_lub; lra|]. assert (Zfloor T < 24)%Z by (apply lt_IZR; lra). lia.
  - lra.
Qed.
Lemma clamp_floor (days : R) : 0 <= days < 400 -> clamp_u64 (Ztrunc (IZR (Zfloor days))) = Zfloor days.
Proof.
  intros H. rewrite Ztrunc_IZR. unfold clamp_u64, u64_max.
  assert (A : (0 <= Zfloor days)%Z) by (apply Zfloor_lub; lra).
  assert (Zfloor days < 400)%Z by (apply lt_IZR; pose proof (Zfloor_lb days); lra). lia.
Qed.

(** ** Binary64 *)
Section S.
Context (lm : libm).
Notation B := (B64Ops lm).
#[local] Hint Extern 0 (FloatOps _) => exact (B64Ops lm) : typeclass_instances.

(** the fractional part of a float in [0, 2^52) is a float *)
Lemma fmt_frac x : fmt x -> 0 <= x -> fmt (x - IZR (Zfloor x)).
Proof.
  intros G P. destruct (Req_dec x 0) as [->|N].
  { rewrite (Zfloor_IZR 0). replace (0 - 0) with 0 by ring. apply generic_format_0. }
  set (e := cexp radix2 fexp64 x). destruct (Z_le_gt_dec 0 e) as [He|He].
  - (* x is an integer *)
    rewrite G. fold e. set (m := Ztrunc (scaled_mantissa radix2 fexp64 x)).
    assert (E : F2R (Float radix2 m e) = IZR (m * 2 ^ e)).
    { unfold F2R. cbn. rewrite mult_IZR. f_equal. rewrite <- IZR_Zpower by assumption. reflexivity. }
    rewrite E, Zfloor_IZR. replace (IZR (m * 2 ^ e) - IZR (m * 2 ^ e)) with 0 by ring. apply generic_format_0.
  - set (m := Ztrunc (scaled_mantissa radix2 fexp64 x)) in *.
    assert (E : x = IZR m * bpow radix2 e) by (exact G).
    assert (E2 : x - IZR (Zfloor x) = F2R (Float radix2 (m - Zfloor x * 2 ^ (- e)) e)).
    { unfold F2R. cbn [Fnum Fexp]. rewrite minus_IZR, mult_IZR, Rmult_minus_distr_r, <- E. f_equal.
      change (IZR (2 ^ (- e))) with (IZR (radix2 ^ (- e))). rewrite IZR_Zpower by lia. rewrite Rmult_assoc, <- bpow_plus.
      replace (- e + e)%Z with 0%Z by lia. cbn. ring. }
    rewrite E2. apply generic_format_F2R. cbn [Fnum Fexp]. rewrite <- E2. intros NZ.
    assert (Pos : 0 < x - IZR (Zfloor x)).
    { pose proof (Zfloor_lb x). assert (x - IZR (Zfloor x) <> 0); [|lra]. rewrite E2. intros K. apply NZ. now apply eq_0_F2R in K. }
    unfold e, cexp. apply monotone_exp; [typeclasses eauto|]. apply mag_le_abs; [lra|]. rewrite !Rabs_pos_eq by lra.
    assert (0 <= IZR (Zfloor x)) by (apply IZR_le, Zfloor_lub; lra). lra.
Qed.
Lemma frac_lt_1 x : fmt x -> x < 1 -> x <= 1 - bpow radix2 (-53).
Proof.
  intros G H. replace (1 - bpow radix2 (-53)) with (pred radix2 fexp64 1).
  - apply pred_ge_gt; try typeclasses eauto; [exact G|apply (fmt_int 1); lia|exact H].
  - change 1 with (bpow radix2 0) at 1. rewrite pred_bpow. reflexivity.
Qed.
Lemma fmt_24 : fmt (24 - bpow radix2 (-48)).
Proof.
  apply fmt_FLT. exists (Float radix2 (24 * 2 ^ 48 - 1) (-48)); cbn; [unfold F2R; cbn; lra|lia|lia].
Qed.
Lemma fmt_60 : fmt (60 - bpow radix2 (-47)).
Proof.
  apply fmt_FLT. exists (Float radix2 (60 * 2 ^ 47 - 1) (-47)); cbn; [unfold F2R; cbn; lra|lia|lia].
Qed.
Lemma rnd_24 x : fmt x -> 0 <= x < 1 -> 0 <= rnd (x * 24) < 24.
Proof.
  intros G [P H]. pose proof (frac_lt_1 x G H) as Q. change (bpow radix2 (-53)) with (/ 9007199254740992) in Q. split.
  - apply rnd_ge_fmt; [apply generic_format_0|lra].
  - apply Rle_lt_trans with (24 - bpow radix2 (-48)).
    + assert (E : Rabs (rnd (x * 24) - x * 24) <= bpow radix2 (-48) / 2) by (apply rnd_err; [lia|]; change (bpow radix2 (-48 + 53)) with 32; rewrite Rabs_pos_eq; lra).
      destruct (Rle_or_lt (rnd (x * 24)) (24 - bpow radix2 (-48))) as [|K]; [assumption|exfalso].
      assert (K' : 24 <= rnd (x * 24)).
      { assert (S24 : succ radix2 fexp64 (24 - bpow radix2 (-48)) = 24).
        { rewrite succ_eq_pos by (change (bpow radix2 (-48)) with (/ 281474976710656); lra). rewrite ulp_neq_0 by (change (bpow radix2 (-48)) with (/ 281474976710656); lra).
          unfold cexp. rewrite (mag_unique_pos radix2 (24 - bpow radix2 (-48)) 5).
          - change (fexp64 5) with (-48)%Z. ring.
          - change (bpow radix2 (-48)) with (/ 281474976710656). change (bpow radix2 (5 - 1)) with 16. change (bpow radix2 5) with 32. lra. }
        rewrite <- S24 at 1. apply succ_le_lt; try typeclasses eauto; [apply fmt_24|apply generic_format_round; typeclasses eauto|exact K]. }
      apply Rabs_le_inv in E. change (bpow radix2 (-48)) with (/ 281474976710656) in E. lra.
    + pose proof (bpow_gt_0 radix2 (-48)). lra.
Qed.
Lemma rnd_60 x : fmt x -> 0 <= x < 1 -> 0 <= rnd (x * 60) < 60.
Proof.
  intros G [P H]. pose proof (frac_lt_1 x G H) as Q. change (bpow radix2 (-53)) with (/ 9007199254740992) in Q. split.
  - apply rnd_ge_fmt; [apply generic_format_0|lra].
  - apply Rle_lt_trans with (60 - bpow radix2 (-47)).
    + assert (E : Rabs (rnd (x * 60) - x * 60) <= bpow radix2 (-47) / 2) by (apply rnd_err; [lia|]; change (bpow radix2 (-47 + 53)) with 64; rewrite Rabs_pos_eq; lra).
      destruct (Rle_or_lt (rnd (x * 60)) (60 - bpow radix2 (-47))) as [|K]; [assumption|exfalso].
      assert (K' : 60 <= rnd (x * 60)).
      { assert (S60 : succ radix2 fexp64 (60 - bpow radix2 (-47)) = 60).
        { rewrite succ_eq_pos by (change (bpow radix2 (-47)) with (/ 140737488355328); lra). rewrite ulp_neq_0 by (change (bpow radix2 (-47)) with (/ 140737488355328); lra).
          unfold cexp. rewrite (mag_unique_pos radix2 (60 - bpow radix2 (-47)) 6).
          - change (fexp64 6) with (-47)%Z. ring.
          - change (bpow radix2 (-47)) with (/ 140737488355328). change (bpow radix2 (6 - 1)) with 32. change (bpow radix2 6) with 64. lra. }
        rewrite <- S60 at 1. apply succ_le_lt; try typeclasses eauto; [apply fmt_60|apply generic_format_round; typeclasses eauto|exact K]. }
      apply Rabs_le_inv in E. change (bpow radix2 (-47)) with (/ 140737488355328) in E. lra.
    + pose proof (bpow_gt_0 radix2 (-47)). lra.
Qed.

(** one stage: fractional part times a whole factor *)
Lemma stage (x : b64) (T : R) : is x T -> 0 <= T < 400 ->
  is (@fsub _ B x (@ffloor _ B x)) (T - IZR (Zfloor T)) /\ fmt (T - IZR (Zfloor T)) /\ 0 <= T - IZR (Zfloor T) < 1.
Proof.
  intros I H. pose proof (Zfloor_lb T). pose proof (Zfloor_ub T).
  assert (G : fmt (T - IZR (Zfloor T))) by (apply fmt_frac; [destruct I as [_ <-]; apply fmt_B2R|lra]).
  refine (conj _ (conj G _)); [|lra].
  apply is_sub; [exact I|now apply is_floor|exact G|]. apply small_1000.
  change (2 ^ 100)%Z with 1267650600228229401496703205376%Z. rewrite Rabs_pos_eq; lra.
Qed.
Lemma scale (x : b64) (f : R) (k : Z) : is x f -> 0 <= f < 1 -> (1 <= k <= 1000)%Z ->
  is (@fmul _ B x (@L _ B k 0)) (rnd (f * IZR k)).
Proof.
  intros [Fx Ex] H Hk. destruct (is_lit lm k ltac:(lia)) as [Fk Ek].
  assert (1 <= IZR k <= 1000) by (split; apply IZR_le; lia).
  destruct (mul_fin lm x (@L _ B k 0) Fx Fk) as [A D]; rewrite Ex, Ek in *.
  - apply small_1023. change (2 ^ 100)%Z with 1267650600228229401496703205376%Z. rewrite Rabs_pos_eq; nra.
  - split; assumption.
Qed.

Lemma toU64_floor (x : b64) (r : R) : is x r -> 0 <= r < 400 -> @ftoU64 _ B (@ffloor _ B x) = Zfloor r.
Proof.
  intros I H. destruct (is_floor lm x r I) as [F1 E1]. 
  assert (A : (0 <= Zfloor r)%Z) by (apply Zfloor_lub; lra).
  assert (Zfloor r < 400)%Z by (apply lt_IZR; pose proof (Zfloor_lb r); lra).
  cbn [ftoU64 B64Ops]. unfold b64_toU64.
  pose proof (Btrunc_correct prec emax Hemax (@ffloor _ B x)) as T. rewrite E1 in T.
  assert (T' : Btrunc (@ffloor _ B x) = Zfloor r).
  { apply eq_IZR. rewrite T. apply round_generic; [typeclasses eauto|].
    apply generic_format_FIX. exists (Float radix2 (Zfloor r) 0); [unfold F2R; cbn; ring|reflexivity]. }
  change (Bnearbyint mode_DN x) with (@ffloor _ B x). destruct (@ffloor _ B x); try discriminate F1; rewrite T'; lia.
Qed.

Lemma days2mdhms_B y (x : b64) (r : R) : is x r -> 0 <= r < 400 ->
  exists i t h mi s fh fmi fs,
    month_loop (Zfloor r) (lmonth y) 1 0 = (i, t) /\
    days2mdhms y x = MkMDHMS (fofZ i) (fofZ (Zfloor r - t)) fh fmi fs /\
    is fh (IZR h) /\ is fmi (IZR mi) /\ is fs s /\
    (0 <= h <= 23)%Z /\ (0 <= mi <= 59)%Z /\ 0 <= s < 60 /\
    Rabs (IZR (Zfloor r) + (IZR h + (IZR mi + s / 60) / 60) / 24 - r) <= bpow radix2 (-52).
Proof.
  intros I H. unfold days2mdhms. rewrite (toU64_floor x r I H).
  destruct (month_loop (Zfloor r) (lmonth y) 1 0) as [i t] eqn:E. exists i, t. cbv zeta.
  pose proof (Zfloor_lb r) as L1. pose proof (Zfloor_ub r) as L2.
  assert (Z1 : (0 <= Zfloor r)%Z) by (apply Zfloor_lub; lra).
  assert (Z2 : (Zfloor r < 400)%Z) by (apply lt_IZR; lra).
  (* day fraction *)
  assert (F0 : is (@fsub _ B x (@fofZ _ B (Zfloor r))) (r - IZR (Zfloor r)) /\ fmt (r - IZR (Zfloor r))).
  { destruct (stage x r I H) as [_ [G _]]. split; [|exact G].
    apply is_sub; [exact I|apply is_ofZ; lia|exact G|]. apply small_1000.
    change (2 ^ 100)%Z with 1267650600228229401496703205376%Z. rewrite Rabs_pos_eq; lra. }
  destruct F0 as [I0 G0]. set (f0 := r - IZR (Zfloor r)) in *. assert (H0 : 0 <= f0 < 1) by (unfold f0; lra).
  set (x0 := @fsub _ B x (@fofZ _ B (Zfloor r))) in *. clearbody x0.
  (* hours *)
  pose proof (scale x0 f0 24 I0 H0 ltac:(lia)) as I1. pose proof (rnd_24 f0 G0 H0) as H1.
  assert (E1 : Rabs (rnd (f0 * 24) - f0 * 24) <= bpow radix2 (-48) / 2)
    by (apply rnd_err; [lia|]; change (bpow radix2 (-48 + 53)) with 32; rewrite Rabs_pos_eq; lra).
  set (T := rnd (f0 * 24)) in *. set (x1 := @fmul _ B x0 (@L _ B 24 0)) in *. clearbody x1. clearbody T.
  destruct (stage x1 T I1 ltac:(lra)) as [I2 [G2 H2]].
  pose proof (scale _ _ 60 I2 H2 ltac:(lia)) as I3. pose proof (rnd_60 _ G2 H2) as H3.
  assert (E3 : Rabs (rnd ((T - IZR (Zfloor T)) * 60) - (T - IZR (Zfloor T)) * 60) <= bpow radix2 (-47) / 2)
    by (apply rnd_err; [lia|]; change (bpow radix2 (-47 + 53)) with 64; rewrite Rabs_pos_eq; lra).
  set (U := rnd ((T - IZR (Zfloor T)) * 60)) in *. clearbody U.
  set (x3 := @fmul _ B (@fsub _ B x1 (@ffloor _ B x1)) (@L _ B 60 0)) in *. clearbody x3.
  destruct (stage x3 U I3 ltac:(lra)) as [I4 [G4 H4]].
  pose proof (scale _ _ 60 I4 H4 ltac:(lia)) as I5. pose proof (rnd_60 _ G4 H4) as H5.
  assert (E5 : Rabs (rnd ((U - IZR (Zfloor U)) * 60) - (U - IZR (Zfloor U)) * 60) <= bpow radix2 (-47) / 2)
    by (apply rnd_err; [lia|]; change (bpow radix2 (-47 + 53)) with 64; rewrite Rabs_pos_eq; lra).
  exists (Zfloor T), (Zfloor U), (rnd ((U - IZR (Zfloor U)) * 60)), (@ffloor _ B x1), (@ffloor _ B x3),
    (@fmul _ B (@fsub _ B x3 (@ffloor _ B x3)) (@L _ B 60 0)).
  pose proof (Zfloor_lb T). pose proof (Zfloor_lb U).
  refine (conj eq_refl (conj eq_refl (conj (is_floor lm _ _ I1) (conj (is_floor lm _ _ I3) (conj I5 (conj _ (conj _ (conj H5 _)))))))).
  - split; [apply Zfloor_lub; lra|]. assert (Zfloor T < 24)%Z by (apply lt_IZR; lra). lia.
  - split; [apply Zfloor_lub; lra|]. assert (Zfloor U < 60)%Z by (apply lt_IZR; lra). lia.
  - change (bpow radix2 (-48)) with (/ 281474976710656) in *. change (bpow radix2 (-47)) with (/ 140737488355328) in *.
    change (bpow radix2 (-52)) with (/ 4503599627370496). set (W := rnd _) in *. clearbody W.
    apply Rabs_le_inv in E1. apply Rabs_le_inv in E3. apply Rabs_le_inv in E5. unfold f0 in *. apply Rabs_le. lra.
Qed.
End S.
