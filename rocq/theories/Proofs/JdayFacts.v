(** * jday: exact and binary64 values *)
From Coq Require Import ZArith Bool Reals Lra Lia Psatz.
From Flocq Require Import Core IEEE754.BinarySingleNaN.
From Verif.Model Require Import Float Ext.
From Verif.Spec Require Import Calendar.
From Verif.Inst Require Import RInst RTac B64 B64Facts B64Approx.
From Verif.Proofs Require Import CalendarFacts.
Local Open Scope R_scope.

Lemma Zfloor_div4 a : Zfloor (IZR a * (25 / 100)) = (a / 4)%Z.
Proof. replace (IZR a * (25 / 100)) with (IZR a / IZR 4) by lra. now apply Zfloor_div. Qed.

Lemma jday_R y m d h mi s ms :
  jday (IZR y) (IZR m) (IZR d) h mi s ms
  = IZR (jul y m d) + 17210135 / 10 + (((ms / 60000 + s / 60 + mi) / 60 + h) / 24).
Proof.
  unfold jday, jul. cbn [ffloor ROps]. rops.
  rewrite <- (plus_IZR m 9), Zfloor_div, <- plus_IZR, <- !mult_IZR, Zfloor_div4, Zfloor_div by discriminate.
  rewrite <- minus_IZR, <- !plus_IZR. reflexivity.
Qed.

Section S.
Context (lm : libm).
Notation B := (B64Ops lm).
#[local] Hint Extern 0 (FloatOps _) => exact (B64Ops lm) : typeclass_instances.

Definition day_part (y m d : b64) : b64 :=
  (((L 367 0) * y - ffloor ((L 7 0) * (y + ffloor ((m + (L 9 0)) / (L 12 0))) * (L 25 2)))
  + ffloor ((L 275 0) * m / (L 9 0)) + d + (L 17210135 1))%f.
Definition frac_part (h mi s ms : b64) : b64 :=
  (((ms / (L 60000 0) + s / (L 60 0) + mi) / (L 60 0) + h) / (L 24 0))%f.
Lemma jday_split (y m d h mi s ms : b64) : jday y m d h mi s ms = fadd (day_part y m d) (frac_part h mi s ms).
Proof. unfold jday, day_part, frac_part. reflexivity. Qed.

Lemma fmt_half z : (Z.abs z <= 2 ^ 52)%Z -> fmt (IZR z / 2).
Proof.
  intros H. apply fmt_FLT. exists (Float radix2 z (-1)); cbn; [unfold F2R; cbn; lra|lia|lia].
Qed.
Lemma fmt_quarter z : (Z.abs z <= 2 ^ 52)%Z -> fmt (IZR z * (25 / 100)).
Proof.
  intros H. apply fmt_FLT. exists (Float radix2 z (-2)); cbn; [unfold F2R; cbn; lra|lia|lia].
Qed.
Lemma small_1000 x : Rabs x <= IZR (2 ^ 100) -> Rabs x <= bpow radix2 1000.
Proof. intros H. eapply Rle_trans; [exact H|]. change (IZR (2 ^ 100)) with (bpow radix2 100). apply bpow_le. lia. Qed.
Lemma small_1023 x : x <= IZR (2 ^ 100) -> x <= bpow radix2 1023.
Proof. intros H. eapply Rle_trans; [exact H|]. change (IZR (2 ^ 100)) with (bpow radix2 100). apply bpow_le. lia. Qed.

Lemma lit_quarter : is (@L _ B 25 2) (25 / 100).
Proof.
  apply (is_dec lm 25 2); change (10 ^ 2)%Z with 100%Z.
  - apply small_1023. change (2 ^ 100)%Z with 1267650600228229401496703205376%Z. lra.
  - replace (25 / 100) with (IZR 1 * (25 / 100)) by lra. apply fmt_quarter. lia.
Qed.
Lemma lit_jd0 : is (@L _ B 17210135 1) (17210135 / 10).
Proof.
  apply (is_dec lm 17210135 1); change (10 ^ 1)%Z with 10%Z.
  - apply small_1023. change (2 ^ 100)%Z with 1267650600228229401496703205376%Z. lra.
  - replace (17210135 / 10) with (IZR 3442027 / 2) by lra. apply fmt_half. lia.
Qed.

Lemma jul_bound y m d : (Z.abs y <= 1000000 -> 1 <= m <= 12 -> 1 <= d <= 31 -> Z.abs (jul y m d) <= 400000000)%Z.
Proof.
  intros Hy Hm Hd. unfold jul.
  assert (A : (0 <= (m + 9) / 12 <= 1)%Z) by (split; [apply Z.div_pos|apply Z.lt_succ_r, Z.div_lt_upper_bound]; lia).
  assert (C : (0 <= 275 * m / 9 <= 367)%Z) by (split; [apply Z.div_pos|apply Z.div_le_upper_bound]; lia).
  set (k := ((m + 9) / 12)%Z) in *. set (j := (275 * m / 9)%Z) in *. clearbody k j.
  pose proof (Z.div_mod (7 * (y + k)) 4 ltac:(lia)). pose proof (Z.mod_pos_bound (7 * (y + k)) 4 ltac:(lia)). lia.
Qed.

(** The date part is exact. *)
Lemma day_part_exact y m d : (Z.abs y <= 1000000 -> 1 <= m <= 12 -> 1 <= d <= 31 ->
  is (day_part (fofZ y) (fofZ m) (fofZ d)) (IZR (jul y m d) + 17210135 / 10))%Z.
Proof.
  intros Hy Hm Hd. unfold day_part.
  assert (Q : (Z.abs (2 * jul y m d + 3442027) <= 2 ^ 52)%Z) by (pose proof (jul_bound y m d Hy Hm Hd); lia).
  pose proof (jul_bound y m d Hy Hm Hd) as JB.
  assert (A : (0 <= (m + 9) / 12 <= 1)%Z) by (split; [apply Z.div_pos|apply Z.lt_succ_r, Z.div_lt_upper_bound]; lia).
  assert (C : (0 <= 275 * m / 9 <= 367)%Z) by (split; [apply Z.div_pos|apply Z.div_le_upper_bound]; lia).
  assert (D : (Z.abs (7 * (y + (m + 9) / 12) / 4) <= 2000000)%Z).
  { pose proof (Z.div_mod (7 * (y + (m + 9) / 12)) 4 ltac:(lia)). pose proof (Z.mod_pos_bound (7 * (y + (m + 9) / 12)) 4 ltac:(lia)). lia. }
  apply is_add; [..|replace (IZR (jul y m d) + 17210135 / 10) with (IZR (2 * jul y m d + 3442027) / 2)
    by (rewrite plus_IZR, mult_IZR; lra); now apply fmt_half|].
  - unfold jul.
    apply is_addZ; [apply is_addZ; [apply is_subZ; [apply is_mulZ; [apply is_lit|apply is_ofZ|]|..]|..]|apply is_ofZ|]; try lia.
    + rewrite <- Zfloor_div4. apply is_floor. 
      assert (G : is (@fmul _ B (L 7 0) (fadd (fofZ y) (ffloor (fdiv (fadd (fofZ m) (L 9 0)) (L 12 0))))) (IZR (7 * (y + (m + 9) / 12)))).
      { apply is_mulZ; [apply is_lit; lia|apply is_addZ; [apply is_ofZ; lia| |lia]|lia].
        apply is_floor_div; [apply is_addZ; [apply is_ofZ|apply is_lit|]|apply is_lit|..]; lia. }
      apply is_mul; [exact G|apply lit_quarter| |].
      * apply fmt_quarter. lia.
      * apply small_1000. assert (IZR (-10000000) <= IZR (7 * (y + (m + 9) / 12)) <= IZR 10000000) by (split; apply IZR_le; lia).
        change (2 ^ 100)%Z with 1267650600228229401496703205376%Z. apply Rabs_le. lra.
    + apply is_floor_div; [apply is_mulZ; [apply is_lit|apply is_ofZ|]|apply is_lit|..]; lia.
  - apply lit_jd0.
  - apply small_1000. assert (IZR (-400000000) <= IZR (jul y m d) <= IZR 400000000) by (split; apply IZR_le; lia).
    change (2 ^ 100)%Z with 1267650600228229401496703205376%Z. apply Rabs_le. lra.
Qed.

(** The fraction of a day, with whole hours and minutes. *)
Definition frac (h mi : Z) (s : R) : R := (((0 / 60000 + s / 60 + IZR mi) / 60 + IZR h) / 24).
Lemma frac_part_near (h mi : Z) (s : R) (fh fmi fs fms : b64) : (0 <= h <= 23)%Z -> (0 <= mi <= 59)%Z -> 0 <= s <= 60 ->
  is fh (IZR h) -> is fmi (IZR mi) -> is fs s -> is fms 0 ->
  near (frac_part fh fmi fs fms) (frac h mi s) (bpow radix2 (-52)).
Proof.
  intros Hh Hm D Ih Im Is I0. unfold frac_part, frac.
  assert (A : 0 <= IZR h <= 23) by (split; apply IZR_le; lia).
  assert (C : 0 <= IZR mi <= 59) by (split; apply IZR_le; lia).
  assert (Z0 : is (@fdiv _ B fms (@L _ B 60000 0)) (0 / 60000)).
  { destruct I0 as [F1 E1]. destruct (is_lit lm 60000 ltac:(lia)) as [F2 E2].
    destruct (div_fin lm fms (@L _ B 60000 0) F1) as [F3 E3]; rewrite ?E1, ?E2; try lra.
    - replace (0 / 60000) with 0 by lra. rewrite Rabs_R0. apply bpow_ge_0.
    - split; [exact E3|]. rewrite F3, E1, E2. replace (0 / 60000) with 0 by lra. apply rnd_0. }
  assert (S1 : near (@fdiv _ B fs (@L _ B 60 0)) (s / 60) (0 / 60 + bpow radix2 (-53) / 2)).
  { apply near_div; [lia|apply is_near, Is|apply is_lit; lia|lra|].
    change (bpow radix2 (-53 + 53)) with 1. rewrite Rabs_pos_eq; lra. }
  change (bpow radix2 (-53)) with (/ 9007199254740992) in S1.
  pose proof (near_add lm (-52) _ _ _ _ _ _ ltac:(lia) (is_near _ _ Z0) S1) as S2.
  change (bpow radix2 (-52 + 53)) with 2 in S2. specialize (S2 ltac:(rewrite Rabs_pos_eq; lra)).
  change (bpow radix2 (-52)) with (/ 4503599627370496) in *.
  pose proof (near_add lm (-47) _ _ _ _ _ _ ltac:(lia) S2 (is_near _ _ Im)) as S3.
  change (bpow radix2 (-47 + 53)) with 64 in S3. specialize (S3 ltac:(rewrite Rabs_pos_eq; lra)).
  change (bpow radix2 (-47)) with (/ 140737488355328) in S3.
  pose proof (near_div lm (-52) _ _ _ _ _ ltac:(lia) S3 (is_lit lm 60 ltac:(lia)) ltac:(lra)) as S4.
  change (bpow radix2 (-52 + 53)) with 2 in S4. specialize (S4 ltac:(rewrite Rabs_pos_eq; lra)).
  change (bpow radix2 (-52)) with (/ 4503599627370496) in *.
  pose proof (near_add lm (-48) _ _ _ _ _ _ ltac:(lia) S4 (is_near _ _ Ih)) as S5.
  change (bpow radix2 (-48 + 53)) with 32 in S5. specialize (S5 ltac:(rewrite Rabs_pos_eq; lra)).
  change (bpow radix2 (-48)) with (/ 281474976710656) in S5.
  pose proof (near_div lm (-52) _ _ _ _ _ ltac:(lia) S5 (is_lit lm 24 ltac:(lia)) ltac:(lra)) as S6.
  change (bpow radix2 (-52 + 53)) with 2 in S6. specialize (S6 ltac:(rewrite Rabs_pos_eq; lra)).
  change (bpow radix2 (-52)) with (/ 4503599627370496) in *.
  eapply near_weaken; [exact S6|]. lra.
Qed.

(** jday within half a unit in the last place of a Julian date (years -4000 to 6000). *)
Lemma jday_B (y m d h mi : Z) (s : R) (fy fm fd fh fmi fs fms : b64) :
  (-4000 <= y <= 6000)%Z -> (1 <= m <= 12)%Z -> (1 <= d <= 31)%Z ->
  (0 <= h <= 23)%Z -> (0 <= mi <= 59)%Z -> 0 <= s <= 60 ->
  fy = fofZ y -> fm = fofZ m -> fd = fofZ d ->
  is fh (IZR h) -> is fmi (IZR mi) -> is fs s -> is fms 0 ->
  near (jday fy fm fd fh fmi fs fms) (IZR (jul y m d) + 17210135 / 10 + frac h mi s) (bpow radix2 (-31)).
Proof.
  intros Hy Hm Hd Hh Hmi Hs -> -> -> Ih Im Is I0. rewrite jday_split.
  pose proof (day_part_exact y m d ltac:(lia) Hm Hd) as P.
  pose proof (frac_part_near h mi s fh fmi fs fms Hh Hmi Hs Ih Im Is I0) as Q.
  assert (J : (-1720000 <= jul y m d <= 2470000)%Z).
  { unfold jul. assert (A : (0 <= (m + 9) / 12 <= 1)%Z) by (split; [apply Z.div_pos|apply Z.lt_succ_r, Z.div_lt_upper_bound]; lia).
    assert (C : (0 <= 275 * m / 9 <= 367)%Z) by (split; [apply Z.div_pos|apply Z.div_le_upper_bound]; lia).
    set (k := ((m + 9) / 12)%Z) in *. set (j := (275 * m / 9)%Z) in *. clearbody k j.
    pose proof (Z.div_mod (7 * (y + k)) 4 ltac:(lia)). pose proof (Z.mod_pos_bound (7 * (y + k)) 4 ltac:(lia)). lia. }
  assert (J' : IZR (-1720000) <= IZR (jul y m d) <= IZR 2470000) by (split; apply IZR_le; lia).
  assert (A : 0 <= IZR h <= 23) by (split; apply IZR_le; lia).
  assert (C : 0 <= IZR mi <= 59) by (split; apply IZR_le; lia).
  assert (Fr : 0 <= frac h mi s <= 2) by (unfold frac; lra).
  pose proof (near_add lm (-31) _ _ _ _ _ _ ltac:(lia) (is_near _ _ P) Q) as S.
  change (bpow radix2 (-31 + 53)) with 4194304 in S. change (bpow radix2 (-52)) with (/ 4503599627370496) in S.
  specialize (S ltac:(rewrite Rabs_pos_eq; lra)). eapply near_weaken; [exact S|].
  change (bpow radix2 (-31)) with (/ 2147483648). lra.
Qed.

Lemma jday_B_midnight y m d : (Z.abs y <= 1000000 -> 1 <= m <= 12 -> 1 <= d <= 31 ->
  is (jday (fofZ y) (fofZ m) (fofZ d) (fofZ 0) (fofZ 0) (fofZ 0) (fofZ 0)) (IZR (jul y m d) + 17210135 / 10))%Z.
Proof.
  intros Hy Hm Hd. rewrite jday_split.
  pose proof (day_part_exact y m d Hy Hm Hd) as P.
  assert (Q : is (frac_part (fofZ 0) (fofZ 0) (fofZ 0) (fofZ 0)) 0).
  { assert (Fz : is (B754_zero false) 0) by (split; reflexivity).
    replace (frac_part (fofZ 0) (fofZ 0) (fofZ 0) (fofZ 0)) with (B754_zero false : b64); [exact Fz|]. vm_compute. reflexivity. }
  replace (IZR (jul y m d) + 17210135 / 10) with (IZR (jul y m d) + 17210135 / 10 + 0) by ring.
  apply is_add; [exact P|exact Q|rewrite Rplus_0_r|rewrite Rplus_0_r].
  - destruct P as [_ <-]. apply fmt_B2R.
  - apply small_1000. pose proof (jul_bound y m d Hy Hm Hd).
    assert (IZR (-400000000) <= IZR (jul y m d) <= IZR 400000000) by (split; apply IZR_le; lia).
    change (2 ^ 100)%Z with 1267650600228229401496703205376%Z. apply Rabs_le. lra.
Qed.
End S.
