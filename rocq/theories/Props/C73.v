(** * C73: no integer overflow and no index out of range *)
From Coq Require Import ZArith Bool List String Reals Lia.
From Flocq Require Import Core.Raux IEEE754.BinarySingleNaN.
From Verif.Model Require Import Float Str Satrec Constants Ext Sgp4init Io Machine.
From Verif.Inst Require Import RInst B64.
From Verif.Proofs Require Import StrFacts IoFacts.
Import ListNotations.
Local Open Scope Z_scope.

(** The one property of the arithmetic: a cast to u64 gives a u64. *)
Definition casts_to_u64 {F} (FO : FloatOps F) : Prop := forall x : F, 0 <= ftoU64 x <= 18446744073709551615.
Theorem C73_casts : casts_to_u64 ROps /\ forall lm : libm, casts_to_u64 (B64Ops lm).
Proof.
  split.
  - intros x. cbn [ftoU64 ROps]. unfold clamp_u64, u64_max. lia.
  - intros lm x. cbn [ftoU64 B64Ops]. unfold b64_toU64, clamp_u64, u64_max. repeat match goal with |- context[match ?b with _ => _ end] => destruct b end; lia.
Qed.
Print Assumptions C73_casts.

Lemma u64_in z : 0 <= z <= 18446744073709551615 -> u64 z = Done z.
Proof. intros [H1 H2]. unfold u64. apply Z.leb_le in H1, H2. now rewrite H1, H2. Qed.
Lemma i64_in z : - 9223372036854775808 <= z <= 9223372036854775807 -> i64 z = Done z.
Proof. intros [H1 H2]. unfold i64. apply Z.leb_le in H1, H2. now rewrite H1, H2. Qed.
Lemma at_app {A} (p q : list A) x i : i = Z.of_nat (List.length p) -> at_index (p ++ x :: q) i = Done x.
Proof. intros ->. unfold at_index. rewrite Nat2Z.id, nth_error_app2, Nat.sub_diag by lia. reflexivity. Qed.

Lemma one_step n d t i s m : 1 <= i <= 12 -> at_index t (i - 1) = Done m -> 0 <= s -> 0 <= m -> s + m <= 1000 ->
  month_steps (S n) d t i s = if (s + m <? d) && (i <? 12) then month_steps n d t (i + 1) (s + m) else Done (i, s).
Proof.
  intros I M S0 M0 B. cbn [month_steps]. rewrite (u64_in (i - 1)) by lia. cbn [bindO]. rewrite M. cbn [bindO]. rewrite (u64_in (s + m)) by lia. cbn [bindO].
  rewrite (u64_in (i + 1)) by lia. cbn [bindO]. reflexivity.
Qed.
Lemma steps_loop d : 0 <= d -> forall rest n pre s, rest <> [] -> (List.length rest <= n)%nat -> List.length (pre ++ rest) = 12%nat -> Forall (fun m => 0 <= m <= 31) rest ->
  0 <= s <= 31 * Z.of_nat (List.length pre) -> s <= d -> let i := Z.of_nat (List.length pre) + 1 in
  month_steps n d (pre ++ rest) i s = Done (month_loop d rest i s) /\ 0 <= snd (month_loop d rest i s) <= d.
Proof.
  intros D. induction rest as [|m rest IH]; [congruence|]. intros n pre s _ N L T S SD i. destruct n as [|n]; [cbn in N; lia|].
  assert (LL := L). rewrite app_length in LL. cbn [List.length] in LL, N. inversion T as [|x y Hm Hr]; subst.
  rewrite (one_step n d (pre ++ m :: rest) i s m); [|unfold i; lia|apply at_app; unfold i; lia|lia..].
  destruct rest as [|m' rest].
  { rewrite (proj2 (Z.ltb_ge i 12)), andb_false_r by (unfold i; cbn in LL; lia). cbn [month_loop snd]. split; [reflexivity|lia]. }
  rewrite (proj2 (Z.ltb_lt i 12)), andb_true_r by (unfold i; cbn in LL; lia). cbn [month_loop].
  destruct (Z.ltb_spec (s + m) d) as [Q|Q]; [|cbn [snd]; split; [reflexivity|lia]].
  replace (i + 1) with (Z.of_nat (List.length (pre ++ [m])) + 1) by (unfold i; rewrite app_length; cbn; lia).
  change (pre ++ m :: m' :: rest) with (pre ++ [m] ++ m' :: rest) in *. rewrite app_assoc in *.
  apply IH; [congruence|cbn in *; lia|exact L|exact Hr| |lia]. rewrite app_length. cbn [List.length]. lia.
Qed.
(** Day numbers: for every year and every value of the day field, NaN and infinities included. *)
Theorem C73_days :
  forall F (FO : FloatOps F) n (year : Z) (days : F), casts_to_u64 FO -> (12 <= n)%nat ->
    days2mdhms_u64 n year days = Done (days2mdhms year days).
Proof.
  intros F FO n year days U N. unfold days2mdhms_u64, days2mdhms. pose proof (U (ffloor days)) as D. set (d := ftoU64 (ffloor days)) in *. clearbody d.
  unfold lmonth. set (t := [31; if year mod 4 =? 0 then 29 else 28; 31; 30; 31; 30; 31; 31; 30; 31; 30; 31]).
  destruct (steps_loop d (proj1 D) t n [] 0) as [E B]; [discriminate|exact N|reflexivity| |cbn; lia|lia|].
  { unfold t. destruct (year mod 4 =? 0); repeat (constructor; [lia|]); constructor. }
  cbn [app List.length] in E, B. change (Z.of_nat 0 + 1) with 1 in E, B.
  replace (if year mod 4 =? 0 then [31; 29; 31; 30; 31; 30; 31; 31; 30; 31; 30; 31] else [31; 28; 31; 30; 31; 30; 31; 31; 30; 31; 30; 31]) with t by (unfold t; destruct (year mod 4 =? 0); reflexivity).
  rewrite E. destruct (month_loop d t 1 0) as [i m]. cbn [bindO snd] in *. rewrite u64_in by lia. reflexivity.
Qed.
Print Assumptions C73_days.

(** Two lines: the epoch year is a number of two columns. *)
Lemma year_columns F (FO : FloatOps F) l a : parse_line1 l = Done (Ok a) -> -9 <= l1_epochyr a <= 99.
Proof.
  intros H. destruct (parse_line1_inv l a H) as (x1 & x2 & x3 & x4 & yr & nd & _ & _ & S & P & _). apply parse_i64_short in P; [exact P|].
  pose proof (slice_blen _ _ _ _ S) as B. pose proof (trim_blen x2). pose proof (length_le_blen (trim x2)). cbn in B. lia.
Qed.
Lemma set_twice F (x : F) s : set_jdsatepoch x (set_jdsatepoch x s) = set_jdsatepoch x s.
Proof. destruct s; reflexivity. Qed.
Lemma made F (FO : FloatOps F) a b : exists s0, make_satrec a b = set_jdsatepoch (tle_jdsatepoch (l1_epochyr a) (l1_epochdays a)) s0.
Proof. unfold make_satrec. cbv zeta. eexists. reflexivity. Qed.
Lemma satrec_same F (FO : FloatOps F) n l1 l2 : casts_to_u64 FO -> (12 <= n)%nat -> parse_satrec_i64 n l1 l2 = parse_satrec l1 l2.
Proof.
  intros U N. unfold parse_satrec_i64, parse_satrec. destruct (parse_line1 l1) as [[a|e]| |] eqn:A; try reflexivity. cbn [bindR].
  destruct (parse_line2 l2) as [[b|e]| |]; try reflexivity. cbn [bindR]. pose proof (year_columns F FO l1 a A) as Y.
  assert (T : (if l1_epochyr a <? 57 then l1_epochyr a + 2000 else l1_epochyr a + 1900) = tle_year (l1_epochyr a)) by reflexivity.
  unfold epoch_i64. rewrite T, i64_in by (rewrite <- T; destruct (l1_epochyr a <? 57); lia). cbn [bindO]. rewrite C73_days by assumption. cbn [bindO].
  destruct (made F FO a b) as (s0 & ->). rewrite <- (set_twice F _ s0) at 2. reflexivity.
Qed.
Theorem C73_two_lines :
  forall F (FO : FloatOps F) n fuel (l1 l2 : str), casts_to_u64 FO -> (12 <= n)%nat ->
    twoline2satrec_i64 n fuel l1 l2 = twoline2satrec fuel l1 l2.
Proof. intros F FO n fuel l1 l2 U N. unfold twoline2satrec_i64, twoline2satrec. rewrite satrec_same by assumption. reflexivity. Qed.
Print Assumptions C73_two_lines.

(** Catalogues: every text that fits into memory. *)
Lemma lines_bound s : (List.length (text_lines s) <= List.length s)%nat.
Proof.
  unfold text_lines. induction s as [|c r IH]; [cbn; lia|]. cbn [split_nl]. destruct (c =? 10).
  - cbn [filter]. change (nonblank []) with false. cbn [List.length]. lia.
  - destruct (split_nl r) as [|x xs]; cbn [filter List.length] in *.
    + destruct (nonblank [c]); cbn; lia.
    + destruct (nonblank (c :: x)), (nonblank x); cbn [List.length] in *; lia.
Qed.
Lemma multi_same F (FO : FloatOps F) fuel : casts_to_u64 FO ->
  forall n rest m pre recs errs, (List.length rest <= n)%nat -> (List.length rest < m)%nat -> Z.of_nat (List.length (pre ++ rest)) <= 9223372036854775807 ->
    multi_steps m fuel (pre ++ rest) (Z.of_nat (List.length pre)) recs errs = multi_loop n fuel (List.length pre) rest recs errs.
Proof.
  intros U. induction n as [|n IH]; intros rest m pre recs errs HN HM HL.
  - destruct rest; [|cbn in HN; lia]. destruct m; [lia|]. cbn [multi_steps multi_loop]. rewrite app_nil_r. rewrite Z.ltb_irrefl. reflexivity.
  - destruct m as [|m]; [lia|]. rewrite app_length, Nat2Z.inj_add in HL. destruct rest as [|l0 rest0].
    { cbn [multi_steps multi_loop]. rewrite app_nil_r, Z.ltb_irrefl. reflexivity. }
    cbn [multi_steps multi_loop]. set (i := Z.of_nat (List.length pre)) in *. set (len := Z.of_nat (List.length (pre ++ l0 :: rest0))).
    assert (LEN : len = i + Z.of_nat (List.length (l0 :: rest0))) by (unfold len, i; rewrite app_length; lia). cbn [List.length] in *.
    rewrite (proj2 (Z.ltb_lt i len)) by lia. rewrite (at_app pre rest0 l0 i eq_refl). cbn [bindO].
    assert (TI : Z.to_nat i = List.length pre) by (unfold i; lia).
    assert (STEP : forall k q r recs' errs', pre ++ l0 :: rest0 = (pre ++ q) ++ r -> List.length q = k -> (0 < k)%nat ->
      multi_steps m fuel (pre ++ l0 :: rest0) (i + Z.of_nat k) recs' errs' = multi_loop n fuel (List.length pre + k) r recs' errs').
    { intros k q r recs' errs' E K0 K1. assert (EL := f_equal (@List.length _) E). rewrite !app_length in EL. cbn [List.length] in EL.
      rewrite E. replace (i + Z.of_nat k) with (Z.of_nat (List.length (pre ++ q))) by (unfold i; rewrite app_length; lia).
      rewrite IH; [rewrite app_length, K0; reflexivity|lia|lia|]. rewrite !app_length. lia. }
    rewrite (u64_in (i + 2)), (u64_in (i + 1)), (u64_in (i + 3)) by lia. cbn [bindO]. fold (not25 l0).
    destruct rest0 as [|l1 rest1].
    { cbn [List.length] in *. rewrite (proj2 (Z.ltb_ge (i + 2) len)) by lia. rewrite (proj2 (Z.ltb_ge (i + 1) len)) by lia.
      replace (if not25 l0 then Done false else Done false) with (Done false) by (destruct (not25 l0); reflexivity). cbn [bindO]. rewrite TI.
      exact (STEP 1%nat [l0] [] _ _ ltac:(now rewrite <- app_assoc) eq_refl ltac:(lia)). }
    assert (A1 : at_index (pre ++ l0 :: l1 :: rest1) (i + 1) = Done l1).
    { change (l0 :: l1 :: rest1) with ([l0] ++ l1 :: rest1). rewrite app_assoc. apply at_app. unfold i. rewrite app_length. cbn. lia. }
    rewrite (proj2 (Z.ltb_lt (i + 1) len)) by (cbn [List.length] in LEN; lia). rewrite A1. cbn [bindO].
    destruct rest1 as [|l2 rest2].
    { cbn [List.length] in *. rewrite (proj2 (Z.ltb_ge (i + 2) len)) by lia.
      replace (if not25 l0 then Done false else Done false) with (Done false) by (destruct (not25 l0); reflexivity). cbn [bindO].
      rewrite C73_two_lines by (assumption || lia). rewrite TI. destruct (twoline2satrec fuel l0 l1) as [[r|e]| |]; try reflexivity; cbn [bindO];
      exact (STEP 2%nat [l0; l1] [] _ _ ltac:(now rewrite <- app_assoc) eq_refl ltac:(lia)). }
    cbn [List.length] in *. rewrite (proj2 (Z.ltb_lt (i + 2) len)) by lia. destruct (not25 l0); cbn [bindO].
    + replace (at_index (pre ++ l0 :: l1 :: l2 :: rest2) (i + 2)) with (Done l2).
      2: { symmetry. change (l0 :: l1 :: l2 :: rest2) with ([l0; l1] ++ l2 :: rest2). rewrite app_assoc. apply at_app. unfold i. rewrite app_length. cbn. lia. }
      cbn [bindO]. rewrite C73_two_lines by (assumption || lia). rewrite TI. destruct (twoline2satrec fuel l1 l2) as [[r|e]| |]; try reflexivity; cbn [bindO].
      * destruct (multi_name l0) as [nm| |]; try reflexivity. cbn [bindO]. exact (STEP 3%nat [l0; l1; l2] rest2 _ _ ltac:(now rewrite <- app_assoc) eq_refl ltac:(lia)).
      * exact (STEP 3%nat [l0; l1; l2] rest2 _ _ ltac:(now rewrite <- app_assoc) eq_refl ltac:(lia)).
    + rewrite C73_two_lines by (assumption || lia). rewrite TI. destruct (twoline2satrec fuel l0 l1) as [[r|e]| |]; try reflexivity; cbn [bindO];
      exact (STEP 2%nat [l0; l1] (l2 :: rest2) _ _ ltac:(now rewrite <- app_assoc) eq_refl ltac:(lia)).
Qed.
Theorem C73_catalogue :
  forall F (FO : FloatOps F) n fuel (string : str), casts_to_u64 FO -> Z.of_nat (blen string) <= 9223372036854775807 -> (blen string < n)%nat ->
    parse_multiple_usize n fuel string = parse_multiple fuel string.
Proof.
  intros F FO n fuel s U B N. unfold parse_multiple_usize, parse_multiple. pose proof (lines_bound s). pose proof (length_le_blen s).
  apply (multi_same F FO fuel U (List.length (text_lines s)) (text_lines s) n []); cbn [app]; lia.
Qed.
Print Assumptions C73_catalogue.

(** Non-vacuity: the checks do fail outside the ranges; day 366 of a leap year is the 31st of December; day zero and a
    day number beyond u64 do not overflow; a catalogue of one line, with a blank line before it, is an error for line zero. *)
Theorem C73_example :
  u64 (-1) = Panic /\ u64 (2 ^ 64) = Panic /\ i64 (2 ^ 63) = Panic /\ at_index [7; 8] 2 = Panic /\
  days2mdhms_u64 (FO := ROps) 12 2020 366%R = Done (days2mdhms (FO := ROps) 2020 366%R) /\
  month_steps 12 366 [31; 29; 31; 30; 31; 30; 31; 31; 30; 31; 30; 31] 1 0 = Done (12, 335) /\
  month_steps 12 0 [31; 29; 31; 30; 31; 30; 31; 31; 30; 31; 30; 31] 1 0 = Done (1, 0) /\
  month_steps 12 18446744073709551615 [31; 29; 31; 30; 31; 30; 31; 31; 30; 31; 30; 31] 1 0 = Done (12, 335) /\
  forall lm fuel, parse_multiple_usize (FO := B64Ops lm) 4 fuel [32; 10; 88] = Done ([], [SatrecMultiError 0 InvalidTLEBadLineCount]).
Proof.
  repeat (split; [reflexivity|]). split; [apply C73_days; [apply C73_casts|lia]|]. repeat (split; [reflexivity|]). intros lm fuel. reflexivity.
Qed.
Print Assumptions C73_example.
