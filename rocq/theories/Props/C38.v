(** * C38: a successful parse does not mean numbers *)
From Coq Require Import ZArith Reals List Bool String Lia Lra.
From Flocq Require Import Core IEEE754.BinarySingleNaN.
From Verif.Model Require Import Float Str Satrec Constants Vec3 Initl Sgp4 Sgp4init Io.
From Verif.Inst Require Import B64 B64Facts.
From Verif.Golden Require Import Flat.
From Verif.Spec Require Import TextSpec NumText TleSpec.
From Verif.Proofs Require Import StrFacts TextFacts IoFacts NumFacts DecodeFacts InitElems NanFacts.
From Verif.Props Require Import C07 C20 C25 C28 C31.
Import ListNotations.
Local Open Scope Z_scope.

(** Columns spelling NaN, in any case, with an optional sign. *)
Definition spells_nan (line : str) (lo hi : nat) : Prop :=
  exists x sg neg w, columns line lo hi x /\ padded x (sg ++ w) /\ sign_text sg neg /\ word_nan w.
(** All six components are NaN. *)
Definition all_nan (r : SGP4Result b64) : Prop :=
  Forall (fun x => x = B754_nan)
    [v_x (g4_position r); v_y (g4_position r); v_z (g4_position r); v_x (g4_velocity r); v_y (g4_velocity r); v_z (g4_velocity r)].

Lemma all_nan_intro r :
  isnan (v_x (g4_position r)) /\ isnan (v_y (g4_position r)) /\ isnan (v_z (g4_position r)) /\
  isnan (v_x (g4_velocity r)) /\ isnan (v_y (g4_velocity r)) /\ isnan (v_z (g4_velocity r)) -> all_nan r.
Proof. intros (A & B & C & D & E & G). unfold all_nan. repeat constructor; assumption. Qed.

(** A NaN among the angles, the mean motion or the time is never diagnosed: the propagation fails for
    some other reason or succeeds with nothing but NaN.  True of every record, near-earth or deep-space. *)
Theorem C38_nan_in_nan_out :
  forall (lm : libm), keeps_nan lm ->
  forall (fuel : nat) (s s' : Satrec b64) (t : b64) (r : SGP4Result b64),
    In B754_nan [t; sr_no s; sr_inclo s; sr_nodeo s; sr_argpo s; sr_mo s] ->
    @sgp4 _ (B64Ops lm) fuel s t = Done (s', Ok r) -> all_nan r.
Proof.
  intros lm K fuel s s' t r H E. apply all_nan_intro. apply (sgp4_nan lm K fuel s t s'); [|exact E]. unfold isnan. cbn [In] in H.
  destruct H as [H|[H|[H|[H|[H|[H|[]]]]]]]; auto 7.
Qed.
Print Assumptions C38_nan_in_nan_out.

Lemma nan_float lm l n lo hi v : spells_nan l lo hi -> @parse_float _ (B64Ops lm) l n lo hi = Done (Ok v) -> isnan v.
Proof.
  intros (x & sg & neg & w & C & P & S & W) H. apply parse_float_ok in H. destruct H as (x' & C' & H).
  apply slice_columns in C'. rewrite (columns_unique _ _ _ _ _ C' C) in H.
  assert (E : @parse_f64 _ (B64Ops lm) (trim x) = Some (@fsigned _ (B64Ops lm) neg (@fnan _ (B64Ops lm)))). { apply (parse_f64_trim (FO := B64Ops lm)). exists (sg ++ w). split; [exact P|now constructor]. }
  assert (v = @fsigned _ (B64Ops lm) neg (@fnan _ (B64Ops lm))) as -> by congruence. now destruct neg.
Qed.
Lemma line2_inv (F : Type) (FO : FloatOps F) l b : parse_line2 (FO := FO) l = Done (Ok b) ->
  exists i n a m o, parse_float l "inclo" 8 16 = Done (Ok i) /\ parse_float l "nodeo" 17 25 = Done (Ok n) /\ parse_ecco l = Done (Ok (l2_ecco b)) /\
    parse_float l "argpo" 34 42 = Done (Ok a) /\ parse_float l "mo" 43 51 = Done (Ok m) /\ parse_float l "no" 52 63 = Done (Ok o) /\
    l2_inclo b = fmul i kDEG_2_RAD /\ l2_nodeo b = fmul n kDEG_2_RAD /\ l2_argpo b = fmul a kDEG_2_RAD /\ l2_mo b = fmul m kDEG_2_RAD /\ l2_no b = fdiv o kXPDOTP.
Proof.
  unfold parse_line2. intros H.
  apply bindR_ok in H. destruct H as (i & H1 & H). apply bindR_ok in H. destruct H as (n & H2 & H). apply bindR_ok in H. destruct H as (e & H3 & H).
  apply bindR_ok in H. destruct H as (a & H4 & H). apply bindR_ok in H. destruct H as (m & H5 & H). apply bindR_ok in H. destruct H as (o & H6 & H).
  injection H as <-. exists i, n, a, m, o. cbn [l2_ecco l2_inclo l2_nodeo l2_argpo l2_mo l2_no]. repeat (split; [assumption || reflexivity|]). reflexivity.
Qed.

(** From text: if any angle or the mean motion is spelled NaN, a record may be returned, but nothing
    it propagates to is a number. *)
Theorem C38_nan_texts_never_give_numbers :
  forall (lm : libm), keeps_nan lm ->
  forall (fuel fuel' : nat) (l1 l2 : str) (s s' : Satrec b64) (t : b64) (r : SGP4Result b64) (lo hi : nat),
    In (lo, hi) [(8, 16); (17, 25); (34, 42); (43, 51); (52, 63)]%nat -> spells_nan l2 lo hi ->
    @twoline2satrec _ (B64Ops lm) fuel l1 l2 = Done (Ok s) ->
    @sgp4 _ (B64Ops lm) fuel' s t = Done (s', Ok r) -> all_nan r.
Proof.
  intros lm K fuel fuel' l1 l2 s s' t r lo hi I Nn T E. apply all_nan_intro. apply (sgp4_nan lm K fuel' s t s'); [|exact E].
  unfold twoline2satrec in T. apply bindR_ok in T. destruct T as (p & P & T).
  destruct (@sgp4init _ (B64Ops lm) fuel p (@tle_options _ (B64Ops lm) p)) as [[s1 [r1|e1]]| |] eqn:G; cbn [bindO] in T; try discriminate T.
  assert (s1 = s) by congruence. subst s1.
  apply parse_satrec_inv in P. destruct P as (a & b & _ & Pb & ->). apply line2_inv in Pb.
  destruct Pb as (i & n & ag & m & o & F1 & F2 & _ & F4 & F5 & F6 & E1 & E2 & E4 & E5 & E6).
  pose proof (C20_elements_stored _ _ _ _ _ _ _ G) as (_ & S1 & S2 & S3 & S4 & _). pose proof (sgp4init_elems _ _ _ _ _ G) as Q.
  assert (X : isnan (l2_inclo b) \/ isnan (l2_nodeo b) \/ isnan (l2_argpo b) \/ isnan (l2_mo b) \/ isnan (l2_no b)).
  { cbn [In] in I. destruct I as [I|[I|[I|[I|[I|[]]]]]]; injection I as <- <-.
    - left. rewrite E1. apply n_mul_l. exact (nan_float lm _ _ _ _ _ Nn F1).
    - right; left. rewrite E2. apply n_mul_l. exact (nan_float lm _ _ _ _ _ Nn F2).
    - right; right; left. rewrite E4. apply n_mul_l. exact (nan_float lm _ _ _ _ _ Nn F4).
    - right; right; right; left. rewrite E5. apply n_mul_l. exact (nan_float lm _ _ _ _ _ Nn F5).
    - right; right; right; right. rewrite E6. apply n_div_l. exact (nan_float lm _ _ _ _ _ Nn F6). }
  destruct X as [X|[X|[X|[X|X]]]].
  - right; right; left. rewrite S1. exact X.
  - right; right; right; left. rewrite S2. exact X.
  - right; right; right; right; left. rewrite S3. exact X.
  - right; right; right; right; right. rewrite S4. exact X.
  - right; left. change (isnan (el_no (elems_of s))). rewrite (proj1 Q). cbn [el_no]. unfold brouwer_no, initl. cbn [ir_no il_no il_ecco il_inclo]. apply n_div_l. exact X.
Qed.
Print Assumptions C38_nan_texts_never_give_numbers.

(** The eccentricity read from digits is at most one, so initialisation goes ahead. *)
Lemma ecc_guard lm l2 d e : reads_fraction l2 26 33 d -> @parse_ecco _ (B64Ops lm) l2 = Done (Ok e) ->
  @fle _ (B64Ops lm) (@L _ (B64Ops lm) 0 0) (@fsub _ (B64Ops lm) (@L _ (B64Ops lm) 1 0) (@fmul _ (B64Ops lm) e e)) = true.
Proof.
  intros Rd H. pose proof (ecco_ok (FO := B64Ops lm) l2 d Rd) as E. assert (e = num (FO := B64Ops lm) d) as -> by congruence.
  destruct Rd as (x & y & _ & _ & _ & D & ->). pose proof (value_bounds y D) as V.
  set (d := Dec false (value y) (- Z.of_nat (List.length y))) in *.
  assert (B : (0 <= dec_value d <= 1)%R).
  { unfold d, dec_value. cbn [d_neg d_man d_exp]. rewrite Rmult_1_l, powerRZ_neg'. rewrite <- pow_powerRZ.
    assert (P : (0 < 10 ^ List.length y)%R) by (apply pow_lt; lra). assert (Q : (IZR (value y) <= 10 ^ List.length y)%R).
    { rewrite pow_IZR. apply IZR_le. lia. }
    split; [apply Rmult_le_pos; [apply IZR_le; lia|left; now apply Rinv_0_lt_compat]|].
    apply Rmult_le_reg_r with (10 ^ List.length y)%R; [exact P|]. rewrite Rmult_assoc, Rinv_l by lra. lra. }
  assert (One : (1 <= bpow radix2 1023)%R). { change 1%R with (bpow radix2 0). apply bpow_le. lia. }
  destruct (num_nearest lm d) as [Fe Ve]. { split; [unfold d; cbn; lia|]. rewrite Rabs_right; lra. }
  set (e := num (FO := B64Ops lm) d) in *. clearbody e.
  assert (Be : (0 <= B2R e <= 1)%R). { rewrite Ve. split; [apply rnd_ge_fmt; [apply (fmt_int 0); lia|lra]|apply rnd_le_fmt; [apply (fmt_int 1); lia|lra]]. }
  assert (Bs : (0 <= B2R e * B2R e <= 1)%R) by nra.
  destruct (mul_fin lm e e Fe Fe) as [Vm Fm]. { rewrite Rabs_right; lra. }
  assert (Bm : (0 <= B2R (@fmul _ (B64Ops lm) e e) <= 1)%R). { rewrite Vm. split; [apply rnd_ge_fmt; [apply (fmt_int 0); lia|lra]|apply rnd_le_fmt; [apply (fmt_int 1); lia|lra]]. }
  destruct (lit_int_fin lm 1) as [V1 F1]; [lia|]. destruct (lit_int_fin lm 0) as [V0 F0]; [lia|].
  destruct (sub_fin lm _ _ F1 Fm) as [Vs Fs]. { rewrite V1. rewrite Rabs_right; lra. }
  rewrite le_fin by assumption. rewrite V0, Vs, V1. apply Rle_bool_true. apply rnd_ge_fmt; [apply (fmt_int 0); lia|lra].
Qed.

(** A NaN mean motion or inclination: the set is accepted, and every propagation of it succeeds, with
    six NaNs. *)
Theorem C38_nan_accepted_and_propagated :
  forall (lm : libm), keeps_nan lm ->
  forall (fuel : nat) (l1 l2 : str) (d : decimal),
    Forall (readable l1) fields1 -> Forall (readable l2) fields2 -> reads_fraction l2 26 33 d ->
    spells_nan l2 52 63 \/ spells_nan l2 8 16 ->
    exists s, @twoline2satrec _ (B64Ops lm) fuel l1 l2 = Done (Ok s) /\
      forall (fuel' : nat) (t : b64), exists s' r, @sgp4 _ (B64Ops lm) fuel' s t = Done (s', Ok r) /\ all_nan r.
Proof.
  intros lm K fuel l1 l2 d R1 R2 Rd Sp.
  destruct (proj2 (proj2 (C31_first_faulty_field_is_reported _ (B64Ops lm) l1 l2)) (conj R1 R2)) as [p P].
  pose proof P as P'. apply parse_satrec_inv in P'. destruct P' as (a & b & _ & Pb & Ep). apply line2_inv in Pb.
  destruct Pb as (i & n & ag & m & o & F1 & _ & F3 & _ & _ & F6 & E1 & _ & _ & _ & E6).
  destruct (init_poisoned_ok lm K fuel (@tle_options _ (B64Ops lm) p) p) as (s & r & H & Q).
  { subst p. destruct Sp as [Sp|Sp]; [left|right].
    - change (isnan (l2_no b)). rewrite E6. apply n_div_l. exact (nan_float lm _ _ _ _ _ Sp F6).
    - change (isnan (l2_inclo b)). rewrite E1. apply n_mul_l. exact (nan_float lm _ _ _ _ _ Sp F1). }
  { subst p. exact (ecc_guard lm l2 d (l2_ecco b) Rd F3). }
  exists s. split.
  - unfold twoline2satrec. rewrite P. cbn [bindR]. rewrite H. reflexivity.
  - intros fuel' t. destruct (poisoned_ok lm K fuel' s t Q) as [r' E]. eexists. exists r'. split; [exact E|]. apply all_nan_intro.
    refine (sgp4_nan lm K fuel' s t _ r' _ E). right; left. apply Q.
Qed.
Print Assumptions C38_nan_accepted_and_propagated.

(** Non-vacuity: a libm that keeps NaN, and the sample set with its mean motion replaced. *)
Definition nan_lm : libm := MkLibm (fun x => x) (fun x => x) (fun x => x) (fun x y => match x with B754_nan => x | _ => y end) (fun x _ => x) (fun x _ => x).
Example C38_example_libm : keeps_nan nan_lm.
Proof. constructor; unfold isnan; cbn; intros; subst; try reflexivity. now destruct x. Qed.
Definition nan2 := of_string "2 25544  51.6416 299.2512 0003381 269.5310 185.0126  NaN       118811".
Definition is_nan_b (x : b64) : bool := match x with B754_nan => true | _ => false end.
Example C38_example :
  match @twoline2satrec _ (B64Ops nan_lm) 0 iss1 nan2 with
  | Done (Ok s) => match @sgp4 _ (B64Ops nan_lm) 0 s (@L _ (B64Ops nan_lm) 10 0) with
                   | Done (_, Ok r) => is_nan_b (v_x (g4_position r)) && is_nan_b (v_z (g4_velocity r)) | _ => false end
  | _ => false end = true.
Proof. vm_compute. reflexivity. Qed.
Example C38_example_hypotheses : spells_nan nan2 52 63 /\ Forall (readable iss1) fields1 /\ Forall (readable nan2) fields2.
Proof.
  split.
  - exists (of_string " NaN       "), [], false, (of_string "NaN"). split; [apply slice_columns; reflexivity|].
    split; [exists (of_string " "), (of_string "       "); repeat split; reflexivity|]. split; [constructor|].
    unfold word_nan, same_letters. cbn. repeat (constructor; [lia|]). constructor.
  - apply (C31_first_faulty_field_is_reported _ (B64Ops nan_lm)).
    destruct (@parse_satrec _ (B64Ops nan_lm) iss1 nan2) as [[s|]| |] eqn:E; [now exists s|exfalso..];
      assert (X : match @parse_satrec _ (B64Ops nan_lm) iss1 nan2 with Done (Ok _) => true | _ => false end = true) by (vm_compute; reflexivity);
      rewrite E in X; discriminate X.
Qed.
