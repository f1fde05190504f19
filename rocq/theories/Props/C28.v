(** * C28: a well-formed element set decodes to the values written in it *)
From Coq Require Import ZArith Reals List Bool String Lia Lra.
From Flocq Require Import Core IEEE754.BinarySingleNaN.
From Verif.Model Require Import Float Str Satrec Constants Sgp4 Sgp4init Io.
From Verif.Inst Require Import RInst RTac B64 B64Facts.
From Verif.Spec Require Import TextSpec NumText TleSpec.
From Verif.Proofs Require Import StrFacts TextFacts IoFacts NumFacts DecodeFacts.
From Verif.Props Require Import C25.
Import ListNotations.
Local Open Scope R_scope.

(** The real number a decimal denotes. *)
Definition dec_value (d : decimal) : R := (if d_neg d then -1 else 1) * (IZR (d_man d) * powerRZ 10 (d_exp d)).

Lemma Rlit_value m k : Rlit m k = IZR m * powerRZ 10 k.
Proof.
  unfold Rlit, powerRZ. destruct k as [|p|p].
  - ring.
  - rewrite mult_IZR. f_equal. rewrite Z.pow_pos_fold, <- (positive_nat_Z p), <- pow_IZR. f_equal.
  - unfold Rdiv. f_equal. f_equal. rewrite Z.pow_pos_fold, <- (positive_nat_Z p), <- pow_IZR. f_equal.
Qed.
Lemma num_R d : num (FO := ROps) d = dec_value d.
Proof. unfold num, dec_value, fsigned. rops. rewrite Rlit_value. destruct (d_neg d); ring. Qed.
(** a power field with a normal mantissa *)
Lemma normal_pw mant d k : all_digits mant -> mant <> [] -> normal mant -> d_man d = value mant ->
  k = (d_exp d + Z.of_nat (List.length mant) - Z.of_nat (List.length (nat_digits (value mant))))%Z ->
  IZR (value mant) * powerRZ 10 k = IZR (d_man d) * powerRZ 10 (d_exp d).
Proof.
  intros D N [Z|Z] E ->; rewrite E.
  - rewrite Z. ring.
  - rewrite (normal_printed mant D N Z). do 2 f_equal. lia.
Qed.
Lemma power_parts l s m e hi mant d : reads_power l s m e hi mant d -> all_digits mant /\ mant <> [] /\ d_man d = value mant.
Proof. intros (sg & neg & ex & x & _ & _ & _ & _ & N & D & _ & ->). exact (conj D (conj N eq_refl)). Qed.

(** In exact arithmetic: every field of the record is the value in its columns in the documented
    unit (radians, radians per minute and its derivatives; the drag term as it stands). *)
Theorem C28_exact_values :
  forall (l1 l2 m1 m2 : str) (t : tle),
    carries l1 l2 t m1 m2 -> normal m1 -> normal m2 -> (d_neg (t_nddot t) = false \/ value m1 = 0%Z) ->
    exists s : Satrec R, @parse_satrec _ ROps l1 l2 = Done (Ok s) /\
      sr_satnum s = t_satnum t /\ sr_epochyr s = t_year t /\ sr_epochdays s = dec_value (t_day t) /\
      sr_ndot s = dec_value (t_ndot t) * (2 * PI) / 1440 ^ 2 /\
      sr_nddot s = dec_value (t_nddot t) * (2 * PI) / 1440 ^ 3 /\
      sr_bstar s = dec_value (t_bstar t) /\
      sr_inclo s = dec_value (t_incl t) * PI / 180 /\ sr_nodeo s = dec_value (t_node t) * PI / 180 /\
      sr_ecco s = dec_value (t_ecc t) /\ sr_argpo s = dec_value (t_argp t) * PI / 180 /\
      sr_mo s = dec_value (t_anomaly t) * PI / 180 /\ sr_no s = dec_value (t_motion t) * (2 * PI) / 1440.
Proof.
  intros l1 l2 m1 m2 t C N1 N2 G. assert (P1 : reads_power l1 44 45 50 52 m1 (t_nddot t)) by apply C. assert (P2 : reads_power l1 53 54 59 61 m2 (t_bstar t)) by apply C.
  apply power_parts in P1. apply power_parts in P2. destruct P1 as (D1 & E1 & M1), P2 as (D2 & E2 & M2).
  pose proof (carries_decodes (FO := ROps) l1 l2 t m1 m2 C G) as H. eexists. split; [exact H|]. clear H.
  pose proof PI_RGT_0.
  assert (B1 : pw_pos (FO := ROps) m1 (t_nddot t) = dec_value (t_nddot t)).
  { unfold pw_pos, dec_value. rops. rewrite Rlit_value, (normal_pw m1 (t_nddot t) _ D1 E1 N1 M1 eq_refl). destruct G as [-> |G]; [ring|]. rewrite M1, G. destruct (d_neg _); ring. }
  assert (B2 : pw (FO := ROps) m2 (t_bstar t) = dec_value (t_bstar t)).
  { unfold pw, dec_value, fsigned. rops. rewrite Rlit_value, (normal_pw m2 (t_bstar t) _ D2 E2 N2 M2 eq_refl). destruct (d_neg (t_bstar t)); ring. }
  cbv [make_satrec l1_satnum l1_epochyr l1_epochdays l1_ndot l1_nddot l1_bstar l2_inclo l2_nodeo l2_ecco l2_argpo l2_mo l2_no
       sr_satnum sr_epochyr sr_epochdays sr_ndot sr_nddot sr_bstar sr_inclo sr_nodeo sr_ecco sr_argpo sr_mo sr_no
       set_jdsatepoch set_altp set_alta set_a set_no set_mo set_argpo set_ecco set_nodeo set_inclo set_bstar set_nddot set_ndot set_epochdays set_epochyr set_satnum set_operationmode].
  rewrite B1, B2, !num_R. unfold kXPDOTP, kDEG_2_RAD, kPI. rops.
  repeat split; field; lra.
Qed.
Print Assumptions C28_exact_values.

(** In f64: every number is read as the double nearest to the value in its columns, and the record
    holds it in the documented unit (one rounded multiplication or division). *)
Definition nearest (x : b64) (d : decimal) : Prop := is_finite x = true /\ B2R x = rnd (dec_value d).
Definition in_range (d : decimal) : Prop := (0 <= d_man d)%Z /\ Rabs (dec_value d) <= bpow radix2 1023.

Lemma lit_round (lm : libm) m k : (0 <= m)%Z -> IZR m * powerRZ 10 k <= bpow radix2 1023 ->
  is_finite (@flit _ (B64Ops lm) m k) = true /\ B2R (@flit _ (B64Ops lm) m k) = rnd (IZR m * powerRZ 10 k).
Proof.
  intros Hm H. change (@flit _ (B64Ops lm) m k) with (b64_lit m k). rewrite <- Rlit_value in *.
  assert (NI : forall z, (0 <= z)%Z -> IZR z <= bpow radix2 1023 -> is_finite (b64_norm z 0) = true /\ B2R (b64_norm z 0) = rnd (IZR z)).
  { intros z Hz Hb. pose proof (binary_normalize_correct prec emax Hprec Hemax mode_NE z 0 false) as C. cbv zeta in C.
    assert (E : F2R (Float radix2 z 0) = IZR z) by (unfold F2R; cbn; ring). rewrite E in C. cbv [round_mode] in C.
    rewrite no_ovf in C by (rewrite Rabs_right; [exact Hb|apply Rle_ge, IZR_le, Hz]). destruct C as (C1 & C2 & _). split; [exact C2|exact C1]. }
  destruct k as [|p|p]; cbn [b64_lit Rlit] in *.
  - now apply NI.
  - apply NI; [|exact H]. apply Z.mul_nonneg_nonneg; [exact Hm|]. rewrite Z.pow_pos_fold. apply Z.pow_nonneg. lia.
  - destruct m as [|q|q]; [|..|lia].
    + split; [reflexivity|]. cbn [B2R]. unfold Rdiv. rewrite Rmult_0_l, round_0 by typeclasses eauto. reflexivity.
    + rewrite <- Pos2Z.inj_pow_pos in *. destruct (quot_fin q (Pos.pow 10 p)) as [A D]; [exact H|]. split; [exact D|exact A].
Qed.
Lemma num_nearest (lm : libm) d : in_range d -> nearest (num (FO := B64Ops lm) d) d.
Proof.
  intros [M H]. unfold nearest, num, fsigned, dec_value in *.
  assert (P : 0 <= IZR (d_man d) * powerRZ 10 (d_exp d)) by (apply Rmult_le_pos; [now apply IZR_le|apply powerRZ_le; lra]).
  destruct (lit_round lm (d_man d) (d_exp d) M) as [A D].
  { rewrite Rabs_mult, (Rabs_right (IZR _ * _)) in H by lra. destruct (d_neg d); [rewrite Rabs_left in H by lra|rewrite Rabs_right in H by lra]; lra. }
  destruct (d_neg d).
  - change (@fneg _ (B64Ops lm)) with (@Bopp prec emax). rewrite is_finite_Bopp, B2R_Bopp, D. split; [exact A|].
    replace (-1 * (IZR (d_man d) * powerRZ 10 (d_exp d))) with (- (IZR (d_man d) * powerRZ 10 (d_exp d))) by ring. now rewrite round_NE_opp.
  - rewrite Rmult_1_l. now split.
Qed.
Lemma nearest_ext x d d' : dec_value d = dec_value d' -> nearest x d -> nearest x d'.
Proof. unfold nearest. now intros ->. Qed.

Theorem C28_nearest_doubles :
  forall (lm : libm) (l1 l2 m1 m2 : str) (t : tle),
    carries l1 l2 t m1 m2 -> normal m1 -> normal m2 -> (d_neg (t_nddot t) = false \/ value m1 = 0%Z) ->
    Forall in_range [t_day t; t_ndot t; t_nddot t; t_bstar t; t_incl t; t_node t; t_ecc t; t_argp t; t_anomaly t; t_motion t] ->
    let FO := B64Ops lm in
    exists (s : Satrec b64) (ndot nddot incl node argp anomaly motion : b64),
      @parse_satrec _ FO l1 l2 = Done (Ok s) /\
      nearest ndot (t_ndot t) /\ nearest nddot (t_nddot t) /\ nearest incl (t_incl t) /\ nearest node (t_node t) /\
      nearest argp (t_argp t) /\ nearest anomaly (t_anomaly t) /\ nearest motion (t_motion t) /\
      sr_satnum s = t_satnum t /\ sr_epochyr s = t_year t /\ nearest (sr_epochdays s) (t_day t) /\
      nearest (sr_bstar s) (t_bstar t) /\ nearest (sr_ecco s) (t_ecc t) /\
      sr_ndot s = fdiv ndot (fmul kXPDOTP (L 1440 0)) /\ sr_nddot s = fdiv nddot (fmul (fmul kXPDOTP (L 1440 0)) (L 1440 0)) /\
      sr_inclo s = fmul incl kDEG_2_RAD /\ sr_nodeo s = fmul node kDEG_2_RAD /\ sr_argpo s = fmul argp kDEG_2_RAD /\
      sr_mo s = fmul anomaly kDEG_2_RAD /\ sr_no s = fdiv motion kXPDOTP.
Proof.
  intros lm l1 l2 m1 m2 t C N1 N2 G R FO. assert (P1 : reads_power l1 44 45 50 52 m1 (t_nddot t)) by apply C. assert (P2 : reads_power l1 53 54 59 61 m2 (t_bstar t)) by apply C.
  apply power_parts in P1. apply power_parts in P2. destruct P1 as (D1 & E1 & M1), P2 as (D2 & E2 & M2).
  pose proof (carries_decodes (FO := FO) l1 l2 t m1 m2 C G) as H.
  repeat (apply Forall_cons_iff in R; destruct R as [? R]).
  assert (Pw : forall mant d, all_digits mant -> mant <> [] -> normal mant -> d_man d = value mant -> in_range d ->
    nearest (pw (FO := FO) mant d) d).
  { intros mant d D N Nm M [_ Hr]. pose proof (value_bounds mant D) as Vb.
    set (k := (d_exp d + Z.of_nat (List.length mant) - Z.of_nat (List.length (nat_digits (value mant))))%Z).
    assert (Ev : dec_value (Dec (d_neg d) (value mant) k) = dec_value d).
    { unfold dec_value. cbn [d_neg d_man d_exp]. f_equal. now apply normal_pw. }
    apply (nearest_ext _ (Dec (d_neg d) (value mant) k)); [exact Ev|]. apply (num_nearest lm (Dec (d_neg d) (value mant) k)). split; [cbn; lia|]. now rewrite Ev. }
  assert (Q1 : nearest (pw_pos (FO := FO) m1 (t_nddot t)) (t_nddot t)).
  { pose proof (Pw m1 (t_nddot t) D1 E1 N1 M1 ltac:(assumption)) as Q. destruct (d_neg (t_nddot t)) eqn:Sg; [|unfold pw, fsigned in Q; rewrite Sg in Q; exact Q].
    destruct G as [G|G]; [discriminate G|]. unfold nearest, dec_value. rewrite M1, G. unfold pw_pos. rewrite G.
    destruct (lit_round lm 0 (d_exp (t_nddot t) + Z.of_nat (List.length m1) - Z.of_nat (List.length (nat_digits 0)))) as [A B]; [lia|rewrite Rmult_0_l; apply bpow_ge_0|].
    split; [exact A|]. etransitivity; [exact B|]. f_equal. ring. }
  pose proof (Pw m2 (t_bstar t) D2 E2 N2 M2 ltac:(assumption)) as Q2.
  eexists. exists (num (t_ndot t)), (pw_pos m1 (t_nddot t)), (num (t_incl t)), (num (t_node t)), (num (t_argp t)), (num (t_anomaly t)), (num (t_motion t)).
  split; [exact H|]. do 7 (split; [first [exact Q1|now apply num_nearest]|]).
  split; [reflexivity|]. split; [reflexivity|]. split; [now apply num_nearest|]. split; [exact Q2|]. split; [now apply num_nearest|].
  do 6 (split; [reflexivity|]). reflexivity.
Qed.
Print Assumptions C28_nearest_doubles.

(** Non-vacuity: a real element set is of this kind (its nddot mantissa is 00000, its bstar mantissa 10270). *)
Lemma columns_of line lo hi x : slice line lo hi = Done x -> columns line lo hi x.
Proof. apply slice_columns. Qed.
Lemma reads_of line lo hi x y m k : slice line lo hi = Done x -> y = trim x -> parse_decimal y = Some (m, k) -> reads line lo hi (Dec false m k).
Proof.
  intros S -> D. apply parse_decimal_spec in D. destruct D as (p & e & k0 & x0 & E & P & X & ->).
  exists x, (trim x). split; [now apply slice_columns|]. split; [apply padded_of_trim|]. rewrite E. exact (number [] false _ _ _ _ _ no_sign P X).
Qed.
Definition iss : tle :=
  Tle (of_string "25544") 18 (Dec false 17035562296 (-8)) (Dec false 16717 (-8)) (Dec false 0 (-5)) (Dec false 10270 (-8))
      (Dec false 516416 (-4)) (Dec false 2992512 (-4)) (Dec false 3381 (-7)) (Dec false 2695310 (-4)) (Dec false 1850126 (-4)) (Dec false 1554171530 (-8)).
Lemma C28_example :
  carries iss1 iss2 iss (of_string "00000") (of_string "10270") /\ normal (of_string "00000") /\ normal (of_string "10270") /\
  d_neg (t_nddot iss) = false.
Proof.
  assert (DG : forall s, forallb is_digit (of_string s) = true -> all_digits (of_string s)) by (intros; now apply all_digits_iff).
  split; [|split; [left; reflexivity|split; [right; now intros c r [= <- _]|reflexivity]]].
  split. { eexists. split; [apply columns_of; reflexivity|]. split; [exists [], []; repeat split|]. cbn. intros c H. repeat destruct H as [<-|H]; (reflexivity || contradiction). }
  split. { eexists. split; [apply columns_of; reflexivity|]. apply parse_i64_spec. reflexivity. }
  split; [eapply reads_of; reflexivity|]. split; [eapply reads_of; reflexivity|].
  split. { exists [32%Z], false, (of_string "-0"), 0%Z. do 3 (split; [apply columns_of; reflexivity|]). split; [constructor|]. split; [discriminate|]. split; [now apply DG|].
    split; [|reflexivity]. exists [45%Z], true, [48%Z]. split; [reflexivity|]. split; [constructor|]. split; [discriminate|]. split; [now apply all_digits_iff|reflexivity]. }
  split. { exists [32%Z], false, (of_string "-3"), (-3)%Z. do 3 (split; [apply columns_of; reflexivity|]). split; [constructor|]. split; [discriminate|]. split; [now apply DG|].
    split; [|reflexivity]. exists [45%Z], true, [51%Z]. split; [reflexivity|]. split; [constructor|]. split; [discriminate|]. split; [now apply all_digits_iff|reflexivity]. }
  split; [eapply reads_of; reflexivity|]. split; [eapply reads_of; reflexivity|].
  split. { exists (of_string "0003381"), (of_string "0003381"). split; [apply columns_of; reflexivity|]. split; [exists [], []; repeat split|].
    split; [discriminate|]. split; [now apply DG|reflexivity]. }
  split; [eapply reads_of; reflexivity|]. split; [eapply reads_of; reflexivity|]. eapply reads_of; reflexivity.
Qed.
