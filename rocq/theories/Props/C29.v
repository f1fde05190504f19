(** * C29: mantissas with leading zeros are misread *)
From Coq Require Import ZArith Reals List Bool String Lia Lra.
From Flocq Require Import Core IEEE754.BinarySingleNaN.
From Verif.Model Require Import Float Str Satrec Constants Sgp4 Sgp4init Io.
From Verif.Inst Require Import RInst RTac B64 B64Facts.
From Verif.Spec Require Import TextSpec NumText TleSpec.
From Verif.Proofs Require Import StrFacts TextFacts IoFacts NumFacts DecodeFacts.
From Verif.Props Require Import C25 C28.
Import ListNotations.
Local Open Scope R_scope.

Lemma power_scaled mant d z c r : all_digits mant -> mant = repeat 48%Z z ++ c :: r -> c <> 48%Z -> d_man d = value mant ->
  (d_exp d + Z.of_nat (List.length mant) - Z.of_nat (List.length (nat_digits (value mant))) = d_exp d + Z.of_nat z)%Z.
Proof.
  intros D E C M. assert (D' : all_digits (c :: r)) by (rewrite E in D; now apply all_digits_app in D).
  assert (V : value mant = value (c :: r)) by (rewrite E; apply value_zeros).
  rewrite (printed_value mant c r D' C V), E, app_length, repeat_length. lia.
Qed.
Lemma record_bstar (F : Type) (FO : FloatOps F) l1 l2 s mant d : parse_satrec l1 l2 = Done (Ok s) -> reads_power l1 53 54 59 61 mant d -> sr_bstar s = pw mant d.
Proof.
  intros H P. apply parse_satrec_inv in H. destruct H as (a & b & H1 & _ & ->). apply parse_line1_inv in H1.
  destruct H1 as (x1 & x2 & x3 & x4 & yr & nd & _ & _ & _ & _ & _ & _ & _ & _ & _ & _ & E & _).
  rewrite (bstar_ok _ _ _ P) in E by (apply power_length in P; lia). change (sr_bstar (make_satrec a b)) with (l1_bstar a). unfold pw. congruence.
Qed.
Lemma record_nddot (F : Type) (FO : FloatOps F) l1 l2 s mant d : parse_satrec l1 l2 = Done (Ok s) -> reads_power l1 44 45 50 52 mant d -> d_neg d = false \/ value mant = 0%Z ->
  sr_nddot s = fdiv (pw_pos mant d) (fmul (fmul kXPDOTP (L 1440 0)) (L 1440 0)).
Proof.
  intros H P G. apply parse_satrec_inv in H. destruct H as (a & b & H1 & _ & ->). apply parse_line1_inv in H1.
  destruct H1 as (x1 & x2 & x3 & x4 & yr & nd & _ & _ & _ & _ & _ & _ & _ & _ & _ & E & _ & _).
  destruct (nddot_ok _ _ _ P G) as (k & -> & E'); [apply power_length in P; lia|]. change (sr_nddot (make_satrec a b)) with (l1_nddot a). unfold pw_pos. congruence.
Qed.
Lemma dec_scaled d z : dec_value (Dec (d_neg d) (d_man d) (d_exp d + Z.of_nat z)) = 10 ^ z * dec_value d.
Proof. unfold dec_value. cbn [d_neg d_man d_exp]. rewrite powerRZ_add by lra. rewrite <- pow_powerRZ. ring. Qed.

(** The drag term: z leading zeros make the decoded value 10^z times the one written. *)
Theorem C29_bstar :
  forall (l1 l2 : str) (s : Satrec R) (mant : str) (d : decimal) (z : nat) (c : Z) (r : str),
    @parse_satrec _ ROps l1 l2 = Done (Ok s) -> reads_power l1 53 54 59 61 mant d ->
    mant = repeat 48%Z z ++ c :: r -> c <> 48%Z ->
    sr_bstar s = 10 ^ z * dec_value d /\ ((0 < z)%nat -> sr_bstar s <> dec_value d).
Proof.
  intros l1 l2 s mant d z c r H P E C. destruct (power_parts _ _ _ _ _ _ _ P) as (D & N & M).
  assert (B : sr_bstar s = 10 ^ z * dec_value d).
  { rewrite (record_bstar _ _ _ _ _ _ _ H P). unfold pw. rewrite (power_scaled mant d z c r D E C M), <- M, <- dec_scaled.
    apply (num_R (Dec (d_neg d) (d_man d) (d_exp d + Z.of_nat z))). }
  split; [exact B|]. intros Z. rewrite B.
  assert (Nz : dec_value d <> 0).
  { unfold dec_value. assert (D' : all_digits (c :: r)) by (rewrite E in D; now apply all_digits_app in D).
    assert (0 < d_man d)%Z. { rewrite M, E, value_zeros. pose proof (value_lower c r D' C). assert (0 < 10 ^ Z.of_nat (List.length r))%Z by (apply Z.pow_pos_nonneg; lia). lia. }
    apply IZR_lt in H0. assert (0 < powerRZ 10 (d_exp d)) by (apply powerRZ_lt; lra). destruct (d_neg d); nra. }
  assert (1 < 10 ^ z) by (apply Rlt_pow_R1; [lra|exact Z]). intros K. nra.
Qed.
Print Assumptions C29_bstar.

(** The second derivative of the mean motion: the same. *)
Theorem C29_nddot :
  forall (l1 l2 : str) (s : Satrec R) (mant : str) (d : decimal) (z : nat) (c : Z) (r : str),
    @parse_satrec _ ROps l1 l2 = Done (Ok s) -> reads_power l1 44 45 50 52 mant d -> d_neg d = false ->
    mant = repeat 48%Z z ++ c :: r -> c <> 48%Z ->
    sr_nddot s = 10 ^ z * (dec_value d * (2 * PI) / 1440 ^ 3).
Proof.
  intros l1 l2 s mant d z c r H P Sg E C. destruct (power_parts _ _ _ _ _ _ _ P) as (D & N & M).
  rewrite (record_nddot _ _ _ _ _ _ _ H P (or_introl Sg)). pose proof PI_RGT_0.
  assert (B : pw_pos (FO := ROps) mant d = 10 ^ z * dec_value d).
  { unfold pw_pos. rewrite (power_scaled mant d z c r D E C M), <- M, <- dec_scaled.
    rewrite <- (num_R (Dec (d_neg d) (d_man d) (d_exp d + Z.of_nat z))). unfold num. cbn [d_neg]. now rewrite Sg. }
  rewrite B. unfold kXPDOTP, kPI. rops. field. lra.
Qed.
Print Assumptions C29_nddot.

(** In f64 the drag term is the double nearest to 10^z times the value written. *)
Theorem C29_bstar_f64 :
  forall (lm : libm) (l1 l2 : str) (s : Satrec b64) (mant : str) (d : decimal) (z : nat) (c : Z) (r : str),
    @parse_satrec _ (B64Ops lm) l1 l2 = Done (Ok s) -> reads_power l1 53 54 59 61 mant d ->
    mant = repeat 48%Z z ++ c :: r -> c <> 48%Z -> Rabs (10 ^ z * dec_value d) <= bpow radix2 1023 ->
    is_finite (sr_bstar s) = true /\ B2R (sr_bstar s) = rnd (10 ^ z * dec_value d).
Proof.
  intros lm l1 l2 s mant d z c r H P E C Rg. destruct (power_parts _ _ _ _ _ _ _ P) as (D & N & M). pose proof (value_bounds mant D) as Vb.
  rewrite (record_bstar _ _ _ _ _ _ _ H P). unfold pw. rewrite (power_scaled mant d z c r D E C M), <- M, <- dec_scaled.
  apply (num_nearest lm (Dec (d_neg d) (d_man d) (d_exp d + Z.of_nat z))). split; [cbn; lia|]. now rewrite dec_scaled.
Qed.
Print Assumptions C29_bstar_f64.

(** Non-vacuity: with the mantissa 01027 and exponent -3 the decoder returns what it returns for
    10270 and exponent -3, ten times too much. *)
Definition zeroed := of_string "1 25544U 98067A   18170.35562296  .00016717  00000-0  01027-3 0  9003".
Example C29_example_reads : reads_power zeroed 53 54 59 61 (of_string "01027") (Dec false 1027 (-8)).
Proof.
  exists [32%Z], false, (of_string "-3"), (-3)%Z. do 3 (split; [apply columns_of; reflexivity|]). split; [constructor|]. split; [discriminate|].
  split; [now apply all_digits_iff|]. split; [|reflexivity]. exists [45%Z], true, [51%Z]. split; [reflexivity|]. split; [constructor|]. split; [discriminate|].
  split; [now apply all_digits_iff|reflexivity].
Qed.
Definition any_lm := MkLibm (fun x => x) (fun x => x) (fun x => x) (fun x _ => x) (fun x _ => x) (fun x _ => x).
Example C29_example :
  match @parse_satrec _ (B64Ops any_lm) iss1 iss2, @parse_satrec _ (B64Ops any_lm) zeroed iss2 with
  | Done (Ok a), Done (Ok b) => Beqb (sr_bstar a) (sr_bstar b) | _, _ => false end = true.
Proof. vm_compute. reflexivity. Qed.
