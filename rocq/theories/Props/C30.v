(** * C30: a negative second derivative of the mean motion is rejected *)
From Coq Require Import ZArith List Bool String Lia.
From Verif.Model Require Import Float Str Satrec Constants Sgp4 Sgp4init Io.
From Verif.Inst Require Import B64.
From Verif.Spec Require Import TextSpec NumText TleSpec.
From Verif.Proofs Require Import StrFacts TextFacts IoFacts NumFacts DecodeFacts.
From Verif.Props Require Import C25 C28 C29.
Import ListNotations.
Local Open Scope Z_scope.

Lemma dot_minus (F : Type) (FO : FloatOps F) r : parse_f64 (FO := FO) (46 :: 45 :: r) = None.
Proof. reflexivity. Qed.
Lemma nddot_negative (F : Type) (FO : FloatOps F) l v ex : reads_int l 44 50 v -> v < 0 -> columns l 50 52 ex ->
  parse_nddot (FO := FO) l = Done (Err (CompoundError "nndot" (46 :: 45 :: nat_digits (- v) ++ 69 :: ex))).
Proof.
  intros R V C. unfold parse_nddot. rewrite (reads_int_ok _ _ _ _ _ R). cbn [bindR]. rewrite (columns_sliceR _ _ _ _ C). cbn [bindR]. cbv zeta.
  unfold show_i64. destruct (Z.ltb_spec v 0); [|lia]. cbn [app]. now rewrite dot_minus.
Qed.

(** However well formed the rest of the set, a negative non-zero second derivative makes decoding
    fail, with an error quoting the reassembled text ".-<digits>E<exponent>". *)
Theorem C30_negative_second_derivative_is_rejected :
  forall (F : Type) (FO : FloatOps F) (l1 l2 m1 m2 : str) (t : tle),
    carries l1 l2 t m1 m2 -> d_neg (t_nddot t) = true -> value m1 <> 0 ->
    exists digits ex, all_digits digits /\ value digits = value m1 /\ columns l1 50 52 ex /\
      let e := CompoundError "nndot" (of_string ".-" ++ digits ++ of_string "E" ++ ex) in
      parse_satrec (FO := FO) l1 l2 = Done (Err e) /\ forall fuel, twoline2satrec (FO := FO) fuel l1 l2 = Done (Err e).
Proof.
  intros F FO l1 l2 m1 m2 t ((x & C & P & V) & Y & Dy & Nd & Ndd & _) Sg Nz.
  pose proof (power_length _ _ _ _ _ _ _ Ndd) as Ln. destruct Ndd as (sg & neg & ex & e & C1 & C2 & C3 & S & N & D & X & E). rewrite E in Sg. cbn [d_neg] in Sg. subst neg.
  pose proof (value_bounds m1 D) as Vb. destruct (nat_digits_spec (value m1)) as (Dn & Vn & _); [lia|].
  exists (nat_digits (value m1)), ex. split; [exact Dn|]. split; [exact Vn|]. split; [exact C3|]. cbv zeta.
  assert (RI : reads_int l1 44 50 (- value m1)).
  { destruct (padded_sign sg true m1 S (visible_digits _ D)) as (sg' & S' & Pd). exists (sg ++ m1). split; [now apply (columns_join _ _ 45)|].
    exists sg', true, m1. split; [now apply Pd, visible_digits|]. split; [exact S'|]. split; [exact N|]. split; [exact D|]. split; [reflexivity|].
    assert (10 ^ Z.of_nat (List.length m1) <= 10 ^ 5) by (apply Z.pow_le_mono_r; lia). lia. }
  assert (H : parse_satrec (FO := FO) l1 l2 = Done (Err (CompoundError "nndot" (of_string ".-" ++ nat_digits (value m1) ++ of_string "E" ++ ex)))).
  { unfold parse_satrec, parse_line1. rewrite (columns_sliceR _ _ _ _ C). cbn [bindR]. rewrite (reads_int_ok _ _ _ _ _ Y). cbn [bindR].
    rewrite (reads_float _ _ _ _ _ Dy). cbn [bindR]. rewrite (reads_float _ _ _ _ _ Nd). cbn [bindR].
    rewrite (nddot_negative F FO l1 _ ex RI ltac:(lia) C3). rewrite Z.opp_involutive. reflexivity. }
  split; [exact H|]. intros fuel. unfold twoline2satrec. now rewrite H.
Qed.
Print Assumptions C30_negative_second_derivative_is_rejected.

(** No text whose second-derivative mantissa reads as a negative number is ever accepted. *)
Theorem C30_never_accepted :
  forall (F : Type) (FO : FloatOps F) (l1 l2 : str) (v : Z) (fuel : nat) (s : Satrec F),
    reads_int l1 44 50 v -> v < 0 ->
    parse_satrec l1 l2 <> Done (Ok s) /\ twoline2satrec fuel l1 l2 <> Done (Ok s).
Proof.
  intros F FO l1 l2 v fuel s R V. assert (H : forall s, parse_satrec (FO := FO) l1 l2 <> Done (Ok s)).
  { intros s0 H. apply parse_satrec_inv in H. destruct H as (a & b & H1 & _ & _). apply parse_line1_inv in H1.
    destruct H1 as (x1 & x2 & x3 & x4 & yr & nd & _ & _ & _ & _ & _ & _ & _ & _ & _ & E & _ & _).
    assert (E' := E). unfold parse_nddot in E'. apply bindR_ok in E'. destruct E' as (i & _ & E'). apply bindR_ok in E'. destruct E' as (ex & Ex & _).
    apply sliceR_ok, slice_columns in Ex. rewrite (nddot_negative F FO l1 v ex R V Ex) in E. discriminate E. }
  split; [apply H|]. intros T. unfold twoline2satrec in T. apply bindR_ok in T. destruct T as (s0 & T & _). now apply H in T.
Qed.
Print Assumptions C30_never_accepted.

(** Non-vacuity: the sample set with nddot = -0.12345e-5; and the negative zero, which is accepted. *)
Definition negative := of_string "1 25544U 98067A   18170.35562296  .00016717 -12345-5  10270-3 0  9003".
Definition negzero := of_string "1 25544U 98067A   18170.35562296  .00016717 -00000-0  10270-3 0  9003".
Definition negset : tle :=
  Tle (of_string "25544") 18 (Dec false 17035562296 (-8)) (Dec false 16717 (-8)) (Dec true 12345 (-10)) (Dec false 10270 (-8))
      (Dec false 516416 (-4)) (Dec false 2992512 (-4)) (Dec false 3381 (-7)) (Dec false 2695310 (-4)) (Dec false 1850126 (-4)) (Dec false 1554171530 (-8)).
Example C30_example : carries negative iss2 negset (of_string "12345") (of_string "10270").
Proof.
  destruct C28_example as ((_ & _ & _ & _ & _ & _ & L2) & _).
  split. { eexists. split; [apply columns_of; reflexivity|]. split; [exists [], []; repeat split|]. cbn. intros c H. repeat destruct H as [<-|H]; (reflexivity || contradiction). }
  split. { eexists. split; [apply columns_of; reflexivity|]. apply parse_i64_spec. reflexivity. }
  split; [eapply reads_of; reflexivity|]. split; [eapply reads_of; reflexivity|].
  split. { exists [45], true, (of_string "-5"), (-5). do 3 (split; [apply columns_of; reflexivity|]). split; [apply signed_column; [discriminate|constructor]|]. split; [discriminate|].
    split; [now apply all_digits_iff|]. split; [|reflexivity]. exists [45], true, [53]. split; [reflexivity|]. split; [constructor|]. split; [discriminate|]. split; [now apply all_digits_iff|reflexivity]. }
  split; [|exact L2]. exists [32], false, (of_string "-3"), (-3). do 3 (split; [apply columns_of; reflexivity|]). split; [constructor|]. split; [discriminate|]. split; [now apply all_digits_iff|].
  split; [|reflexivity]. exists [45], true, [51]. split; [reflexivity|]. split; [constructor|]. split; [discriminate|]. split; [now apply all_digits_iff|reflexivity].
Qed.
Example C30_example_outcomes :
  match @parse_satrec _ (B64Ops any_lm) negative iss2, @parse_satrec _ (B64Ops any_lm) negzero iss2 with
  | Done (Err (CompoundError _ x)), Done (Ok _) => str_eqb x (of_string ".-12345E-5") | _, _ => false end = true.
Proof. vm_compute. reflexivity. Qed.
