(** * Decoding of the element lines, column by column *)
From Coq Require Import ZArith List Bool Lia PeanoNat String.
From Verif.Model Require Import Float Str Satrec Constants Ext Sgp4 Sgp4init Io.
From Verif.Spec Require Import TextSpec NumText TleSpec.
From Verif.Proofs Require Import StrFacts IoFacts TextFacts NumFacts.
Import ListNotations.
Local Open Scope Z_scope.

Section S.
Context {F : Type} {FO : FloatOps F}.
Definition num (d : decimal) : F := fsigned (d_neg d) (flit (d_man d) (d_exp d)).

Lemma reads_float l n lo hi d : reads l lo hi d -> parse_float l n lo hi = Done (Ok (num d)).
Proof.
  intros (x & y & C & P & N). apply parse_float_ok. exists x. split; [now apply slice_columns|]. apply parse_f64_trim. exists y. split; [exact P|]. now constructor.
Qed.
Lemma reads_int_ok l n lo hi v : reads_int l lo hi v -> parse_int l n lo hi = Done (Ok v).
Proof. intros (x & C & H). apply parse_int_ok. exists x. split; [now apply slice_columns|now apply parse_i64_spec]. Qed.
Lemma columns_sliceR l lo hi x : columns l lo hi x -> sliceR l lo hi = Done (Ok x).
Proof. intros C. apply sliceR_ok. now apply slice_columns. Qed.
Lemma exponent_exp ex e : exponent ex e -> exp_text (69 :: ex) e.
Proof. intros (sg & neg & d & -> & S & N & D & ->). now constructor; [right| | |]. Qed.
(** the number read back from sign, printed mantissa and exponent *)
Lemma power_text sg neg M ex e : sign_text sg neg -> 0 <= M -> exponent ex e ->
  number_text (sg ++ (46 :: nat_digits M) ++ (69 :: ex)) neg M (- Z.of_nat (List.length (nat_digits M)) + e).
Proof.
  intros S H X. destruct (nat_digits_spec M H) as (D & V & N & _). apply number; [exact S| |now apply exponent_exp].
  rewrite <- V at 2. apply (pointed [] (nat_digits M)); assumption.
Qed.
Lemma show_nonneg M : 0 <= M -> show_i64 M = nat_digits M.
Proof. intros H. unfold show_i64. destruct (Z.ltb_spec M 0); [lia|reflexivity]. Qed.
Lemma columns_join l a b c x y : columns l a b x -> columns l b c y -> columns l a c (x ++ y).
Proof.
  intros (p & q & E & A & B) (p' & q' & E' & A' & B').
  assert (J : (p ++ x) ++ q = p' ++ y ++ q') by (rewrite <- app_assoc; congruence).
  destruct (app_split (p ++ x) q p' (y ++ q') J) as (m & Em & Eq).
  { apply (blen_len_le _ (y ++ q') _ q J). rewrite blen_app. lia. }
  assert (m = []). { apply blen_0. assert (blen (p ++ x) = blen (p' ++ m)) by now rewrite Em. rewrite !blen_app in H. lia. }
  subst m. cbn [app] in Eq. subst q. exists p, q'. rewrite E, <- !app_assoc, blen_app. repeat split; lia.
Qed.
Lemma padded_sign sg neg y : sign_column sg neg -> visible y -> exists sg', sign_text sg' neg /\ forall z, visible z -> padded (sg ++ z) (sg' ++ z).
Proof.
  intros [|sg0 neg0 N S] V.
  - exists []. split; [constructor|]. intros z Z. exists [32], []. rewrite app_nil_r. repeat split.
  - exists sg0. split; [exact S|]. intros z Z. exists [], []. rewrite app_nil_r. repeat split.
Qed.
Lemma bstar_ok l mant d : reads_power l 53 54 59 61 mant d -> (List.length mant <= 18)%nat ->
  parse_bstar l = Done (Ok (fsigned (d_neg d) (flit (value mant)
    (d_exp d + Z.of_nat (List.length mant) - Z.of_nat (List.length (nat_digits (value mant))))))).
Proof.
  intros (sg & neg & ex & x & C1 & C2 & C3 & S & N & D & X & ->) Ln. cbn [d_neg d_exp]. pose proof (value_bounds mant D) as Vb.
  unfold parse_bstar. rewrite (columns_sliceR _ _ _ _ C1). cbn [bindR].
  rewrite (reads_int_ok _ _ _ _ (value mant)).
  2:{ exists mant. split; [exact C2|]. exists [], false, mant. split; [exists [], []; rewrite app_nil_r; repeat split|]. split; [constructor|]. split; [exact N|]. split; [exact D|].
      split; [reflexivity|]. assert (10 ^ Z.of_nat (List.length mant) <= 10 ^ 18) by (apply Z.pow_le_mono_r; lia). lia. }
  cbn [bindR]. rewrite (columns_sliceR _ _ _ _ C3). cbn [bindR]. cbv zeta. rewrite show_nonneg by lia.
  destruct (nat_digits_spec (value mant)) as (Dn & _ & _ & _); [lia|].
  assert (V : visible (46 :: nat_digits (value mant) ++ 69 :: ex)).
  { apply visible_cons; [reflexivity|]. apply visible_app; [now apply visible_digits|]. apply (visible_exp _ x). now apply exponent_exp. }
  destruct (padded_sign sg neg _ S V) as (sg' & S' & P).
  match goal with |- match ?o with _ => _ end = _ => assert (E : o = Some (fsigned neg (flit (value mant) (- Z.of_nat (List.length (nat_digits (value mant))) + x)))) end.
  { apply parse_f64_trim. eexists. split; [apply P, V|]. constructor. apply (power_text sg' neg (value mant) ex x); [exact S'|lia|exact X]. }
  rewrite E. do 4 f_equal. lia.
Qed.
Lemma nddot_ok l mant d : reads_power l 44 45 50 52 mant d -> d_neg d = false \/ value mant = 0 -> (List.length mant <= 17)%nat ->
  exists k, (k = d_exp d + Z.of_nat (List.length mant) - Z.of_nat (List.length (nat_digits (value mant)))) /\
  parse_nddot l = Done (Ok (fdiv (flit (value mant) k) (fmul (fmul kXPDOTP (L 1440 0)) (L 1440 0)))).
Proof.
  intros (sg & neg & ex & x & C1 & C2 & C3 & S & N & D & X & ->) Sg Ln. cbn [d_neg d_exp] in *. pose proof (value_bounds mant D) as Vb.
  eexists. split; [reflexivity|]. unfold parse_nddot.
  destruct (padded_sign sg neg mant S (visible_digits _ D)) as (sg' & S' & P).
  rewrite (reads_int_ok _ _ _ _ (signed neg (value mant))).
  2:{ exists (sg ++ mant). split; [now apply (columns_join _ _ 45)|]. exists sg', neg, mant. split; [now apply P, visible_digits|]. split; [exact S'|]. split; [exact N|]. split; [exact D|].
      split; [reflexivity|]. assert (10 ^ Z.of_nat (List.length mant) <= 10 ^ 17) by (apply Z.pow_le_mono_r; lia). unfold signed. destruct neg; lia. }
  cbn [bindR]. rewrite (columns_sliceR _ _ _ _ C3). cbn [bindR]. cbv zeta.
  replace (signed neg (value mant)) with (value mant) by (unfold signed; destruct Sg as [-> | ->]; [reflexivity|destruct neg; reflexivity]).
  rewrite show_nonneg by lia.
  match goal with |- match ?o with _ => _ end = _ => assert (E : o = Some (flit (value mant) (- Z.of_nat (List.length (nat_digits (value mant))) + x))) end.
  { apply parse_f64_spec. apply (fv_number _ false). apply (power_text [] false (value mant) ex x); [constructor|lia|exact X]. }
  rewrite E. do 4 f_equal. lia.
Qed.
Lemma ecco_ok l d : reads_fraction l 26 33 d -> parse_ecco l = Done (Ok (num d)).
Proof.
  intros (x & y & C & P & N & D & ->). unfold parse_ecco. rewrite (columns_sliceR _ _ _ _ C). cbn [bindR]. cbv zeta.
  rewrite (padded_trim x y P (visible_digits _ D)).
  assert (V : visible (46 :: y)) by (apply visible_cons; [reflexivity|now apply visible_digits]).
  rewrite (trim_id (46 :: y)) by now apply tight_all.
  assert (E : parse_f64 (FO := FO) (46 :: y) = Some (num (Dec false (value y) (- Z.of_nat (List.length y))))).
  { apply parse_f64_spec. unfold num. cbn [d_neg d_man d_exp]. apply fv_number.
    replace (46 :: y) with ([] ++ ([] ++ 46 :: y) ++ []) by (cbn [app]; now rewrite app_nil_r).
    replace (- Z.of_nat (List.length y)) with (- Z.of_nat (List.length y) + 0) by lia.
    apply number; [constructor| |constructor]. now apply (pointed [] y). }
  now rewrite E.
Qed.
(** length of a 5-column mantissa *)
Lemma mantissa_length l lo hi x : columns l lo hi x -> (List.length x <= hi - lo)%nat.
Proof. intros C. destruct (columns_blen _ _ _ _ C) as (_ & E & _). pose proof (length_le_blen x). lia. Qed.
Lemma power_length l s m e hi mant d : reads_power l s m e hi mant d -> (List.length mant <= e - m)%nat.
Proof. intros (sg & neg & ex & x & _ & C & _). now apply (mantissa_length l). Qed.

Definition pw (mant : str) (d : decimal) : F :=
  fsigned (d_neg d) (flit (value mant) (d_exp d + Z.of_nat (List.length mant) - Z.of_nat (List.length (nat_digits (value mant))))).
Definition pw_pos (mant : str) (d : decimal) : F :=
  flit (value mant) (d_exp d + Z.of_nat (List.length mant) - Z.of_nat (List.length (nat_digits (value mant)))).
Lemma carries_decodes l1 l2 t m1 m2 : carries l1 l2 t m1 m2 -> d_neg (t_nddot t) = false \/ value m1 = 0 ->
  parse_satrec l1 l2 = Done (Ok (make_satrec
    (MkLine1 (t_satnum t) (t_year t) (num (t_day t)) (fdiv (num (t_ndot t)) (fmul kXPDOTP (L 1440 0)))
       (fdiv (pw_pos m1 (t_nddot t)) (fmul (fmul kXPDOTP (L 1440 0)) (L 1440 0))) (pw m2 (t_bstar t)))
    (MkLine2 (fmul (num (t_incl t)) kDEG_2_RAD) (fmul (num (t_node t)) kDEG_2_RAD) (num (t_ecc t)) (fmul (num (t_argp t)) kDEG_2_RAD)
       (fmul (num (t_anomaly t)) kDEG_2_RAD) (fdiv (num (t_motion t)) kXPDOTP)))).
Proof.
  intros ((x & C & P & V) & Y & Dy & Nd & Ndd & Bs & I & No & Ec & Ar & An & Mo) G. unfold parse_satrec, parse_line1, parse_line2.
  rewrite (columns_sliceR _ _ _ _ C). cbn [bindR]. rewrite (reads_int_ok _ _ _ _ _ Y). cbn [bindR].
  rewrite (reads_float _ _ _ _ _ Dy). cbn [bindR]. rewrite (reads_float _ _ _ _ _ Nd). cbn [bindR].
  pose proof (power_length _ _ _ _ _ _ _ Ndd). pose proof (power_length _ _ _ _ _ _ _ Bs).
  destruct (nddot_ok _ _ _ Ndd G) as (k & -> & E); [lia|]. rewrite E. cbn [bindR].
  rewrite (bstar_ok _ _ _ Bs) by lia. cbn [bindR].
  rewrite (reads_float _ _ _ _ _ I). cbn [bindR]. rewrite (reads_float _ _ _ _ _ No). cbn [bindR]. rewrite (ecco_ok _ _ Ec). cbn [bindR].
  rewrite (reads_float _ _ _ _ _ Ar). cbn [bindR]. rewrite (reads_float _ _ _ _ _ An). cbn [bindR]. rewrite (reads_float _ _ _ _ _ Mo). cbn [bindR].
  rewrite (padded_trim _ _ P (fun c H => eq_trans (eq_sym (white_ws c)) (V c H))). reflexivity.
Qed.
(** a normal mantissa is printed as it stands *)
Lemma normal_printed mant : all_digits mant -> mant <> [] -> (forall c r, mant = c :: r -> c <> 48) -> nat_digits (value mant) = mant.
Proof. intros D N Z. destruct mant as [|c r]; [congruence|]. apply printed_value; [exact D|now apply (Z c r)|reflexivity]. Qed.
End S.
