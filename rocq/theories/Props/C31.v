(** * C31: which error a malformed numeric field gives *)
From Coq Require Import ZArith List Bool String Lia.
From Verif.Model Require Import Float Str Satrec Constants Sgp4 Sgp4init Io.
From Verif.Inst Require Import B64.
From Verif.Golden Require Import Flat.
From Verif.Spec Require Import TextSpec NumText TleSpec.
From Verif.Proofs Require Import StrFacts TextFacts IoFacts ParseFacts NumFacts DecodeFacts.
From Verif.Props Require Import C25 C35 C36.
Import ListNotations.
Local Open Scope Z_scope.

(** The fields in reading order, each with its name and columns.  [Raw]: columns that are only cut
    out.  The three last kinds assemble a text from several columns and read it as a float. *)
Inductive field :=
| Raw (lo hi : nat) | IntF (name : string) (lo hi : nat) | FloatF (name : string) (lo hi : nat)
| Nddot | Bstar | Ecco.
Definition fields1 : list field :=
  [Raw 2 7; IntF "epochyr" 18 20; FloatF "epochdays" 20 32; FloatF "ndot" 33 43;
   IntF "nndot frac" 44 50; Nddot; Raw 53 54; IntF "bstar frac" 54 59; Bstar].
Definition fields2 : list field :=
  [FloatF "inclo" 8 16; FloatF "nodeo" 17 25; Ecco; FloatF "argpo" 34 42; FloatF "mo" 43 51; FloatF "no" 52 63].

(** No white space at either end. *)
Definition bare (y : str) : Prop := (forall c r, y = c :: r -> white c = false) /\ (forall c r, y = r ++ [c] -> white c = false).
Lemma bare_tight y : bare y <-> tight y.
Proof. unfold bare, tight. setoid_rewrite white_ws. reflexivity. Qed.

(** An integer printed in decimal: no leading zeros, a minus sign when negative. *)
Definition prints (v : Z) (t : str) : Prop :=
  exists d, all_digits d /\ value d = Z.abs v /\ (d = [48] \/ exists c r, d = c :: r /\ c <> 48) /\ t = (if v <? 0 then [45] else []) ++ d.
(** The assembled texts. *)
Inductive assembled (line : str) : field -> str -> Prop :=
| asm_nddot x v t ex : columns line 44 50 x -> int_text x v -> prints v t -> columns line 50 52 ex ->
    assembled line Nddot (of_string "." ++ t ++ of_string "E" ++ ex)
| asm_bstar sg x v t ex : columns line 53 54 sg -> columns line 54 59 x -> int_text x v -> prints v t -> columns line 59 61 ex ->
    assembled line Bstar (sg ++ of_string "." ++ t ++ of_string "E" ++ ex)
| asm_ecco x y : columns line 26 33 x -> padded x y -> bare y -> assembled line Ecco (of_string "." ++ y).
(** A text without surrounding blanks that reads as a float. *)
Definition exact_float (x : str) : Prop := float_text x /\ trim x = x.
Definition reads_as_float (f : field) (x : str) : Prop := match f with Nddot => exact_float x | _ => float_text x end.

(** A field can be read. *)
Definition readable (line : str) (f : field) : Prop :=
  match f with
  | Raw lo hi => exists x, columns line lo hi x
  | IntF _ lo hi => exists x v, columns line lo hi x /\ int_text x v
  | FloatF _ lo hi => exists x, columns line lo hi x /\ float_text x
  | _ => exists x, assembled line f x /\ reads_as_float f x
  end.
(** A field is there but is not a number, and the error for it. *)
Definition faulty (line : str) (f : field) (e : SatrecParseError) : Prop :=
  match f with
  | Raw _ _ => False
  | IntF n lo hi => exists x, columns line lo hi x /\ (forall v, ~ int_text x v) /\ e = IntParseError n lo hi x
  | FloatF n lo hi => exists x, columns line lo hi x /\ ~ float_text x /\ e = IntParseError n lo hi x
  | Nddot => exists x, assembled line f x /\ ~ reads_as_float f x /\ e = CompoundError "nndot" x
  | Bstar => exists x, assembled line f x /\ ~ reads_as_float f x /\ e = CompoundError "bstr" x
  | Ecco => exists x, assembled line f x /\ ~ reads_as_float f x /\ e = CompoundError "ecco" x
  end.
(** The first faulty field of the two lines. *)
Definition first_fault (l1 l2 : str) (e : SatrecParseError) : Prop :=
  exists pre line f post, map (pair l1) fields1 ++ map (pair l2) fields2 = pre ++ (line, f) :: post /\
    Forall (fun p => readable (fst p) (snd p)) pre /\ faulty line f e.

Lemma prints_show v : prints v (show_i64 v).
Proof.
  unfold show_i64. destruct (Z.ltb_spec v 0) as [Z|Z].
  - destruct (nat_digits_spec (- v)) as (D & V & N & Nz & _); [lia|]. exists (nat_digits (- v)). split; [exact D|]. split; [rewrite V; lia|].
    destruct (Z.ltb_spec v 0); [|lia]. split; [|reflexivity]. right. destruct (nat_digits (- v)) as [|c r]; [congruence|]. exists c, r. split; [reflexivity|]. apply (Nz ltac:(lia) c r eq_refl).
  - destruct (nat_digits_spec v Z) as (D & V & N & Nz & Zz). exists (nat_digits v). split; [exact D|]. split; [rewrite V; lia|].
    destruct (Z.ltb_spec v 0); [lia|]. split; [|reflexivity]. destruct (Z.eq_dec v 0) as [E|E]; [left; now apply Zz|right].
    destruct (nat_digits v) as [|c r]; [congruence|]. exists c, r. split; [reflexivity|]. apply (Nz E c r eq_refl).
Qed.
Lemma prints_unique v t t' : prints v t -> prints v t' -> t = t'.
Proof.
  intros (d & D & V & N & ->) (d' & D' & V' & N' & ->). f_equal. destruct (Z.eq_dec v 0) as [->|Z].
  - assert (Q : forall d, all_digits d -> value d = 0 -> (d = [48] \/ exists c r, d = c :: r /\ c <> 48) -> d = [48]).
    { intros d0 D0 V0 [H|(c & r & -> & C)]; [exact H|]. pose proof (value_lower c r D0 C). assert (0 < 10 ^ Z.of_nat (List.length r)) by (apply Z.pow_pos_nonneg; lia). lia. }
    rewrite (Q d D V N), (Q d' D' V' N'). reflexivity.
  - assert (Q : forall d, value d = Z.abs v -> (d = [48] \/ exists c r, d = c :: r /\ c <> 48) -> forall c r, d = c :: r -> c <> 48).
    { intros d0 V0 [-> |(c & r & -> & C)]; [cbn in V0; lia|]. now intros c0 r0 [= <- _]. }
    apply no_zero_same; [exact D|exact D'|now apply Q|now apply Q|congruence].
Qed.

Section S.
Context {F : Type} {FO : FloatOps F}.
(** what reading one field of a line may do *)
Definition step {A} (line : str) (f : field) (o : outcome (result A SatrecParseError)) : Prop :=
  (readable line f /\ exists a, o = Done (Ok a)) \/ (exists e, faulty line f e /\ o = Done (Err e)) \/ (o = Panic /\ ~ readable line f /\ forall e, ~ faulty line f e).
Lemma step_raw line lo hi : step line (Raw lo hi) (sliceR line lo hi).
Proof.
  unfold sliceR. destruct (slice_cases line lo hi) as [(x & E & C)|[E N]]; rewrite E; cbn [bindO].
  - left. split; [now exists x|now eexists].
  - right. right. split; [reflexivity|]. split; [intros [x C]; now apply N in C|now intros e].
Qed.
Lemma step_int line n lo hi : step line (IntF n lo hi) (parse_int line n lo hi).
Proof.
  unfold parse_int. destruct (slice_cases line lo hi) as [(x & E & C)|[E N]]; rewrite E; cbn [bindO].
  - destruct (parse_i64 (trim x)) as [v|] eqn:V.
    + left. split; [|now eexists]. exists x, v. split; [exact C|now apply parse_i64_spec].
    + right. left. eexists. split; [|reflexivity]. exists x. split; [exact C|]. split; [now apply not_int_text|reflexivity].
  - right. right. split; [reflexivity|]. split; [intros (x & v & C & _); now apply N in C|intros e (x & C & _); now apply N in C].
Qed.
Lemma step_float line n lo hi : step line (FloatF n lo hi) (parse_float line n lo hi).
Proof.
  unfold parse_float. destruct (slice_cases line lo hi) as [(x & E & C)|[E N]]; rewrite E; cbn [bindO].
  - destruct (parse_f64 (trim x)) as [v|] eqn:V.
    + left. split; [|now eexists]. exists x. split; [exact C|]. apply (float_text_value (FO := FO)). now exists v.
    + right. left. eexists. split; [|reflexivity]. exists x. split; [exact C|]. split; [now apply (not_float_text (FO := FO))|reflexivity].
  - right. right. split; [reflexivity|]. split; [intros (x & C & _); now apply N in C|intros e (x & C & _); now apply N in C].
Qed.
Lemma exact_float_spec x : exact_float x <-> exists v, parse_f64 (FO := FO) x = Some v.
Proof.
  unfold exact_float. rewrite (float_text_value (FO := FO)). split.
  - intros [[v H] E]. rewrite E in H. now exists v.
  - intros [v H]. assert (E : trim x = x). { apply trim_id, tight_all. apply parse_f64_spec in H. now apply float_value_visible in H. }
    rewrite E. split; [now exists v|reflexivity].
Qed.
Lemma step_nddot line v0 x0 : columns line 44 50 x0 -> int_text x0 v0 ->
  step line Nddot (try! nddot_1 <- sliceR line 50 52;
  let nndot_str := (46 :: show_i64 v0 ++ 69 :: nddot_1)%Z in
  match parse_f64 nndot_str with
  | Some res => Done (Ok (fdiv res (fmul (fmul kXPDOTP (L 1440 0)) (L 1440 0))))
  | None => Done (Err (CompoundError "nndot" nndot_str))
  end).
Proof.
  intros C0 V0. unfold sliceR. destruct (slice_cases line 50 52) as [(ex & E & C)|[E N]]; rewrite E; cbn [bindO bindR].
  - assert (A : assembled line Nddot (46 :: show_i64 v0 ++ 69 :: ex)) by (apply (asm_nddot line x0 v0 (show_i64 v0) ex); try assumption; apply prints_show).
    cbv zeta. destruct (parse_f64 _) as [w|] eqn:W.
    + left. split; [|now eexists]. eexists. split; [exact A|]. apply exact_float_spec. now exists w.
    + right. left. eexists. split; [|reflexivity]. eexists. split; [exact A|]. split; [|reflexivity]. cbn [reads_as_float]. rewrite exact_float_spec. intros [v H]. congruence.
  - right. right. split; [reflexivity|]. split; [intros (x & A & _)|intros e (x & A & _)]; inversion A; subst; match goal with K : columns line 50 52 _ |- _ => now apply N in K end.
Qed.
Lemma step_bstar line sg0 v0 x0 : columns line 53 54 sg0 -> columns line 54 59 x0 -> int_text x0 v0 ->
  step line Bstar (try! bstar_2 <- sliceR line 59 61;
  let bstar_str := (sg0 ++ 46 :: show_i64 v0 ++ 69 :: bstar_2)%Z in
  match parse_f64 (trim bstar_str) with
  | Some res => Done (Ok res)
  | None => Done (Err (CompoundError "bstr" bstar_str))
  end).
Proof.
  intros Cs C0 V0. unfold sliceR. destruct (slice_cases line 59 61) as [(ex & E & C)|[E N]]; rewrite E; cbn [bindO bindR].
  - assert (A : assembled line Bstar (sg0 ++ 46 :: show_i64 v0 ++ 69 :: ex)) by (apply (asm_bstar line sg0 x0 v0 (show_i64 v0) ex); try assumption; apply prints_show).
    cbv zeta. destruct (parse_f64 _) as [w|] eqn:W.
    + left. split; [|now eexists]. eexists. split; [exact A|]. cbn [reads_as_float]. apply (float_text_value (FO := FO)). now exists w.
    + right. left. eexists. split; [|reflexivity]. eexists. split; [exact A|]. split; [|reflexivity]. cbn [reads_as_float]. now apply (not_float_text (FO := FO)).
  - right. right. split; [reflexivity|]. split; [intros (x & A & _)|intros e (x & A & _)]; inversion A; subst; match goal with K : columns line 59 61 _ |- _ => now apply N in K end.
Qed.
Lemma step_ecco line : step line Ecco (parse_ecco line).
Proof.
  unfold parse_ecco, sliceR. destruct (slice_cases line 26 33) as [(x & E & C)|[E N]]; rewrite E; cbn [bindO bindR].
  - assert (A : assembled line Ecco (46 :: trim x)) by (apply (asm_ecco line x (trim x)); [exact C|apply padded_of_trim|apply bare_tight, trim_tight]).
    cbv zeta. destruct (parse_f64 _) as [w|] eqn:W.
    + left. split; [|now eexists]. eexists. split; [exact A|]. cbn [reads_as_float]. apply (float_text_value (FO := FO)). now exists w.
    + right. left. eexists. split; [|reflexivity]. eexists. split; [exact A|]. split; [|reflexivity]. cbn [reads_as_float]. now apply (not_float_text (FO := FO)).
  - right. right. split; [reflexivity|]. split; [intros (y & A & _)|intros e (y & A & _)]; inversion A; subst; match goal with K : columns line 26 33 _ |- _ => now apply N in K end.
Qed.

(** a chain of steps *)
Definition chain {A} (fs : list (str * field)) (o : outcome (result A SatrecParseError)) : Prop :=
  (Forall (fun p => readable (fst p) (snd p)) fs /\ exists a, o = Done (Ok a)) \/
  (exists e pre line f post, fs = pre ++ (line, f) :: post /\ Forall (fun p => readable (fst p) (snd p)) pre /\ faulty line f e /\ o = Done (Err e)) \/
  (o = Panic /\ exists pre line f post, fs = pre ++ (line, f) :: post /\ Forall (fun p => readable (fst p) (snd p)) pre /\ ~ readable line f /\ forall e, ~ faulty line f e).
Lemma chain_nil {A} (a : A) : chain [] (Done (Ok a)).
Proof. left. split; [constructor|now exists a]. Qed.
Lemma chain_cons {A B} line f fs (o : outcome (result A SatrecParseError)) (k : A -> outcome (result B SatrecParseError)) :
  step line f o -> (readable line f -> forall a, o = Done (Ok a) -> chain fs (k a)) -> chain ((line, f) :: fs) (bindR o k).
Proof.
  intros [(R & a & E)|[(e & Fy & E)|(E & Nr & Nf)]] K.
  - specialize (K R a E). rewrite E. cbn [bindR]. destruct K as [[RR Ok0]|[(e & pre & l & g & post & -> & Rp & Fy & ->)|(-> & pre & l & g & post & -> & Rp & Nr & Nf)]].
    + left. split; [now constructor|exact Ok0].
    + right. left. exists e, ((line, f) :: pre), l, g, post. repeat split; try assumption. now constructor.
    + right. right. split; [reflexivity|]. exists ((line, f) :: pre), l, g, post. repeat split; try assumption. now constructor.
  - right. left. exists e, [], line, f, fs. rewrite E. repeat split; try assumption. constructor.
  - right. right. rewrite E. split; [reflexivity|]. exists [], line, f, fs. repeat split; try assumption. constructor.
Qed.
Lemma bindR_assoc {A B C E} (o : outcome (result A E)) (k : A -> outcome (result B E)) (j : B -> outcome (result C E)) :
  bindR (bindR o k) j = bindR o (fun a => bindR (k a) j).
Proof. now destruct o as [[a|e]| |]. Qed.
Lemma decode_chain l1 l2 : chain (map (pair l1) fields1 ++ map (pair l2) fields2) (parse_satrec (FO := FO) l1 l2).
Proof.
  unfold parse_satrec, parse_line1. cbn [fields1 fields2 map app].
  rewrite !bindR_assoc. apply chain_cons; [apply step_raw|]. intros _ x1 _. cbv beta.
  rewrite !bindR_assoc. apply chain_cons; [apply step_int|]. intros _ yr _. cbv beta.
  rewrite !bindR_assoc. apply chain_cons; [apply step_float|]. intros _ ed _. cbv beta.
  rewrite !bindR_assoc. apply chain_cons; [apply step_float|]. intros _ nd _. cbv beta.
  unfold parse_nddot. rewrite !bindR_assoc. apply chain_cons; [apply step_int|]. intros _ v Ev. cbv beta.
  apply parse_int_ok in Ev. destruct Ev as (x0 & S0 & V0). apply slice_columns in S0. apply parse_i64_spec in V0.
  rewrite !bindR_assoc. rewrite <- bindR_assoc. apply chain_cons; [exact (step_nddot l1 v x0 S0 V0)|]. intros _ ndd _. cbv beta.
  unfold parse_bstar. rewrite !bindR_assoc. apply chain_cons; [apply step_raw|]. intros _ sg Es. cbv beta. apply sliceR_ok, slice_columns in Es.
  rewrite !bindR_assoc. apply chain_cons; [apply step_int|]. intros _ v' Ev. cbv beta.
  apply parse_int_ok in Ev. destruct Ev as (x0' & S0' & V0'). apply slice_columns in S0'. apply parse_i64_spec in V0'.
  rewrite <- !bindR_assoc. rewrite bindR_assoc. apply chain_cons; [exact (step_bstar l1 sg v' x0' Es S0' V0')|]. intros _ bs _. cbv beta.
  cbn [bindR]. unfold parse_line2.
  rewrite !bindR_assoc. apply chain_cons; [apply step_float|]. intros _ i _. cbv beta.
  rewrite !bindR_assoc. apply chain_cons; [apply step_float|]. intros _ n _. cbv beta.
  rewrite !bindR_assoc. apply chain_cons; [apply step_ecco|]. intros _ ec _. cbv beta.
  rewrite !bindR_assoc. apply chain_cons; [apply step_float|]. intros _ ar _. cbv beta.
  rewrite !bindR_assoc. apply chain_cons; [apply step_float|]. intros _ mo _. cbv beta.
  rewrite !bindR_assoc. apply chain_cons; [apply step_float|]. intros _ no _. cbv beta.
  cbn [bindR]. apply chain_nil.
Qed.
End S.

(** Decoding fails exactly on the first faulty field, with the error that belongs to it: the field's
    name and columns, and the offending text; and succeeds exactly when every field reads. *)
Theorem C31_first_faulty_field_is_reported :
  forall (F : Type) (FO : FloatOps F) (l1 l2 : str),
    (forall e, parse_satrec (FO := FO) l1 l2 = Done (Err e) <-> first_fault l1 l2 e) /\
    ((exists s, parse_satrec (FO := FO) l1 l2 = Done (Ok s)) <->
       Forall (readable l1) fields1 /\ Forall (readable l2) fields2).
Proof.
  intros F FO l1 l2. pose proof (decode_chain (FO := FO) l1 l2) as C.
  assert (X : forall line f e, readable line f -> ~ faulty line f e).
  { intros line f e R Fy. destruct f as [lo hi|n lo hi|n lo hi| | |]; cbn [readable faulty] in R, Fy.
    - exact Fy.
    - destruct R as (x & v & Cx & V), Fy as (y & Cy & N & _). rewrite (columns_unique _ _ _ _ _ Cy Cx) in N. now apply N in V.
    - destruct R as (x & Cx & V), Fy as (y & Cy & N & _). now rewrite (columns_unique _ _ _ _ _ Cy Cx) in N.
    - destruct R as (x & Ax & V), Fy as (y & Ay & N & _). apply N. replace y with x; [exact V|]. inversion Ax; subst. inversion Ay; subst.
      match goal with A : columns line 44 50 ?a, B : columns line 44 50 ?b |- _ => pose proof (columns_unique _ _ _ _ _ A B) end. subst.
      match goal with A : columns line 50 52 ?a, B : columns line 50 52 ?b |- _ => pose proof (columns_unique _ _ _ _ _ A B) end. subst.
      match goal with A : int_text _ ?a, B : int_text _ ?b |- _ => apply parse_i64_spec in A; apply parse_i64_spec in B; assert (a = b) by congruence end. subst.
      match goal with A : prints _ ?a, B : prints _ ?b |- _ => rewrite (prints_unique _ _ _ A B) end. reflexivity.
    - destruct R as (x & Ax & V), Fy as (y & Ay & N & _). apply N. replace y with x; [exact V|]. inversion Ax; subst. inversion Ay; subst.
      match goal with A : columns line 53 54 ?a, B : columns line 53 54 ?b |- _ => pose proof (columns_unique _ _ _ _ _ A B) end. subst.
      match goal with A : columns line 54 59 ?a, B : columns line 54 59 ?b |- _ => pose proof (columns_unique _ _ _ _ _ A B) end. subst.
      match goal with A : columns line 59 61 ?a, B : columns line 59 61 ?b |- _ => pose proof (columns_unique _ _ _ _ _ A B) end. subst.
      match goal with A : int_text _ ?a, B : int_text _ ?b |- _ => apply parse_i64_spec in A; apply parse_i64_spec in B; assert (a = b) by congruence end. subst.
      match goal with A : prints _ ?a, B : prints _ ?b |- _ => rewrite (prints_unique _ _ _ A B) end. reflexivity.
    - destruct R as (x & Ax & V), Fy as (y & Ay & N & _). apply N. replace y with x; [exact V|]. inversion Ax as [| |p q Cp Pp Tp]; subst. inversion Ay as [| |p' q' Cp' Pp' Tp']; subst.
      pose proof (columns_unique _ _ _ _ _ Cp Cp'). subst p'. f_equal. destruct Pp as (a & b & E & Wa & Wb), Pp' as (a' & b' & E' & Wa' & Wb').
      rewrite blank_ws in Wa, Wb, Wa', Wb'. apply bare_tight in Tp, Tp'.
      transitivity (trim p); [rewrite E; symmetry; now apply trim_app|rewrite E'; now apply trim_app]. }
  (* a list has one first faulty element *)
  assert (U : forall fs pre line f post pre' line' f' post' e e',
    fs = pre ++ (line, f) :: post -> Forall (fun p => readable (fst p) (snd p)) pre -> faulty line f e ->
    fs = pre' ++ (line', f') :: post' -> Forall (fun p => readable (fst p) (snd p)) pre' -> faulty line' f' e' ->
    line = line' /\ f = f').
  { intros fs pre line f post pre' line' f' post' e e' E R Fy. subst fs. revert pre' line' f' post'.
    induction R as [|p pre Rp R IH]; intros pre' line' f' post' E R' Fy'.
    - destruct pre' as [|p' pre']; [now injection E|]. injection E as Ep _. subst p'. apply Forall_inv in R'. cbn [fst snd] in R'. now elim (X _ _ e R').
    - destruct pre' as [|p' pre']; [|injection E as _ E; apply Forall_inv_tail in R'; now apply (IH pre' line' f' post')].
      injection E as Ep _. subst p. cbn [fst snd] in Rp. now elim (X _ _ e' Rp). }
  assert (UE : forall line f e e', faulty line f e -> faulty line f e' -> e = e').
  { intros line f e e' A B. destruct f as [lo hi|n lo hi|n lo hi| | |]; cbn [faulty] in A, B.
    - contradiction.
    - destruct A as (x & Cx & _ & ->), B as (y & Cy & _ & ->). now rewrite (columns_unique _ _ _ _ _ Cx Cy).
    - destruct A as (x & Cx & _ & ->), B as (y & Cy & _ & ->). now rewrite (columns_unique _ _ _ _ _ Cx Cy).
    - destruct A as (x & Ax & _ & ->), B as (y & Ay & _ & ->). f_equal. inversion Ax; subst. inversion Ay; subst.
      match goal with A : columns line 44 50 ?a, B : columns line 44 50 ?b |- _ => pose proof (columns_unique _ _ _ _ _ A B) end. subst.
      match goal with A : columns line 50 52 ?a, B : columns line 50 52 ?b |- _ => pose proof (columns_unique _ _ _ _ _ A B) end. subst.
      match goal with A : int_text _ ?a, B : int_text _ ?b |- _ => apply parse_i64_spec in A; apply parse_i64_spec in B; assert (a = b) by congruence end. subst.
      match goal with A : prints _ ?a, B : prints _ ?b |- _ => rewrite (prints_unique _ _ _ A B) end. reflexivity.
    - destruct A as (x & Ax & _ & ->), B as (y & Ay & _ & ->). f_equal. inversion Ax; subst. inversion Ay; subst.
      match goal with A : columns line 53 54 ?a, B : columns line 53 54 ?b |- _ => pose proof (columns_unique _ _ _ _ _ A B) end. subst.
      match goal with A : columns line 54 59 ?a, B : columns line 54 59 ?b |- _ => pose proof (columns_unique _ _ _ _ _ A B) end. subst.
      match goal with A : columns line 59 61 ?a, B : columns line 59 61 ?b |- _ => pose proof (columns_unique _ _ _ _ _ A B) end. subst.
      match goal with A : int_text _ ?a, B : int_text _ ?b |- _ => apply parse_i64_spec in A; apply parse_i64_spec in B; assert (a = b) by congruence end. subst.
      match goal with A : prints _ ?a, B : prints _ ?b |- _ => rewrite (prints_unique _ _ _ A B) end. reflexivity.
    - destruct A as (x & Ax & _ & ->), B as (y & Ay & _ & ->). do 2 f_equal. inversion Ax as [| |p q Cp Pp Tp]; subst. inversion Ay as [| |p' q' Cp' Pp' Tp']; subst.
      pose proof (columns_unique _ _ _ _ _ Cp Cp'). subst p'. f_equal. destruct Pp as (a & b & E & Wa & Wb), Pp' as (a' & b' & E' & Wa' & Wb').
      rewrite blank_ws in Wa, Wb, Wa', Wb'. apply bare_tight in Tp, Tp'.
      transitivity (trim p); [rewrite E; symmetry; now apply trim_app|rewrite E'; now apply trim_app]. }
  assert (NP : forall pre line f post pre' line' f' post' (fs : list (str * field)), fs = pre ++ (line, f) :: post -> Forall (fun p => readable (fst p) (snd p)) pre -> ~ readable line f ->
    fs = pre' ++ (line', f') :: post' -> Forall (fun p => readable (fst p) (snd p)) pre' -> ~ readable line' f' -> line = line' /\ f = f').
  { intros pre line f post pre' line' f' post' fs E R Nr. subst fs. revert pre' line' f' post'.
    induction R as [|p pre Rp R IH]; intros pre' line' f' post' E R' Nr'.
    - destruct pre' as [|p' pre']; [now injection E|]. injection E as Ep _. subst p'. apply Forall_inv in R'. now elim Nr.
    - destruct pre' as [|p' pre']; [|injection E as _ E; apply Forall_inv_tail in R'; now apply (IH pre' line' f' post')].
      injection E as Ep _. subst p. now elim Nr'. }
  assert (NR : forall line f e, faulty line f e -> ~ readable line f) by (intros line f e Fy R; now apply (X line f e R)).
  split.
  - intros e. split.
    + intros E. destruct C as [[_ [a K]]|[(e0 & pre & line & f & post & Es & R & Fy & K)|[K _]]]; [congruence| |congruence].
      assert (e0 = e) by congruence. subst e0. now exists pre, line, f, post.
    + intros (pre & line & f & post & Es & R & Fy). destruct C as [[RR _]|[(e0 & pre0 & line0 & f0 & post0 & Es0 & R0 & Fy0 & ->)|[_ (pre0 & line0 & f0 & post0 & Es0 & R0 & Nr & Nf)]]].
      * exfalso. rewrite Es in RR. apply Forall_app in RR. destruct RR as [_ RR]. apply Forall_inv in RR. now apply (X line f e RR).
      * destruct (U _ _ _ _ _ _ _ _ _ _ _ Es R Fy Es0 R0 Fy0) as [<- <-]. now rewrite (UE line f e e0).
      * exfalso. destruct (NP _ _ _ _ _ _ _ _ _ Es R (NR _ _ _ Fy) Es0 R0 Nr) as [<- <-]. now apply (Nf e).
  - assert (M : forall l fs, Forall (fun p : str * field => readable (fst p) (snd p)) (map (pair l) fs) <-> Forall (readable l) fs).
    { intros l fs. rewrite Forall_map. reflexivity. }
    rewrite <- !M, <- Forall_app. split.
    + intros [s E]. destruct C as [[RR _]|[(e0 & pre & line & f & post & Es & R & Fy & K)|[K _]]]; [exact RR|congruence|congruence].
    + intros RR. destruct C as [[_ K]|[(e0 & pre & line & f & post & Es & R & Fy & K)|[_ (pre & line & f & post & Es & R & Nr & _)]]]; [exact K| |]; exfalso.
      * rewrite Es in RR. apply Forall_app in RR. destruct RR as [_ RR]. apply Forall_inv in RR. now apply (X line f e0 RR).
      * rewrite Es in RR. apply Forall_app in RR. destruct RR as [_ RR]. apply Forall_inv in RR. now apply Nr.
Qed.
Print Assumptions C31_first_faulty_field_is_reported.

(** The defect: a malformed float is never reported as such. *)
Fixpoint mentions_float (e : SatrecParseError) : Prop :=
  match e with FloatParseError _ _ _ _ => True | SatrecMultiError _ e' => mentions_float e' | _ => False end.
Lemma satrec_no_float (F : Type) (FO : FloatOps F) l1 l2 e : parse_satrec (FO := FO) l1 l2 = Done (Err e) -> ~ mentions_float e.
Proof.
  intros H. apply (C31_first_faulty_field_is_reported F FO) in H. destruct H as (pre & line & f & post & _ & _ & Fy).
  destruct f; cbn [faulty] in Fy; [contradiction|..]; destruct Fy as (x & _ & _ & ->); exact (fun k => k).
Qed.
Lemma twoline_no_float (F : Type) (FO : FloatOps F) fuel l1 l2 e : twoline2satrec (FO := FO) fuel l1 l2 = Done (Err e) -> ~ mentions_float e.
Proof.
  unfold twoline2satrec. destruct (parse_satrec l1 l2) as [[s|e0]| |] eqn:E; cbn [bindR]; [|intros H; assert (e0 = e) by congruence; subst; now apply satrec_no_float in E|discriminate|discriminate].
  destruct (sgp4init fuel s (tle_options s)) as [[s' [r|er]]| |]; cbn [bindO]; [discriminate| |discriminate|discriminate]. intros H. assert (Sgp4InitError er = e) by congruence. subst e. exact (fun k => k).
Qed.
Theorem C31_float_errors_never_occur :
  forall (F : Type) (FO : FloatOps F) fuel,
    (forall l1 l2 e, parse_satrec (FO := FO) l1 l2 = Done (Err e) -> ~ mentions_float e) /\
    (forall l1 l2 e, twoline2satrec (FO := FO) fuel l1 l2 = Done (Err e) -> ~ mentions_float e) /\
    (forall text e, parse (FO := FO) fuel text = Done (Err e) -> ~ mentions_float e) /\
    (forall text recs errs, parse_multiple (FO := FO) fuel text = Done (recs, errs) -> forall e, In e errs -> ~ mentions_float e).
Proof.
  intros F FO fuel. split; [intros l1 l2 e; apply satrec_no_float|]. split; [intros l1 l2 e; apply twoline_no_float|]. split.
  - intros text e. destruct (text_as_lines text) as (ps & N & O & ->). destruct (content ps) as [|x [|y [|z [|w r]]]] eqn:C.
    1,2,5: rewrite parse_other by (assumption || (rewrite C; discriminate)); intros H; assert (InvalidTLEBadLineCount = e) by congruence; subst e; exact (fun k => k).
    + rewrite (parse_two fuel ps x y O C). destruct (starts_dec 49 x); [destruct (starts_dec 50 y)|].
      * apply twoline_no_float.
      * intros H. assert (InvalidTLELineCheckFailed = e) by congruence. subst e. exact (fun k => k).
      * intros H. assert (InvalidTLELineCheckFailed = e) by congruence. subst e. exact (fun k => k).
    + rewrite (parse_three fuel ps x y z O C). destruct (starts_dec 49 y); [destruct (starts_dec 50 z)|].
      * destruct (twoline2satrec fuel y z) as [[sr|e0]| |] eqn:T; cbn [bindR]; [destruct (name_of x); discriminate| |discriminate|discriminate].
        intros H. assert (e0 = e) by congruence. subst e0. now apply twoline_no_float in T.
      * intros H. assert (InvalidTLELineCheckFailed = e) by congruence. subst e. exact (fun k => k).
      * intros H. assert (InvalidTLELineCheckFailed = e) by congruence. subst e. exact (fun k => k).
  - intros text recs errs H e I. destruct (text_as_lines text) as (ps & N & O & ->). rewrite parse_multiple_lines in H by assumption.
    assert (G : forall n i ls rs es, Forall (fun p => blank p = false) ls -> (forall e, In e es -> ~ mentions_float e) ->
      multi_loop n fuel i ls rs es = Done (recs, errs) -> ~ mentions_float e).
    { clear H. induction n as [|n IH]; intros i ls rs es B Es H.
      - destruct ls; [|discriminate H]. rewrite multi_nil in H. assert (rev es = errs) by congruence. subst errs. apply Es. now apply in_rev.
      - destruct ls as [|l ls]; [rewrite multi_nil in H; assert (rev es = errs) by congruence; subst errs; apply Es; now apply in_rev|].
        rewrite multi_step in H by (discriminate || assumption).
        assert (Ge : forall e0, snd (group fuel (l :: ls)) = Done (Err e0) -> ~ mentions_float e0).
        { intros e0. destruct ls as [|l1 [|l2 q]]; cbn [group snd].
          - intros K. assert (InvalidTLEBadLineCount = e0) by congruence. subst e0. exact (fun k => k).
          - apply twoline_no_float.
          - destruct (Nat.eqb (blen (trim l)) 25); cbn [snd]; [apply twoline_no_float|].
            destruct (twoline2satrec fuel l1 l2) as [[sr|e1]| |] eqn:T; cbn [bindO named]; [destruct (name_of l); discriminate| |discriminate|discriminate].
            intros K. assert (e1 = e0) by congruence. subst e1. now apply twoline_no_float in T. }
        destruct (group fuel (l :: ls)) as [k o]. cbn [snd] in Ge. destruct o as [r| |]; cbn [bindO] in H; [|discriminate H|discriminate H]. cbv zeta in H.
        apply IH in H; [exact H| |].
        + rewrite <- (firstn_skipn k (l :: ls)) in B. apply Forall_app in B. apply B.
        + destruct r as [sr|e0]; cbn [push snd]; [exact Es|]. intros e1 [<-|I1]; [cbn [mentions_float]; now apply Ge|now apply Es]. }
    apply (G _ _ _ _ _ (content_forall ps)) with (2 := H). intros e0 [].
Qed.
Print Assumptions C31_float_errors_never_occur.

(** Non-vacuity: a broken inclination is reported as an integer error for inclo, columns 8 to 16. *)
Definition badinc := of_string "2 25544  5x.6416 299.2512 0003381 269.5310 185.0126 15.54171530118811".
Example C31_example :
  match @parse_satrec _ (B64Ops flat_lm) iss1 badinc with
  | Done (Err (IntParseError n 8 16 x)) => String.eqb n "inclo" && str_eqb x (of_string " 5x.6416") | _ => false end = true.
Proof. vm_compute. reflexivity. Qed.
