(** * When the decoder panics *)
From Coq Require Import ZArith List Bool String Lia.
From Verif.Model Require Import Float Str Satrec Constants Sgp4 Sgp4init Io.
From Verif.Spec Require Import TextSpec.
From Verif.Proofs Require Import StrFacts IoFacts TextFacts InitTotal.
Import ListNotations.
Local Open Scope Z_scope.

Section S.
Context {F : Type} {FO : FloatOps F}.

Lemma bindR_panic {A B E} (x : outcome (result A E)) (k : A -> outcome (result B E)) :
  bindR x k = Panic <-> x = Panic \/ exists a, x = Done (Ok a) /\ k a = Panic.
Proof.
  destruct x as [[a|e]| |]; cbn; split; try congruence; try (intros [H|(b & H & _)]; congruence); auto.
  - intros H. right. now exists a.
  - intros [H|(b & H & K)]; [discriminate|]. now injection H as ->.
Qed.
Lemma bindR_done {A B E} (x : outcome (result A E)) (k : A -> outcome (result B E)) :
  (exists r, x = Done r) -> (forall a, x = Done (Ok a) -> exists r, k a = Done r) -> exists r, bindR x k = Done r.
Proof. intros [[a|e] H] K; rewrite H; cbn [bindR]; [now apply K|now eexists]. Qed.
Lemma sliceR_done l a b x : slice l a b = Done x -> sliceR l a b = Done (Ok x).
Proof. unfold sliceR. now intros ->. Qed.
Lemma parse_int_done l n a b x : slice l a b = Done x -> exists r, parse_int l n a b = Done r.
Proof. unfold parse_int. intros ->. cbn [bindO]. destruct (parse_i64 (trim x)); now eexists. Qed.
Lemma parse_float_done l n a b x : slice l a b = Done x -> exists r, parse_float l n a b = Done r.
Proof. unfold parse_float. intros ->. cbn [bindO]. destruct (parse_f64 (trim x)); now eexists. Qed.
Lemma parse_int_panic l n a b : parse_int l n a b = Panic <-> slice l a b = Panic.
Proof. unfold parse_int. destruct (slice l a b) as [x| |]; cbn [bindO]; [destruct (parse_i64 (trim x))|..]; split; congruence. Qed.
Lemma parse_float_panic l n a b : parse_float l n a b = Panic <-> slice l a b = Panic.
Proof. unfold parse_float. destruct (slice l a b) as [x| |]; cbn [bindO]; [destruct (parse_f64 (trim x))|..]; split; congruence. Qed.
Lemma sliceR_panic l a b : sliceR l a b = Panic <-> slice l a b = Panic.
Proof. unfold sliceR. destruct (slice l a b) as [x| |]; cbn [bindO]; split; congruence. Qed.

(** all columns present: the line decodes or is refused *)
Lemma line1_done l : (forall lo hi, (lo <= hi <= 61)%nat -> exists x, slice l lo hi = Done x) -> exists r, parse_line1 l = Done r.
Proof.
  intros H. unfold parse_line1. pose proof (fun lo hi K => H lo hi K) as S.
  apply bindR_done. { destruct (S 2 7)%nat as [x X]; [lia|]. eexists. eapply sliceR_done, X. } intros sn _.
  apply bindR_done. { destruct (S 18 20)%nat as [x X]; [lia|]. eapply parse_int_done, X. } intros yr _.
  apply bindR_done. { destruct (S 20 32)%nat as [x X]; [lia|]. eapply parse_float_done, X. } intros ed _.
  apply bindR_done. { destruct (S 33 43)%nat as [x X]; [lia|]. eapply parse_float_done, X. } intros nd _.
  apply bindR_done.
  { unfold parse_nddot. apply bindR_done. { destruct (S 44 50)%nat as [x X]; [lia|]. eapply parse_int_done, X. } intros m _.
    destruct (S 50 52)%nat as [x X]; [lia|]. rewrite (sliceR_done _ _ _ _ X). cbn [bindR]. destruct (parse_f64 _); now eexists. }
  intros ndd _. apply bindR_done.
  { unfold parse_bstar. destruct (S 53 54)%nat as [x X]; [lia|]. rewrite (sliceR_done _ _ _ _ X). cbn [bindR].
    apply bindR_done. { destruct (S 54 59)%nat as [y Y]; [lia|]. eapply parse_int_done, Y. } intros m _.
    destruct (S 59 61)%nat as [y Y]; [lia|]. rewrite (sliceR_done _ _ _ _ Y). cbn [bindR]. destruct (parse_f64 _); now eexists. }
  intros bs _. now eexists.
Qed.
Lemma line2_done l : (forall lo hi, (lo <= hi <= 63)%nat -> exists x, slice l lo hi = Done x) -> exists r, parse_line2 l = Done r.
Proof.
  intros S. unfold parse_line2.
  apply bindR_done. { destruct (S 8 16)%nat as [x X]; [lia|]. eapply parse_float_done, X. } intros i _.
  apply bindR_done. { destruct (S 17 25)%nat as [x X]; [lia|]. eapply parse_float_done, X. } intros n _.
  apply bindR_done.
  { unfold parse_ecco. destruct (S 26 33)%nat as [x X]; [lia|]. rewrite (sliceR_done _ _ _ _ X). cbn [bindR]. destruct (parse_f64 _); now eexists. }
  intros e _.
  apply bindR_done. { destruct (S 34 42)%nat as [x X]; [lia|]. eapply parse_float_done, X. } intros a _.
  apply bindR_done. { destruct (S 43 51)%nat as [x X]; [lia|]. eapply parse_float_done, X. } intros m _.
  apply bindR_done. { destruct (S 52 63)%nat as [x X]; [lia|]. eapply parse_float_done, X. } intros no _.
  now eexists.
Qed.

(** a prefix of a decodable line: the fields before the cut decode, the one at the cut panics *)
Lemma int_cut p q n lo hi v : parse_int (p ++ q) n lo hi = Done (Ok v) ->
  if Nat.leb hi (blen p) then parse_int p n lo hi = Done (Ok v) else parse_int p n lo hi = Panic.
Proof.
  intros H. destruct (Nat.leb_spec hi (blen p)).
  - unfold parse_int in *. now rewrite slice_prefix in H.
  - apply parse_int_panic. now apply slice_beyond.
Qed.
Lemma float_cut p q n lo hi v : parse_float (p ++ q) n lo hi = Done (Ok v) ->
  if Nat.leb hi (blen p) then parse_float p n lo hi = Done (Ok v) else parse_float p n lo hi = Panic.
Proof.
  intros H. destruct (Nat.leb_spec hi (blen p)).
  - unfold parse_float in *. now rewrite slice_prefix in H.
  - apply parse_float_panic. now apply slice_beyond.
Qed.
Lemma sliceR_cut p q lo hi v : sliceR (p ++ q) lo hi = Done (Ok v) ->
  if Nat.leb hi (blen p) then sliceR p lo hi = Done (Ok v) else sliceR p lo hi = Panic.
Proof.
  intros H. destruct (Nat.leb_spec hi (blen p)).
  - unfold sliceR in *. now rewrite slice_prefix in H.
  - apply sliceR_panic. now apply slice_beyond.
Qed.
Ltac cut H := first [apply int_cut in H | apply float_cut in H | apply sliceR_cut in H];
  match type of H with (if Nat.leb ?hi ?n then _ else _) => let Z := fresh "CUT" in destruct (Nat.leb_spec hi n) as [Z|Z] end;
  [rewrite H; cbn [bindR]|rewrite H; reflexivity].
Lemma line1_cut p q a : parse_line1 (p ++ q) = Done (Ok a) -> (blen p < 61)%nat -> parse_line1 p = Panic.
Proof.
  unfold parse_line1. intros H N.
  apply bindR_ok in H. destruct H as (x1 & H1 & H). cut H1.
  apply bindR_ok in H. destruct H as (x2 & H2 & H). cut H2.
  apply bindR_ok in H. destruct H as (x3 & H3 & H). cut H3.
  apply bindR_ok in H. destruct H as (x4 & H4 & H). cut H4.
  apply bindR_ok in H. destruct H as (x5 & H5 & H). apply bindR_ok in H. destruct H as (x6 & H6 & _).
  unfold parse_nddot in *. apply bindR_ok in H5. destruct H5 as (y1 & K1 & H5). cut K1.
  apply bindR_ok in H5. destruct H5 as (y2 & K2 & H5). cut K2. rewrite H5. cbn [bindR].
  unfold parse_bstar in *. apply bindR_ok in H6. destruct H6 as (z1 & J1 & H6). cut J1.
  apply bindR_ok in H6. destruct H6 as (z2 & J2 & H6). cut J2.
  apply bindR_ok in H6. destruct H6 as (z3 & J3 & H6). cut J3. lia.
Qed.
Lemma line2_cut p q a : parse_line2 (p ++ q) = Done (Ok a) -> (blen p < 63)%nat -> parse_line2 p = Panic.
Proof.
  unfold parse_line2. intros H N.
  apply bindR_ok in H. destruct H as (x1 & H1 & H). cut H1.
  apply bindR_ok in H. destruct H as (x2 & H2 & H). cut H2.
  apply bindR_ok in H. destruct H as (x3 & H3 & H).
  unfold parse_ecco in *. apply bindR_ok in H3. destruct H3 as (y & K & H3). cut K. rewrite H3. cbn [bindR].
  apply bindR_ok in H. destruct H as (x4 & H4 & H). cut H4.
  apply bindR_ok in H. destruct H as (x5 & H5 & H). cut H5.
  apply bindR_ok in H. destruct H as (x6 & H6 & H). cut H6. lia.
Qed.
Lemma line1_long l a : parse_line1 l = Done (Ok a) -> (61 <= blen l)%nat.
Proof.
  unfold parse_line1. intros H.
  do 5 (apply bindR_ok in H; destruct H as (? & _ & H)). apply bindR_ok in H. destruct H as (x6 & H6 & _).
  unfold parse_bstar in H6. do 2 (apply bindR_ok in H6; destruct H6 as (? & _ & H6)). apply bindR_ok in H6. destruct H6 as (z & J & _).
  apply sliceR_ok, slice_columns, columns_blen in J. lia.
Qed.
Lemma line2_long l a : parse_line2 l = Done (Ok a) -> (63 <= blen l)%nat.
Proof.
  unfold parse_line2. intros H.
  do 5 (apply bindR_ok in H; destruct H as (? & _ & H)). apply bindR_ok in H. destruct H as (x6 & H6 & _).
  apply parse_float_ok in H6. destruct H6 as (xx & J & _). apply slice_columns, columns_blen in J. lia.
Qed.

(** ** no other source of panics or non-termination *)
Context (SANE : zero_sane FO).
Lemma twoline_spec fuel a b :
  match parse_satrec a b with
  | Done (Ok s) => exists s' r, sgp4init fuel s (tle_options s) = Done (s', r) /\
      twoline2satrec fuel a b = Done (match r with Ok _ => Ok s' | Err e => Err (Sgp4InitError e) end)
  | Done (Err e) => twoline2satrec fuel a b = Done (Err e)
  | Panic => twoline2satrec fuel a b = Panic
  | NoFuel => False
  end.
Proof.
  assert (NF : parse_satrec a b <> NoFuel).
  { assert (B : forall A B E (x : outcome (result A E)) (k : A -> outcome (result B E)), x <> NoFuel -> (forall y, k y <> NoFuel) -> bindR x k <> NoFuel).
    { intros A B E [[y|e]| |] k H K; cbn; congruence. }
    assert (I : forall l n lo hi, parse_int l n lo hi <> NoFuel).
    { intros l n lo hi. unfold parse_int. pose proof (slice_no_fuel l lo hi). destruct (slice l lo hi); cbn [bindO]; try congruence. destruct (parse_i64 _); discriminate. }
    assert (Fl : forall l n lo hi, parse_float l n lo hi <> NoFuel).
    { intros l n lo hi. unfold parse_float. pose proof (slice_no_fuel l lo hi). destruct (slice l lo hi); cbn [bindO]; try congruence. destruct (parse_f64 _); discriminate. }
    assert (Sl : forall l lo hi, sliceR l lo hi <> NoFuel).
    { intros l lo hi. unfold sliceR. pose proof (slice_no_fuel l lo hi). destruct (slice l lo hi); cbn [bindO]; congruence. }
    unfold parse_satrec, parse_line1, parse_line2, parse_nddot, parse_bstar, parse_ecco.
    repeat (apply B; [|intros ?]); try apply I; try apply Fl; try apply Sl; try discriminate;
      match goal with |- context [parse_f64 ?x] => destruct (parse_f64 x); discriminate end. }
  unfold twoline2satrec. destruct (parse_satrec a b) as [[s|e]| |]; cbn [bindR]; [|reflexivity|reflexivity|congruence].
  destruct (sgp4init_total SANE fuel s (tle_options s)) as (s' & r & E). exists s', r. split; [exact E|]. rewrite E. cbn [bindO]. now destruct r.
Qed.
Lemma twoline_panic fuel a b : twoline2satrec fuel a b = Panic <-> parse_satrec a b = Panic.
Proof.
  pose proof (twoline_spec fuel a b) as H. destruct (parse_satrec a b) as [[s|e]| |].
  - destruct H as (s' & r & _ & ->). split; discriminate.
  - rewrite H. split; discriminate.
  - now rewrite H.
  - destruct H.
Qed.
Lemma twoline_not_nofuel fuel a b : twoline2satrec fuel a b <> NoFuel.
Proof.
  pose proof (twoline_spec fuel a b) as H. destruct (parse_satrec a b) as [[s|e]| |].
  - destruct H as (s' & r & _ & ->). discriminate.
  - rewrite H. discriminate.
  - now rewrite H.
  - destruct H.
Qed.
Lemma twoline_ok_decodes fuel a b s : twoline2satrec fuel a b = Done (Ok s) -> exists s0, parse_satrec a b = Done (Ok s0).
Proof. unfold twoline2satrec. intros H. apply bindR_ok in H. destruct H as (s0 & H & _). now exists s0. Qed.
Lemma twoline_fuel n m a b : twoline2satrec n a b = twoline2satrec m a b.
Proof. unfold twoline2satrec. destruct (parse_satrec a b) as [[s|e]| |]; cbn [bindR]; [rewrite (sgp4init_fuel SANE n m)|..]; reflexivity. Qed.
End S.
