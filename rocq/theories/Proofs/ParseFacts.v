(** * parse and parse_multiple over the lines of a text *)
From Coq Require Import ZArith List Bool String Lia.
From Verif.Model Require Import Float Str Satrec Constants Sgp4 Sgp4init Io.
From Verif.Spec Require Import TextSpec.
From Verif.Proofs Require Import StrFacts IoFacts TextFacts InitTotal PanicFacts.
Import ListNotations.
Local Open Scope Z_scope.

Definition starts (c : Z) (p : str) : Prop := exists r, p = c :: r.
Lemma starts_dec c p : {starts c p} + {~ starts c p}.
Proof.
  destruct p as [|d r]; [right; intros [r H]; discriminate|]. destruct (Z.eq_dec d c) as [->|N]; [left; now exists r|].
  right. intros [r' H]. congruence.
Qed.
(** what [parse] makes of a name line: [None] when it panics *)
Definition name_of (n : str) : option str :=
  match n with
  | c :: r => if c =? 48 then match r with
                              | d :: q => if d <? 128 then Some q else None
                              | [] => None
                              end
              else Some n
  | [] => Some n
  end.

Section S.
Context {F : Type} {FO : FloatOps F}.

Lemma line_check_spec a b : blank a = false -> blank b = false ->
  line_check a b = Done (if starts_dec 49 a then if starts_dec 50 b then true else false else false).
Proof.
  intros A B. destruct (nonblank_nonempty a A) as (c & r & ->). destruct (nonblank_nonempty b B) as (d & q & ->).
  unfold line_check. rewrite starts_spec by lia. cbn [bindO]. destruct (starts_dec 49 (c :: r)) as [[r' S]|S].
  - injection S as -> ->. rewrite Z.eqb_refl. cbn [negb]. rewrite starts_spec by lia. destruct (starts_dec 50 (d :: q)) as [[q' T]|T].
    + injection T as -> ->. reflexivity.
    + f_equal. apply Z.eqb_neq. intros ->. apply T. now exists q.
  - replace (c =? 49) with false; [reflexivity|]. symmetry. apply Z.eqb_neq. intros ->. apply S. now exists r.
Qed.
Lemma slice_from_2 c r : c < 128 -> slice_from (c :: r) 2 = match r with d :: q => if d <? 128 then Done q else Panic | [] => Panic end.
Proof.
  intros C. unfold slice_from. cbn [bskip]. assert (E : len_utf8 c = 1%nat) by (unfold len_utf8; destruct (Z.ltb_spec c 128); [reflexivity|lia]).
  rewrite E. cbn [Nat.leb Nat.sub bskip]. destruct r as [|d q]; [reflexivity|].
  cbn [bskip]. unfold len_utf8. destruct (d <? 128); [now destruct q|].
  destruct (d <? 2048), (d <? 65536); reflexivity.
Qed.
Lemma parse_name_spec n : n <> [] -> parse_name n = match name_of n with Some x => Done x | None => Panic end.
Proof.
  destruct n as [|c r]; [congruence|]. intros _. unfold parse_name. rewrite starts_spec by lia. cbn [bindO name_of].
  destruct (Z.eqb_spec c 48) as [->|N]; [|reflexivity]. rewrite slice_from_2 by lia. destruct r as [|d q]; [reflexivity|]. now destruct (d <? 128).
Qed.
Lemma multi_name_spec n : n <> [] -> multi_name n = match name_of n with Some x => Done (trim x) | None => Panic end.
Proof.
  destruct n as [|c r]; [congruence|]. intros _. unfold multi_name. rewrite starts_spec by lia. cbn [bindO name_of].
  destruct (Z.eqb_spec c 48) as [->|N]; [|reflexivity]. rewrite slice_from_2 by lia. destruct r as [|d q]; [reflexivity|]. now destruct (d <? 128).
Qed.
Lemma content_nb ps p : In p (content ps) -> blank p = false.
Proof. intros H. now apply content_in in H. Qed.

(** ** parse *)
Lemma parse_three fuel ps n a b : Forall one_line ps -> content ps = [n; a; b] ->
  parse fuel (join ps) =
    if starts_dec 49 a then if starts_dec 50 b then
      try! s <- twoline2satrec fuel a b;
      match name_of n with Some x => Done (Ok (set_name (Some x) s)) | None => Panic end
    else Done (Err InvalidTLELineCheckFailed) else Done (Err InvalidTLELineCheckFailed).
Proof.
  intros O C. unfold parse. rewrite text_lines_join, C by assumption.
  assert (Bn : blank n = false) by (apply (content_nb ps); rewrite C; cbn; auto).
  assert (Ba : blank a = false) by (apply (content_nb ps); rewrite C; cbn; auto).
  assert (Bb : blank b = false) by (apply (content_nb ps); rewrite C; cbn; auto).
  rewrite line_check_spec by assumption. cbn [bindO]. destruct (starts_dec 49 a); [|reflexivity]. destruct (starts_dec 50 b); [|reflexivity]. cbn [negb].
  destruct (nonblank_nonempty n Bn) as (c & r & ->). rewrite parse_name_spec by discriminate.
  destruct (twoline2satrec fuel a b) as [[sx|ex]| |]; cbn [bindR]; [|reflexivity|reflexivity|reflexivity]. destruct (name_of (c :: r)); reflexivity.
Qed.
Lemma parse_two fuel ps a b : Forall one_line ps -> content ps = [a; b] ->
  parse fuel (join ps) =
    if starts_dec 49 a then if starts_dec 50 b then twoline2satrec fuel a b
    else Done (Err InvalidTLELineCheckFailed) else Done (Err InvalidTLELineCheckFailed).
Proof.
  intros O C. unfold parse. rewrite text_lines_join, C by assumption.
  assert (Ba : blank a = false) by (apply (content_nb ps); rewrite C; cbn; auto).
  assert (Bb : blank b = false) by (apply (content_nb ps); rewrite C; cbn; auto).
  rewrite line_check_spec by assumption. cbn [bindO]. destruct (starts_dec 49 a); [|reflexivity]. destruct (starts_dec 50 b); reflexivity.
Qed.
Lemma parse_other fuel ps : Forall one_line ps -> List.length (content ps) <> 2%nat -> List.length (content ps) <> 3%nat ->
  parse fuel (join ps) = Done (Err InvalidTLEBadLineCount).
Proof.
  intros O L2 L3. unfold parse. rewrite text_lines_join by assumption.
  destruct (content ps) as [|a [|b [|c [|d r]]]]; cbn in L2, L3; try reflexivity; congruence.
Qed.

(** ** parse_multiple: one group at a time *)
Definition named (n : str) (r : result (Satrec F) SatrecParseError) : outcome (result (Satrec F) SatrecParseError) :=
  match r with
  | Ok s => match name_of n with Some x => Done (Ok (set_name (Some (trim x)) s)) | None => Panic end
  | Err e => Done (Err e)
  end.
Definition push (i : nat) (r : result (Satrec F) SatrecParseError) (acc : list (Satrec F) * list SatrecParseError) :=
  match r with Ok s => (s :: fst acc, snd acc) | Err e => (fst acc, SatrecMultiError i e :: snd acc) end.
(** size, and decoding, of the group starting at the head of the lines *)
Definition group (fuel : nat) (ls : list str) : nat * outcome (result (Satrec F) SatrecParseError) :=
  match ls with
  | l0 :: l1 :: l2 :: _ =>
      if Nat.eqb (blen (trim l0)) 25 then (2%nat, twoline2satrec fuel l0 l1)
      else (3%nat, bindO (twoline2satrec fuel l1 l2) (named l0))
  | l0 :: l1 :: _ => (2%nat, twoline2satrec fuel l0 l1)
  | _ => (1%nat, Done (Err InvalidTLEBadLineCount))
  end.
Lemma multi_step n fuel i ls recs errs : ls <> [] -> Forall (fun p => blank p = false) ls ->
  multi_loop (S n) fuel i ls recs errs =
  let (k, o) := group fuel ls in
  do! r <- o;
  let acc := push i r (recs, errs) in
  multi_loop n fuel (i + k) (skipn k ls) (fst acc) (snd acc).
Proof.
  intros N B. destruct ls as [|l0 [|l1 [|l2 r]]]; [congruence|reflexivity| |].
  - cbn [group multi_loop skipn]. destruct (twoline2satrec fuel l0 l1) as [[s|e]| |]; reflexivity.
  - cbn [group multi_loop]. unfold not25. destruct (Nat.eqb (blen (trim l0)) 25); cbn [negb skipn].
    + destruct (twoline2satrec fuel l0 l1) as [[s|e]| |]; reflexivity.
    + destruct (twoline2satrec fuel l1 l2) as [[s|e]| |]; [|reflexivity|reflexivity|reflexivity]. cbn [bindO named].
      apply Forall_cons_iff in B. destruct B as [B0 _]. destruct (nonblank_nonempty l0 B0) as (c & q & ->). rewrite multi_name_spec by discriminate.
      destruct (name_of (c :: q)); reflexivity.
Qed.
Lemma group_size fuel ls : ls <> [] -> (1 <= fst (group fuel ls) <= 3)%nat /\ (fst (group fuel ls) <= List.length ls)%nat.
Proof.
  destruct ls as [|l0 [|l1 [|l2 r]]]; [congruence|..]; intros _; cbn [group fst List.length]; [lia|lia|].
  destruct (Nat.eqb (blen (trim l0)) 25); cbn [fst]; lia.
Qed.
Lemma multi_nil n fuel i recs errs : multi_loop n fuel i [] recs errs = Done (rev recs, rev errs).
Proof. now destruct n. Qed.
(** spare iterations change nothing *)
Lemma multi_enough n m fuel i ls recs errs : (List.length ls <= n)%nat -> (List.length ls <= m)%nat -> Forall (fun p => blank p = false) ls ->
  multi_loop n fuel i ls recs errs = multi_loop m fuel i ls recs errs.
Proof.
  revert m i ls recs errs. induction n as [|n IH]; intros m i ls recs errs Hn Hm B.
  - destruct ls; [|cbn in Hn; lia]. now rewrite !multi_nil.
  - destruct ls as [|l ls]; [now rewrite !multi_nil|]. destruct m as [|m]; [cbn in Hm; lia|].
    rewrite !multi_step by (discriminate || assumption). pose proof (group_size fuel (l :: ls) ltac:(discriminate)) as G.
    destruct (group fuel (l :: ls)) as [k o]. cbn [fst] in G. destruct o as [r| |]; cbn [bindO]; [|reflexivity|reflexivity]. cbv zeta.
    apply IH.
    + rewrite skipn_length. lia.
    + rewrite skipn_length. lia.
    + rewrite <- (firstn_skipn k (l :: ls)) in B. apply Forall_app in B. apply B.
Qed.
Lemma content_forall ps : Forall (fun p => blank p = false) (content ps).
Proof. apply Forall_forall. intros p. apply content_nb. Qed.
Lemma parse_multiple_lines fuel ps : Forall one_line ps ->
  parse_multiple fuel (join ps) = multi_loop (List.length (content ps)) fuel 0 (content ps) [] [].
Proof. intros O. unfold parse_multiple. cbv zeta. now rewrite text_lines_join. Qed.
End S.
