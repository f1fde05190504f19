(** * C36: parse_multiple decodes a catalogue of named sets *)
From Coq Require Import ZArith List Bool String Lia.
From Verif.Model Require Import Float Str Satrec Constants Sgp4 Sgp4init Io.
From Verif.Inst Require Import B64.
From Verif.Golden Require Import Flat.
From Verif.Spec Require Import TextSpec.
From Verif.Proofs Require Import StrFacts TextFacts IoFacts ParseFacts.
From Verif.Props Require Import C25 C27 C34 C35.
Import ListNotations.
Local Open Scope Z_scope.

Section Spec.
Context {F : Type} {FO : FloatOps F}.
Notation res := (result (Satrec F) SatrecParseError).
(** An entry of a catalogue: name line and two element lines. *)
Record set3 := Set3 { s_name : str; s_one : str; s_two : str }.
Definition lines3 (es : list set3) : list str := flat_map (fun e => [s_name e; s_one e; s_two e]) es.
(** What the entry decodes to on its own. *)
Definition decodes (fuel : nat) (e : set3) (r : res) : Prop :=
  blen (trim (s_name e)) <> 25%nat /\
  exists x r0, line_name (s_name e) x /\ twoline2satrec fuel (s_one e) (s_two e) = Done r0 /\
    r = match r0 with Ok s => Ok (set_name (Some (trim x)) s) | Err err => Err err end.
(** The records, and the errors numbered by the first line of their entry (3 lines each). *)
Definition records (rs : list res) : list (Satrec F) := flat_map (fun r => match r with Ok s => [s] | Err _ => [] end) rs.
Fixpoint errors3 (k : nat) (rs : list res) : list SatrecParseError :=
  match rs with
  | [] => []
  | r :: rest => match r with Ok _ => [] | Err e => [SatrecMultiError (3 * k) e] end ++ errors3 (S k) rest
  end.

Lemma multi3 fuel es rs : Forall2 (decodes fuel) es rs -> forall n k recs errs,
  (List.length (lines3 es) <= n)%nat -> Forall (fun p => blank p = false) (lines3 es) -> (forall p c, In p (lines3 es) -> In c p -> 0 <= c) ->
  multi_loop n fuel (3 * k) (lines3 es) recs errs = Done (rev recs ++ records rs, rev errs ++ errors3 k rs).
Proof.
  induction 1 as [|e r es rs D _ IH]; intros n k recs errs Hn B P.
  - cbn [lines3 flat_map records errors3]. now rewrite multi_nil, !app_nil_r.
  - destruct D as (N25 & x & r0 & X & T & ->). change (lines3 (e :: es)) with (s_name e :: s_one e :: s_two e :: lines3 es) in *.
    cbn [List.length] in Hn. destruct n as [|n]; [lia|]. rewrite multi_step by (discriminate || assumption). cbn [group].
    destruct (Nat.eqb_spec (blen (trim (s_name e))) 25); [contradiction|]. rewrite T. cbn [bindO].
    assert (NE : name_of (s_name e) = Some x).
    { apply name_of_spec; [|intros c; apply P; now left|exact X]. intros Z. apply Forall_cons_iff in B. rewrite Z in B. now destruct B. }
    assert (B' : Forall (fun p => blank p = false) (lines3 es)) by (do 3 apply Forall_inv_tail in B; exact B).
    assert (P' : forall p c, In p (lines3 es) -> In c p -> 0 <= c) by (intros p c Hp; apply P; do 3 right; exact Hp).
    replace (3 * k + 3)%nat with (3 * S k)%nat by lia.
    destruct r0 as [s|err]; cbn [named]; [rewrite NE|]; cbn [bindO push fst snd skipn]; rewrite IH by (assumption || lia); cbn [records errors3 flat_map rev app].
    + now rewrite <- app_assoc.
    + now rewrite <- !app_assoc.
Qed.
End Spec.

(** A text whose non-blank lines are any number of named sets decodes to exactly those sets. *)
Theorem C36_catalogue :
  forall (F : Type) (FO : FloatOps F) fuel (ps : list str) (es : list set3) (rs : list (result (Satrec F) SatrecParseError)),
    Forall one_line ps -> (forall p c, In p ps -> In c p -> 0 <= c) ->
    content ps = lines3 es -> Forall2 (decodes fuel) es rs ->
    parse_multiple fuel (join ps) = Done (records rs, errors3 0 rs).
Proof.
  intros F FO fuel ps es rs O P C D. rewrite parse_multiple_lines, C by assumption. pose proof (content_forall ps) as B. rewrite C in B.
  apply (multi3 fuel es rs D _ 0 [] []); [lia|exact B|]. intros p c Hp. apply P. rewrite <- C in Hp. now apply content_in in Hp.
Qed.
Print Assumptions C36_catalogue.

(** Entries are independent: replacing one entry by another changes only that entry's record or error. *)
Theorem C36_entries_are_independent :
  forall (F : Type) (FO : FloatOps F) fuel (ps qs : list str) (es1 es2 : list set3) (e e' : set3)
    (rs1 rs2 : list (result (Satrec F) SatrecParseError)) r r',
    Forall one_line ps -> (forall p c, In p ps -> In c p -> 0 <= c) ->
    Forall one_line qs -> (forall p c, In p qs -> In c p -> 0 <= c) ->
    content ps = lines3 (es1 ++ e :: es2) -> content qs = lines3 (es1 ++ e' :: es2) ->
    Forall2 (decodes fuel) es1 rs1 -> Forall2 (decodes fuel) es2 rs2 -> decodes fuel e r -> decodes fuel e' r' ->
    let one (r : result (Satrec F) SatrecParseError) := match r with Ok s => [s] | Err _ => [] end in
    let fault (r : result (Satrec F) SatrecParseError) := match r with Ok _ => [] | Err err => [SatrecMultiError (3 * List.length es1) err] end in
    exists errs1 errs2,
      parse_multiple fuel (join ps) = Done (records rs1 ++ one r ++ records rs2, errs1 ++ fault r ++ errs2) /\
      parse_multiple fuel (join qs) = Done (records rs1 ++ one r' ++ records rs2, errs1 ++ fault r' ++ errs2).
Proof.
  intros F FO fuel ps qs es1 es2 e e' rs1 rs2 r r' Op Pp Oq Pq Cp Cq D1 D2 D D' one fault.
  exists (errors3 0 rs1), (errors3 (S (List.length rs1)) rs2).
  assert (E3 : forall k (a b : list (result (Satrec F) SatrecParseError)), errors3 k (a ++ b) = errors3 k a ++ errors3 (k + List.length a) b).
  { intros k a b. revert k. induction a as [|x a IH]; intros k; cbn [app errors3 List.length]; [now rewrite Nat.add_0_r|].
    rewrite IH, app_assoc. do 2 f_equal. lia. }
  assert (L : List.length es1 = List.length rs1) by (clear -D1; induction D1; cbn; congruence).
  rewrite (C36_catalogue F FO fuel ps _ (rs1 ++ r :: rs2) Op Pp Cp), (C36_catalogue F FO fuel qs _ (rs1 ++ r' :: rs2) Oq Pq Cq) by (apply Forall2_app; [|constructor]; assumption).
  unfold records. rewrite !flat_map_app, !E3. cbn [flat_map errors3 Nat.add]. unfold fault. rewrite L. now split.
Qed.
Print Assumptions C36_entries_are_independent.

(** The first line of a set has at least 36 bytes between its first and last visible character. *)
Lemma line1_width (F : Type) (FO : FloatOps F) l (a : Line1 (F := F)) : parse_line1 l = Done (Ok a) -> (36 <= blen (trim l))%nat.
Proof.
  intros H. assert (V : forall x v, parse_i64 (trim x) = Some v -> forallb is_ws x <> true).
  { intros x v E W. unfold trim in E. rewrite (trim_start_all x W) in E. discriminate E. }
  destruct (trim_parts l) as (w1 & w2 & E & W1 & W2).
  assert (H' := H). apply parse_line1_inv in H'. destruct H' as (x1 & x2 & x3 & x4 & yr & nd & _ & _ & S2 & P2 & _).
  apply V in P2. apply slice_columns in S2. destruct S2 as (p & q & Ep & Lp & Lx).
  assert (A : (blen w1 < 20)%nat).
  { destruct (Nat.lt_ge_cases (blen w1) 20) as [Z|Z]; [exact Z|exfalso].
    assert (Eq : w1 ++ (trim l ++ w2) = (p ++ x2) ++ q) by (rewrite <- app_assoc; congruence).
    destruct (app_split w1 (trim l ++ w2) (p ++ x2) q Eq) as (m & -> & _).
    - apply (blen_len_le _ q _ _ Eq). rewrite blen_app. lia.
    - rewrite !forallb_app in W1. destruct (forallb is_ws x2); [now apply P2|]. rewrite !andb_false_r in W1. discriminate W1. }
  assert (S5 : exists x v, columns l 54 59 x /\ parse_i64 (trim x) = Some v).
  { unfold parse_line1 in H. do 6 (apply bindR_ok in H; destruct H as (? & ?K & H)). unfold parse_bstar in K4.
    apply bindR_ok in K4. destruct K4 as (? & _ & K4). apply bindR_ok in K4. destruct K4 as (v & K4 & _).
    apply parse_int_ok in K4. destruct K4 as (bx & S & P). exists bx, v. split; [now apply slice_columns|exact P]. }
  destruct S5 as (x & v & (p' & q' & Ep' & Lp' & Lx') & P5). apply V in P5.
  assert (Bd : (54 < blen (w1 ++ trim l))%nat).
  { destruct (Nat.lt_ge_cases 54 (blen (w1 ++ trim l))) as [Z|Z]; [exact Z|exfalso].
    destruct (app_split p' (x ++ q') (w1 ++ trim l) w2) as (m & _ & ->).
    - rewrite <- app_assoc. congruence.
    - apply (blen_len_le _ w2 _ (x ++ q')); [rewrite <- app_assoc; congruence|lia].
    - rewrite !forallb_app in W2. destruct (forallb is_ws x); [now apply P5|]. rewrite !andb_false_r in W2. discriminate W2. }
  rewrite blen_app in Bd. lia.
Qed.
(** The defect: a name line of exactly 25 bytes (trimmed) is taken for the first element line, so its
    entry can never be decoded: the whole call panics or reports an error for it. *)
Theorem C36_names_of_25_bytes_break :
  forall (F : Type) (FO : FloatOps F) fuel (ps : list str) (n a b : str) (rest : list str) recs errs,
    Forall one_line ps -> content ps = n :: a :: b :: rest -> blen (trim n) = 25%nat ->
    parse_multiple (FO := FO) fuel (join ps) = Done (recs, errs) ->
    exists e errs', errs = SatrecMultiError 0 e :: errs' /\ twoline2satrec (FO := FO) fuel n a = Done (Err e).
Proof.
  intros F FO fuel ps n a b rest recs errs O C N H. rewrite parse_multiple_lines in H by assumption. pose proof (content_forall ps) as B. rewrite C in *.
  change (List.length (n :: a :: b :: rest)) with (S (S (S (List.length rest)))) in H. rewrite multi_step in H by (discriminate || assumption).
  cbn [group] in H. rewrite N in H. change (25 =? 25)%nat with true in H. cbv iota in H.
  destruct (twoline2satrec fuel n a) as [[s|e]| |] eqn:T; cbn [bindO] in H; [exfalso| |discriminate H|discriminate H].
  - unfold twoline2satrec in T. apply bindR_ok in T. destruct T as (s0 & T & _). apply parse_satrec_inv in T. destruct T as (x & y & T & _ & _).
    apply line1_width in T. lia.
  - cbv zeta in H. cbn [push fst snd skipn] in H.
    assert (G : forall m i ls recs0 errs0, multi_loop m fuel i ls recs0 errs0 = Done (recs, errs) -> Forall (fun p => blank p = false) ls -> exists t, errs = rev errs0 ++ t).
    { clear. induction m as [|m IH]; intros i ls recs0 errs0 H B.
      - destruct ls; [|discriminate H]. rewrite multi_nil in H. injection H as _ <-. exists []. now rewrite app_nil_r.
      - destruct ls as [|l ls]; [rewrite multi_nil in H; injection H as _ <-; exists []; now rewrite app_nil_r|].
        rewrite multi_step in H by (discriminate || assumption). destruct (group fuel (l :: ls)) as [k o]. destruct o as [r| |]; cbn [bindO] in H; [|discriminate H|discriminate H].
        cbv zeta in H. apply IH in H.
        + destruct H as [t ->]. destruct r; cbn [push snd]; [now exists t|]. cbn [rev]. rewrite <- app_assoc. now eexists.
        + rewrite <- (firstn_skipn k (l :: ls)) in B. apply Forall_app in B. apply B. }
    apply G in H; [|now do 2 apply Forall_inv_tail in B]. destruct H as [t ->]. exists e, t. now split.
Qed.
Print Assumptions C36_names_of_25_bytes_break.

(** Non-vacuity: a catalogue with a blank line, a good entry, a bad one, and another good one. *)
Definition es := [Set3 (of_string "ISS (ZARYA)") iss1 iss2; Set3 (of_string "BAD") junk1 iss2; Set3 (of_string "0 COPY") iss1 iss2].
Definition shows (n : string) (s : Satrec b64) := match sr_name s with Some x => str_eqb x (of_string n) | None => false end.
Example C36_example :
  match @parse_multiple _ (B64Ops flat_lm) 0 (join ([] :: lines3 es ++ [of_string "  "])) with
  | Done ([a; b], [SatrecMultiError 3 (IntParseError _ 18 20 _)]) => shows "ISS (ZARYA)" a && shows "COPY" b | _ => false end = true.
Proof. vm_compute. reflexivity. Qed.
(** A first name of 25 characters: the decoder is run on the name line, and the second element line is left over. *)
Example C36_example_25 :
  match @parse_multiple _ (B64Ops flat_lm) 0 (join (lines3 [Set3 (of_string "ABCDEFGHIJKLMNOPQRSTUVWXY") iss1 iss2])) with
  | Done ([], [SatrecMultiError 0 (IntParseError _ 18 20 _); SatrecMultiError 2 InvalidTLEBadLineCount]) => true | _ => false end = true.
Proof. vm_compute. reflexivity. Qed.
