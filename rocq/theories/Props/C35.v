(** * C35: parse_multiple accounts for every line *)
From Coq Require Import ZArith List Bool String Lia Sorted.
From Verif.Model Require Import Float Str Satrec Constants Sgp4 Sgp4init Io.
From Verif.Inst Require Import B64.
From Verif.Golden Require Import Flat.
From Verif.Spec Require Import TextSpec.
From Verif.Proofs Require Import StrFacts TextFacts IoFacts ParseFacts.
From Verif.Props Require Import C25 C34.
Import ListNotations.
Local Open Scope Z_scope.

Section Spec.
Context {F : Type} {FO : FloatOps F}.
Notation res := (result (Satrec F) SatrecParseError).
(** A group of consecutive lines and what it yields. *)
Definition entry := (list str * res)%type.
(** the records of a list of results, and the errors, each with the number of lines before its group *)
Definition oks (rs : list res) : list (Satrec F) := flat_map (fun r => match r with Ok s => [s] | Err _ => [] end) rs.
Fixpoint errors_at (i : nat) (gs : list entry) : list SatrecParseError :=
  match gs with
  | [] => []
  | (ls, r) :: rest => match r with Ok _ => [] | Err e => [SatrecMultiError i e] end ++ errors_at (i + List.length ls) rest
  end.
(** what one group of lines may yield; [last]: the group ends the text *)
Definition yields (fuel : nat) (last : Prop) (g : entry) : Prop :=
  match g with
  | ([n; a; b], r) => blen (trim n) <> 25%nat /\
      ((exists s x, twoline2satrec fuel a b = Done (Ok s) /\ line_name n x /\ r = Ok (set_name (Some (trim x)) s)) \/
       (exists e, twoline2satrec fuel a b = Done (Err e) /\ r = Err e))
  | ([a; b], r) => twoline2satrec fuel a b = Done r /\ (blen (trim a) = 25%nat \/ last)
  | ([a], r) => r = Err InvalidTLEBadLineCount /\ last
  | _ => False
  end.
Fixpoint all_yield (fuel : nat) (gs : list entry) : Prop :=
  match gs with [] => True | g :: rest => yields fuel (rest = []) g /\ all_yield fuel rest end.

Lemma group_yields fuel ls r : ls <> [] -> Forall (fun p => blank p = false) ls -> (forall p c, In p ls -> In c p -> 0 <= c) ->
  snd (group fuel ls) = Done r -> forall last : Prop, (skipn (fst (group fuel ls)) ls = [] -> last) ->
  yields fuel last (firstn (fst (group fuel ls)) ls, r).
Proof.
  intros N B P. destruct ls as [|l0 [|l1 [|l2 q]]]; [congruence|..]; cbn [group].
  - cbn [fst snd]. intros H last HL. injection H as <-. cbn. split; [reflexivity|]. now apply HL.
  - cbn [fst snd]. intros H last HL. cbn. split; [exact H|]. right. now apply HL.
  - destruct (Nat.eqb_spec (blen (trim l0)) 25) as [E|E]; cbn [fst snd firstn]; intros H last HL; cbn [yields].
    + split; [exact H|now left].
    + split; [exact E|]. destruct (twoline2satrec fuel l1 l2) as [[s|e]| |] eqn:T; cbn [bindO named] in H; [|injection H as <-; right; now exists e|discriminate H|discriminate H].
      destruct (name_of l0) as [x|] eqn:X; [|discriminate H]. injection H as <-. left. exists s, x. split; [reflexivity|]. split; [|reflexivity].
      apply name_of_spec; [|intros c; apply P; now left|exact X]. intros ->. apply Forall_cons_iff in B. destruct B as [B _]. discriminate B.
Qed.
Lemma multi_groups n fuel i ls recs errs R E : (List.length ls <= n)%nat -> Forall (fun p => blank p = false) ls -> (forall p c, In p ls -> In c p -> 0 <= c) ->
  multi_loop n fuel i ls recs errs = Done (R, E) ->
  exists gs : list entry, List.concat (map fst gs) = ls /\ all_yield fuel gs /\
    R = rev recs ++ oks (map snd gs) /\ E = rev errs ++ errors_at i gs.
Proof.
  revert i ls recs errs. induction n as [|n IH]; intros i ls recs errs Hn B P H.
  - destruct ls; [|cbn in Hn; lia]. rewrite multi_nil in H. injection H as <- <-. exists []. cbn. now rewrite !app_nil_r.
  - destruct (list_eq_dec (list_eq_dec Z.eq_dec) ls []) as [->|N].
    { rewrite multi_nil in H. injection H as <- <-. exists []. cbn. now rewrite !app_nil_r. }
    rewrite multi_step in H by assumption. pose proof (group_size fuel ls N) as G. pose proof (group_yields fuel ls) as Y.
    destruct (group fuel ls) as [k o]. cbn [fst snd] in *. destruct o as [r| |]; cbn [bindO] in H; [|discriminate H|discriminate H]. cbv zeta in H.
    specialize (Y r N B P eq_refl).
    assert (SP : firstn k ls ++ skipn k ls = ls) by apply firstn_skipn.
    apply IH in H.
    + destruct H as (gs & C & A & ER & EE). exists ((firstn k ls, r) :: gs). split; [cbn; now rewrite C|].
      assert (LK : List.length (firstn k ls) = k) by (apply firstn_length_le; lia).
      split.
      { cbn [all_yield]. split; [|exact A]. apply Y. intros Z. destruct gs as [|g gs]; [reflexivity|exfalso].
        rewrite Z in C. cbn [map List.concat] in C. apply app_eq_nil in C. destruct C as [C _]. destruct g as [gl gr]. cbn [fst] in C. subst gl.
        cbn [all_yield yields] in A. now destruct A. }
      cbn [map errors_at oks flat_map]. rewrite LK. change (snd (firstn k ls, r)) with r. split.
      * rewrite ER. unfold oks. destruct r; cbn [push fst snd rev]; [now rewrite <- app_assoc|reflexivity].
      * rewrite EE. destruct r; cbn [push fst snd rev]; [reflexivity|now rewrite <- app_assoc].
    + rewrite skipn_length. lia.
    + rewrite <- SP in B. apply Forall_app in B. apply B.
    + intros p c Hp. apply P. rewrite <- SP. apply in_or_app. now right.
Qed.
Definition error_index (e : SatrecParseError) : nat := match e with SatrecMultiError i _ => i | _ => 0%nat end.
Lemma errors_at_ge i gs : Forall (fun e => (i <= error_index e)%nat) (errors_at i gs).
Proof.
  revert i. induction gs as [|[ls r] gs IH]; intros i; cbn [errors_at]; [constructor|]. apply Forall_app. split.
  - destruct r; [constructor|]. constructor; [cbn; lia|constructor].
  - eapply Forall_impl; [|apply IH]. cbn. intros e. lia.
Qed.
Lemma errors_sorted fuel i gs : all_yield fuel gs -> StronglySorted lt (map error_index (errors_at i gs)).
Proof.
  revert i. induction gs as [|[ls r] gs IH]; intros i A; cbn [errors_at]; [constructor|]. destruct A as [Y A]. specialize (IH (i + List.length ls)%nat A).
  destruct r; cbn [app map]; [exact IH|]. constructor; [exact IH|]. apply Forall_forall. intros j J. apply in_map_iff in J. destruct J as (e' & <- & J).
  pose proof (errors_at_ge (i + List.length ls) gs) as G. rewrite Forall_forall in G. specialize (G e' J). cbn [error_index].
  assert (1 <= List.length ls)%nat; [|lia]. destruct ls; [destruct Y|cbn; lia].
Qed.
Lemma count_entries i (gs : list entry) : (List.length (oks (map snd gs)) + List.length (errors_at i gs) = List.length gs)%nat.
Proof.
  revert i. induction gs as [|[ls r] gs IH]; intros i; cbn [map errors_at oks flat_map List.length]; [reflexivity|].
  specialize (IH (i + List.length ls)%nat). unfold oks in IH. rewrite !app_length. cbn [snd]. destruct r; cbn [List.length]; lia.
Qed.
End Spec.

(** The non-blank lines are cut into consecutive groups; the records returned are those of the
    groups that decode, in order; the errors are those of the others, in order, each carrying the
    number of non-blank lines before its group; nothing is skipped or counted twice. *)
Theorem C35_every_line_is_accounted_for :
  forall (F : Type) (FO : FloatOps F) fuel (ps : list str) (recs : list (Satrec F)) (errs : list SatrecParseError),
    Forall one_line ps -> (forall p c, In p ps -> In c p -> 0 <= c) ->
    parse_multiple fuel (join ps) = Done (recs, errs) ->
    exists gs : list entry,
      List.concat (map fst gs) = content ps /\ all_yield fuel gs /\
      recs = oks (map snd gs) /\ errs = errors_at 0 gs /\
      (List.length recs + List.length errs = List.length gs)%nat /\
      StronglySorted lt (map error_index errs).
Proof.
  intros F FO fuel ps recs errs O P H. rewrite parse_multiple_lines in H by assumption.
  assert (P' : forall p c, In p (content ps) -> In c p -> 0 <= c) by (intros p c Hp; apply P; now apply content_in in Hp).
  destruct (multi_groups _ fuel 0 _ _ _ _ _ (le_n _) (content_forall ps) P' H) as (gs & C & A & ER & EE).
  cbn [rev app] in ER, EE. subst. exists gs. repeat split; try assumption.
  - apply count_entries.
  - now apply (errors_sorted fuel).
Qed.
Print Assumptions C35_every_line_is_accounted_for.

(** Non-vacuity: a text with a good set, a set whose elements are garbage, and a lone line at the end. *)
Definition junk1 := of_string "1 25544U 98067A   xx170.35562296  .00016717  00000-0  10270-3 0  9003".
Example C35_example :
  match @parse_multiple _ (B64Ops flat_lm) 0 (join [of_string "A"; iss1; iss2; of_string "B"; junk1; iss2; of_string "C"]) with
  | Done ([_], [SatrecMultiError 3 (IntParseError _ 18 20 _); SatrecMultiError 6 InvalidTLEBadLineCount]) => true | _ => false end = true.
Proof. vm_compute. reflexivity. Qed.
