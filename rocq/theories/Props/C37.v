(** * C37: parse_multiple on unnamed sets *)
From Coq Require Import ZArith List Bool String Lia.
From Verif.Model Require Import Float Str Satrec Constants Sgp4 Sgp4init Io.
From Verif.Inst Require Import B64.
From Verif.Golden Require Import Flat.
From Verif.Spec Require Import TextSpec.
From Verif.Proofs Require Import StrFacts TextFacts IoFacts ParseFacts.
From Verif.Props Require Import C25 C27 C34 C35 C36.
Import ListNotations.
Local Open Scope Z_scope.

(** A single unnamed set decodes to its own outcome. *)
Theorem C37_single_set :
  forall (F : Type) (FO : FloatOps F) fuel (ps : list str) (a b : str) (r : result (Satrec F) SatrecParseError),
    Forall one_line ps -> content ps = [a; b] -> twoline2satrec fuel a b = Done r ->
    parse_multiple fuel (join ps) =
      Done (match r with Ok s => ([s], []) | Err e => ([], [SatrecMultiError 0 e]) end).
Proof.
  intros F FO fuel ps a b r O C T. rewrite parse_multiple_lines by assumption. pose proof (content_forall ps) as B. rewrite C in *.
  cbn [List.length]. rewrite multi_step by (discriminate || assumption). cbn [group]. rewrite T. cbn [bindO skipn]. cbv zeta. rewrite multi_nil. now destruct r.
Qed.
Print Assumptions C37_single_set.

Section Facts.
Context {F : Type} {FO : FloatOps F}.
Lemma no_record_25 fuel a b (s : Satrec F) : twoline2satrec fuel a b = Done (Ok s) -> blen (trim a) <> 25%nat.
Proof.
  intros T. unfold twoline2satrec in T. apply bindR_ok in T. destruct T as (s0 & T & _). apply parse_satrec_inv in T. destruct T as (x & y & T & _ & _).
  apply line1_width in T. lia.
Qed.
Definition weigh (gs : list (entry (F := F))) : nat := List.length (List.concat (map fst gs)).
Lemma yields_weight fuel (g : entry (F := F)) (gs : list (entry (F := F))) : yields fuel (gs = []) g ->
  match snd g with
  | Ok s => (List.length (fst g) = 3%nat /\ exists x, sr_name s = Some x) \/ (List.length (fst g) = 2%nat /\ gs = [])
  | Err _ => (1 <= List.length (fst g))%nat
  end.
Proof.
  destruct g as [ls r]. cbn [fst snd]. destruct ls as [|l0 [|l1 [|l2 [|l3 q]]]]; cbn [yields List.length]; intros H; try contradiction.
  - destruct H as [-> _]. lia.
  - destruct H as [T H]. destruct r as [s|e]; [|lia]. right. split; [reflexivity|]. destruct H as [H|H]; [|exact H]. now apply no_record_25 in T.
  - destruct H as [_ [(s & x & _ & _ & ->)|(e & _ & ->)]]; [|lia]. left. split; [reflexivity|]. eexists. reflexivity.
Qed.
Lemma records_bound fuel gs : all_yield fuel gs -> (3 * List.length (oks (F := F) (map snd gs)) <= weigh gs + 1)%nat.
Proof.
  unfold weigh. induction gs as [|g gs IH]; intros A; [cbn; lia|]. destruct A as [Y A]. specialize (IH A). apply yields_weight in Y.
  cbn [map List.concat oks flat_map]. rewrite !app_length. unfold oks in IH. destruct (snd g) as [s|e].
  - cbn [List.length]. destruct Y as [[L _]|[L ->]]; [lia|cbn; lia].
  - cbn [List.length]. lia.
Qed.
Lemma named_but_last fuel gs : all_yield fuel gs -> forall pre s t post, oks (F := F) (map snd gs) = pre ++ s :: t :: post -> exists x, sr_name s = Some x.
Proof.
  induction gs as [|g gs IH]; intros A pre s t post E; [now destruct pre|]. destruct A as [Y A]. apply yields_weight in Y.
  cbn [map oks flat_map] in E. change (flat_map _ (map snd gs)) with (oks (map snd gs)) in E.
  destruct (snd g) as [s0|e]; [|now apply (IH A pre s t post)]. destruct pre as [|p pre].
  - injection E as E1 E2. subst s0. destruct Y as [[_ Y]|[_ ->]]; [exact Y|discriminate E2].
  - injection E as _ E. now apply (IH A pre s t post).
Qed.
End Facts.

(** The defect: whatever the text, every record returned except possibly the last has been given a
    name, that is, three lines have been spent on it. *)
Theorem C37_only_the_last_can_be_unnamed :
  forall (F : Type) (FO : FloatOps F) fuel (ps : list str) errs (pre post : list (Satrec F)) s t,
    Forall one_line ps -> (forall p c, In p ps -> In c p -> 0 <= c) ->
    parse_multiple fuel (join ps) = Done (pre ++ s :: t :: post, errs) ->
    exists x, sr_name s = Some x.
Proof.
  intros F FO fuel ps errs pre post s t O P H. apply C35_every_line_is_accounted_for in H; [|assumption|assumption].
  destruct H as (gs & _ & A & R & _). symmetry in R. now apply (named_but_last fuel gs A pre s t post).
Qed.
Print Assumptions C37_only_the_last_can_be_unnamed.

(** So a catalogue of two or more unnamed sets never decodes to its sets: records are lost. *)
Theorem C37_unnamed_catalogues_lose_records :
  forall (F : Type) (FO : FloatOps F) fuel (ps : list str) (n : nat) (recs : list (Satrec F)) errs,
    Forall one_line ps -> (forall p c, In p ps -> In c p -> 0 <= c) ->
    List.length (content ps) = (2 * n)%nat -> (2 <= n)%nat ->
    parse_multiple fuel (join ps) = Done (recs, errs) ->
    (List.length recs < n)%nat.
Proof.
  intros F FO fuel ps n recs errs O P C N H. apply C35_every_line_is_accounted_for in H; [|assumption|assumption].
  destruct H as (gs & E & A & -> & _). apply records_bound in A. unfold weigh in A. rewrite E, C in A. lia.
Qed.
Print Assumptions C37_unnamed_catalogues_lose_records.

(** Non-vacuity: one unnamed set; and two unnamed copies of the same good set, which give no record at all. *)
Example C37_example_one :
  match @parse_multiple _ (B64Ops flat_lm) 0 (join [iss1; iss2]) with Done ([s], []) => match sr_name s with None => true | _ => false end | _ => false end = true.
Proof. vm_compute. reflexivity. Qed.
Example C37_example :
  match @parse_multiple _ (B64Ops flat_lm) 0 (join [iss1; iss2; iss1; iss2]) with
  | Done ([], [SatrecMultiError 0 _; SatrecMultiError 3 InvalidTLEBadLineCount]) => true | _ => false end = true.
Proof. vm_compute. reflexivity. Qed.
