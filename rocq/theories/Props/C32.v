(** * C32: blank lines are irrelevant *)
From Coq Require Import ZArith List Bool String Lia.
From Verif.Model Require Import Float Str Satrec Constants Sgp4 Sgp4init Io.
From Verif.Inst Require Import B64.
From Verif.Golden Require Import Flat.
From Verif.Spec Require Import TextSpec.
From Verif.Proofs Require Import StrFacts TextFacts.
From Verif.Props Require Import C25.
Import ListNotations.
Local Open Scope Z_scope.

(** Two texts with the same non-blank lines have the same outcome. *)
Theorem C32_only_content_lines_matter :
  forall (F : Type) (FO : FloatOps F) fuel (ps qs : list str),
    Forall one_line ps -> Forall one_line qs -> content ps = content qs ->
    parse fuel (join ps) = parse fuel (join qs) /\
    parse_multiple fuel (join ps) = parse_multiple fuel (join qs).
Proof.
  intros F FO fuel ps qs P Q E. unfold parse, parse_multiple. cbv zeta. rewrite !text_lines_join, E by assumption. now split.
Qed.
Print Assumptions C32_only_content_lines_matter.

Lemma blank_pieces w ws : blank w = true -> w = join ws -> Forall one_line ws -> Forall (fun p => blank p = true) ws.
Proof.
  revert w. induction ws as [|p [|q r] IH]; intros w B E O; [constructor| |].
  - cbn in E. subst. now constructor.
  - change (join (p :: q :: r)) with (p ++ 10 :: join (q :: r)) in E. subst w. unfold blank in B. rewrite forallb_app in B. cbn [forallb] in B.
    apply andb_true_iff in B. destruct B as [B1 B2]. apply andb_true_iff in B2. destruct B2 as [_ B2]. inversion O; subst.
    constructor; [exact B1|]. now apply (IH (join (q :: r))).
Qed.

(** Any run of white space may stand between, before or after the lines of any text. *)
Theorem C32_blank_lines_can_be_inserted :
  forall (F : Type) (FO : FloatOps F) fuel (a b w : str),
    blank w = true ->
    (parse fuel (a ++ 10 :: w ++ 10 :: b) = parse fuel (a ++ 10 :: b) /\
     parse_multiple fuel (a ++ 10 :: w ++ 10 :: b) = parse_multiple fuel (a ++ 10 :: b)) /\
    (parse fuel (w ++ 10 :: b) = parse fuel b /\ parse_multiple fuel (w ++ 10 :: b) = parse_multiple fuel b) /\
    (parse fuel (a ++ 10 :: w) = parse fuel a /\ parse_multiple fuel (a ++ 10 :: w) = parse_multiple fuel a).
Proof.
  intros F FO fuel a b w W.
  destruct (text_as_lines a) as (A & NA & OA & ->). destruct (text_as_lines b) as (B & NB & OB & ->).
  destruct (text_as_lines w) as (V & NV & OV & EV). pose proof (blank_pieces w V W EV OV) as BV. subst w. apply content_blank in BV.
  repeat match goal with |- _ /\ _ => split | |- context [join ?x ++ 10 :: join ?y ++ 10 :: join ?z] =>
     rewrite <- (join_app y z) by assumption; rewrite <- (join_app x (y ++ z)) by (assumption || (destruct y; [contradiction|discriminate])) 
     end;
  rewrite <- ?join_app by assumption; apply C32_only_content_lines_matter; rewrite ?Forall_app; try tauto;
  rewrite !content_app, BV; now rewrite ?app_nil_r.
Qed.
Print Assumptions C32_blank_lines_can_be_inserted.

(** Non-vacuity: the ISS set with and without blank lines. *)
Example C32_example :
  blank (of_string "  ") = true /\
  (match @parse _ (B64Ops flat_lm) 0 (join [[]; iss1; of_string "   "; iss2; []]), @parse _ (B64Ops flat_lm) 0 (join [iss1; iss2]) with
   | Done (Ok s), Done (Ok t) => feq (sr_no s) (sr_no t) | _, _ => false end) = true.
Proof. split; vm_compute; reflexivity. Qed.
