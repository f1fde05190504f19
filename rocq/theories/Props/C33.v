(** * C33: parse checks line count and line numbers before decoding *)
From Coq Require Import ZArith List Bool String Lia.
From Verif.Model Require Import Float Str Satrec Constants Sgp4 Sgp4init Io.
From Verif.Inst Require Import B64.
From Verif.Golden Require Import Flat.
From Verif.Spec Require Import TextSpec.
From Verif.Proofs Require Import StrFacts TextFacts ParseFacts.
From Verif.Props Require Import C25.
Import ListNotations.
Local Open Scope Z_scope.

(** For every text (every text is the join of its lines: [C33_texts]).  49 and 50 are '1' and '2'. *)
Theorem C33_checks_come_first :
  forall (F : Type) (FO : FloatOps F) fuel (ps : list str),
    Forall one_line ps ->
    (List.length (content ps) <> 2%nat -> List.length (content ps) <> 3%nat ->
       parse fuel (join ps) = Done (Err InvalidTLEBadLineCount)) /\
    (forall a b, content ps = [a; b] \/ (exists n, content ps = [n; a; b]) ->
       ~ (starts 49 a /\ starts 50 b) ->
       parse fuel (join ps) = Done (Err InvalidTLELineCheckFailed)) /\
    (* and no well-numbered text is refused by these checks *)
    (forall a b, content ps = [a; b] \/ (exists n, content ps = [n; a; b]) ->
       starts 49 a -> starts 50 b ->
       forall e, parse fuel (join ps) = Done (Err e) <-> twoline2satrec fuel a b = Done (Err e)).
Proof.
  intros F FO fuel ps O. split; [intros H1 H2; now apply parse_other|]. split.
  - intros a b [C|[n C]] N.
    + rewrite (parse_two fuel ps a b O C). destruct (starts_dec 49 a); [|reflexivity]. destruct (starts_dec 50 b); [|reflexivity]. tauto.
    + rewrite (parse_three fuel ps n a b O C). destruct (starts_dec 49 a); [|reflexivity]. destruct (starts_dec 50 b); [|reflexivity]. tauto.
  - intros a b [C|[n C]] Sa Sb e.
    + rewrite (parse_two fuel ps a b O C). destruct (starts_dec 49 a); [|contradiction]. destruct (starts_dec 50 b); [|contradiction]. reflexivity.
    + rewrite (parse_three fuel ps n a b O C). destruct (starts_dec 49 a); [|contradiction]. destruct (starts_dec 50 b); [|contradiction].
      destruct (twoline2satrec fuel a b) as [[sx|ex]| |]; cbn [bindR]; [|reflexivity|reflexivity|reflexivity]. destruct (name_of n); split; discriminate.
Qed.
Print Assumptions C33_checks_come_first.
Theorem C33_texts : forall s : str, exists ps, Forall one_line ps /\ s = join ps.
Proof. intros s. destruct (text_as_lines s) as (ps & _ & O & E). now exists ps. Qed.
Print Assumptions C33_texts.

(** A record returned by [parse] therefore comes from lines numbered 1 and 2. *)
Theorem C33_success_means_checked :
  forall (F : Type) (FO : FloatOps F) fuel (ps : list str) (s : Satrec F),
    Forall one_line ps -> parse fuel (join ps) = Done (Ok s) ->
    exists a b t, (content ps = [a; b] \/ (exists n, content ps = [n; a; b])) /\ starts 49 a /\ starts 50 b /\
      twoline2satrec fuel a b = Done (Ok t) /\ s = set_name (sr_name s) t.
Proof.
  intros F FO fuel ps s O H. destruct (content ps) as [|x [|y [|z [|w r]]]] eqn:C.
  - rewrite parse_other in H; [discriminate|assumption|rewrite C; discriminate|rewrite C; discriminate].
  - rewrite parse_other in H; [discriminate|assumption|rewrite C; discriminate|rewrite C; discriminate].
  - rewrite (parse_two fuel ps x y O C) in H. destruct (starts_dec 49 x) as [S1|]; [|discriminate]. destruct (starts_dec 50 y) as [S2|]; [|discriminate].
    exists x, y, s. split; [now left|]. split; [exact S1|]. split; [exact S2|]. split; [exact H|]. now destruct s.
  - rewrite (parse_three fuel ps x y z O C) in H. destruct (starts_dec 49 y) as [S1|]; [|discriminate]. destruct (starts_dec 50 z) as [S2|]; [|discriminate].
    destruct (twoline2satrec fuel y z) as [[t|e]| |] eqn:E; cbn [bindR] in H; [|discriminate H|discriminate H|discriminate H].
    exists y, z, t. split; [right; now exists x|]. split; [exact S1|]. split; [exact S2|]. split; [exact E|].
    destruct (name_of x); [|discriminate H]. injection H as <-. reflexivity.
  - rewrite parse_other in H; [discriminate|assumption|rewrite C; discriminate|rewrite C; discriminate].
Qed.
Print Assumptions C33_success_means_checked.

(** Non-vacuity. *)
Example C33_example :
  (match @parse _ (B64Ops flat_lm) 0 (join [of_string "ISS"; iss1; iss2]) with Done (Ok _) => true | _ => false end,
   match @parse _ (B64Ops flat_lm) 0 (join [of_string "ISS"; iss2; iss1]) with Done (Err InvalidTLELineCheckFailed) => true | _ => false end,
   match @parse _ (B64Ops flat_lm) 0 (join [of_string "x"; of_string "y"]) with Done (Err InvalidTLELineCheckFailed) => true | _ => false end,
   match @parse _ (B64Ops flat_lm) 0 (join [iss1]) with Done (Err InvalidTLEBadLineCount) => true | _ => false end) = (true, true, true, true).
Proof. vm_compute. reflexivity. Qed.
