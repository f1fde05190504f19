(** * C34: the satellite name *)
From Coq Require Import ZArith List Bool String Lia.
From Verif.Model Require Import Float Str Satrec Constants Sgp4 Sgp4init Io.
From Verif.Inst Require Import B64.
From Verif.Golden Require Import Flat.
From Verif.Spec Require Import TextSpec.
From Verif.Proofs Require Import StrFacts TextFacts IoFacts InitFrame InitTotal PanicFacts ParseFacts.
From Verif.Props Require Import C25.
Import ListNotations.
Local Open Scope Z_scope.

(** The name a name line stands for: the line itself; if it begins with '0' (48), what follows its
    first two bytes (meant to be the marker "0 "). *)
Inductive line_name : str -> str -> Prop :=
| plain n : ~ starts 48 n -> line_name n n
| marked c r : 0 <= c < 128 -> line_name (48 :: c :: r) r.

Lemma name_of_spec n x : n <> [] -> (forall c, In c n -> 0 <= c) -> (name_of n = Some x <-> line_name n x).
Proof.
  intros N P. destruct n as [|c r]; [congruence|]. cbn [name_of]. destruct (Z.eqb_spec c 48) as [->|C].
  - destruct r as [|d q].
    + split; [discriminate|]. intros H. inversion H; subst. elim H0. now exists [].
    + destruct (Z.ltb_spec d 128) as [D|D]; split; intros H.
      * injection H as <-. constructor. split; [|exact D]. apply P. cbn; auto.
      * inversion H; subst; [|reflexivity]. elim H0. now exists (d :: q).
      * discriminate.
      * inversion H; subst; [|lia]. elim H0. now exists (d :: q).
  - split; intros H.
    + injection H as <-. constructor. intros [q E]. congruence.
    + inversion H; subst; [reflexivity|congruence].
Qed.

(** initialisation leaves the name alone, and decoding sets none *)
Lemma twoline_no_name {F} {FO : FloatOps F} fuel a b s : twoline2satrec fuel a b = Done (Ok s) -> sr_name s = None.
Proof.
  unfold twoline2satrec. intros H. apply bindR_ok in H. destruct H as (s0 & H0 & H).
  apply parse_satrec_inv in H0. destruct H0 as (l1 & l2 & _ & _ & E0).
  assert (N0 : sr_name s0 = None) by (rewrite E0; reflexivity). clear E0.
  rewrite (sgp4init_graft fuel s0 satrec_zero (tle_options s0)) in H.
  destruct (sgp4init fuel satrec_zero (tle_options s0)) as [[s1 r]| |]; cbn [bindO] in H; try discriminate H.
  cbn [fst snd] in H. destruct r as [v|e]; [|discriminate H]. injection H as <-. exact N0.
Qed.

(** [parse] on a two-line set: no name. *)
Theorem C34_two_line_sets_have_no_name :
  forall (F : Type) (FO : FloatOps F) fuel (ps : list str) (a b : str) (s : Satrec F),
    Forall one_line ps -> content ps = [a; b] -> parse fuel (join ps) = Done (Ok s) ->
    twoline2satrec fuel a b = Done (Ok s) /\ sr_name s = None.
Proof.
  intros F FO fuel ps a b s O C H. rewrite (parse_two fuel ps a b O C) in H.
  destruct (starts_dec 49 a); [|discriminate H]. destruct (starts_dec 50 b); [|discriminate H]. split; [exact H|]. now apply twoline_no_name in H.
Qed.
Print Assumptions C34_two_line_sets_have_no_name.

(** [parse] on a three-line set: the element lines' record with the name set, untrimmed; nothing else differs. *)
Theorem C34_three_line_sets :
  forall (F : Type) (FO : FloatOps F) fuel (ps : list str) (n a b : str),
    Forall one_line ps -> content ps = [n; a; b] -> starts 49 a -> starts 50 b -> (forall c, In c n -> 0 <= c) ->
    (forall x s, line_name n x -> twoline2satrec fuel a b = Done (Ok s) ->
        parse fuel (join ps) = Done (Ok (set_name (Some x) s))) /\
    (forall t, parse fuel (join ps) = Done (Ok t) ->
        exists x s, line_name n x /\ twoline2satrec fuel a b = Done (Ok s) /\ t = set_name (Some x) s /\ sr_name s = None).
Proof.
  intros F FO fuel ps n a b O C Sa Sb P.
  assert (N : n <> []) by (intros ->; assert (B : blank [] = false) by (apply (content_nb ps); rewrite C; now left); discriminate B).
  rewrite (parse_three fuel ps n a b O C). destruct (starts_dec 49 a); [|contradiction]. destruct (starts_dec 50 b); [|contradiction]. split.
  - intros x t X E. apply (name_of_spec n x N P) in X. rewrite E. cbn [bindR]. now rewrite X.
  - intros t H. apply bindR_ok in H. destruct H as (t0 & E & H). destruct (name_of n) as [x|] eqn:X; [|discriminate H]. injection H as <-.
    exists x, t0. split; [now apply (name_of_spec n x N P)|]. split; [exact E|]. split; [reflexivity|]. now apply twoline_no_name in E.
Qed.
Print Assumptions C34_three_line_sets.

(** [parse_multiple] on a three-line set whose trimmed name line is not 25 bytes long: the same, with the name trimmed. *)
Theorem C34_parse_multiple_trims :
  forall (F : Type) (FO : FloatOps F) fuel (ps : list str) (n a b x : str) (s : Satrec F),
    Forall one_line ps -> content ps = [n; a; b] -> (forall c, In c n -> 0 <= c) -> blen (trim n) <> 25%nat ->
    line_name n x -> twoline2satrec fuel a b = Done (Ok s) ->
    parse_multiple fuel (join ps) = Done ([set_name (Some (trim x)) s], []).
Proof.
  intros F FO fuel ps n a b x s O C P L X E.
  assert (N : n <> []) by (intros ->; assert (B : blank [] = false) by (apply (content_nb ps); rewrite C; now left); discriminate B).
  apply (name_of_spec n x N P) in X. pose proof (content_forall ps) as B. rewrite parse_multiple_lines by assumption. rewrite C in *.
  cbn [List.length]. rewrite multi_step by (discriminate || assumption). cbn [group]. destruct (Nat.eqb_spec (blen (trim n)) 25); [contradiction|].
  rewrite E. cbn [bindO named]. rewrite X. cbn [bindO skipn push fst snd]. now rewrite multi_nil.
Qed.
Print Assumptions C34_parse_multiple_trims.

(** The text of a trimmed name is the name without surrounding white space. *)
Theorem C34_trim_meaning :
  forall x : str, exists l r, x = l ++ trim x ++ r /\ blank l = true /\ blank r = true /\
    (forall c q, trim x = c :: q -> white c = false) /\ (forall c q, trim x = q ++ [c] -> white c = false).
Proof.
  intros x. destruct (trim_parts x) as (l & r & E & A & B). exists l, r. pose proof (trim_tight x) as [T1 T2].
  rewrite !blank_ws. repeat split; try assumption; intros c q H; rewrite white_ws; eauto.
Qed.
Print Assumptions C34_trim_meaning.

(** Consequences for users (defects): a name line beginning with a digit 0 that is not the marker
    loses two characters, and a CR-LF file leaves the CR (13) in the name returned by [parse]. *)
Theorem C34_marker_is_not_checked :
  forall (F : Type) (FO : FloatOps F) fuel (ps : list str) (c : Z) (r a b : str) (s : Satrec F),
    Forall one_line ps -> content ps = [48 :: c :: r; a; b] -> starts 49 a -> starts 50 b ->
    0 <= c < 128 -> c <> 32 -> (forall d, In d r -> 0 <= d) ->
    twoline2satrec fuel a b = Done (Ok s) ->
    parse fuel (join ps) = Done (Ok (set_name (Some r) s)).
Proof.
  intros F FO fuel ps c r a b s O C Sa Sb Hc _ Hr E.
  apply (C34_three_line_sets F FO fuel ps _ a b O C Sa Sb); [|now constructor|exact E].
  intros d [<-|[<-|D]]; [lia|lia|now apply Hr].
Qed.
Print Assumptions C34_marker_is_not_checked.

(** Non-vacuity *)
Definition nm_eqb (s : Satrec b64) (x : str) : bool := match sr_name s with Some y => str_eqb y x | None => false end.
Example C34_example :
  (match @parse _ (B64Ops flat_lm) 0 (join [of_string "0 ISS (ZARYA)"; iss1; iss2]) with Done (Ok s) => nm_eqb s (of_string "ISS (ZARYA)") | _ => false end,
   match @parse _ (B64Ops flat_lm) 0 (join [of_string "ISS (ZARYA) "; iss1; iss2]) with Done (Ok s) => nm_eqb s (of_string "ISS (ZARYA) ") | _ => false end,
   match @parse _ (B64Ops flat_lm) 0 (join [of_string "007 SAT"; iss1; iss2]) with Done (Ok s) => nm_eqb s (of_string "7 SAT") | _ => false end,
   match @parse _ (B64Ops flat_lm) 0 (join [of_string "ISS" ++ [13]; iss1 ++ [13]; iss2 ++ [13]]) with Done (Ok s) => nm_eqb s (of_string "ISS" ++ [13]) | _ => false end,
   match @parse_multiple _ (B64Ops flat_lm) 0 (join [of_string "ISS (ZARYA) "; iss1; iss2]) with Done ([s], []) => nm_eqb s (of_string "ISS (ZARYA)") | _ => false end)
  = (true, true, true, true, true).
Proof. vm_compute. reflexivity. Qed.
