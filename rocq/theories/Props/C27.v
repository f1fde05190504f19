(** * C27: exactly when parsing panics (defect: it should never) *)
From Coq Require Import ZArith List Bool String Lia.
From Verif.Model Require Import Float Str Satrec Constants Sgp4 Sgp4init Io.
From Verif.Inst Require Import B64.
From Verif.Golden Require Import Flat.
From Verif.Spec Require Import TextSpec.
From Verif.Proofs Require Import StrFacts IoFacts TextFacts InitTotal PanicFacts ParseFacts.
From Verif.Props Require Import C25.
Import ListNotations.
Local Open Scope Z_scope.

(** Safe inputs: ASCII lines of at least 61 and 63 characters.  The call returns a record or an error. *)
Theorem C27_long_ascii_lines_never_panic :
  forall (lm : libm) fuel (l1 l2 : str),
    ascii l1 -> ascii l2 -> (61 <= List.length l1)%nat -> (63 <= List.length l2)%nat ->
    (exists r, @parse_satrec _ (B64Ops lm) l1 l2 = Done r) /\
    (exists r, @twoline2satrec _ (B64Ops lm) fuel l1 l2 = Done r).
Proof.
  intros lm fuel l1 l2 A1 A2 N1 N2.
  assert (P : exists r, @parse_satrec _ (B64Ops lm) l1 l2 = Done r).
  { unfold parse_satrec. apply bindR_done.
    - apply line1_done. intros lo hi H. apply ascii_slice; [exact A1|lia].
    - intros a _. apply bindR_done; [|intros b _; now eexists].
      apply line2_done. intros lo hi H. apply ascii_slice; [exact A2|lia]. }
  split; [exact P|]. pose proof (twoline_spec (zero_sane_B64 lm) fuel l1 l2) as S. destruct P as [r P]. rewrite P in S. destruct r as [s|e].
  - destruct S as (s' & r & _ & E). rewrite E. now eexists.
  - rewrite S. now eexists.
Qed.
Print Assumptions C27_long_ascii_lines_never_panic.

(** Defect: every truncation of a set that decodes panics: line 1 cut before byte 61 (whatever
    line 2 is), line 2 cut before byte 63. *)
Theorem C27_truncated_lines_panic :
  forall (F : Type) (FO : FloatOps F) fuel (l1 l2 p q : str) (s : Satrec F),
    parse_satrec l1 l2 = Done (Ok s) ->
    (l1 = p ++ q -> (blen p < 61)%nat -> forall l2', parse_satrec p l2' = Panic /\ twoline2satrec fuel p l2' = Panic) /\
    (l2 = p ++ q -> (blen p < 63)%nat -> parse_satrec l1 p = Panic /\ twoline2satrec fuel l1 p = Panic).
Proof.
  intros F FO fuel l1 l2 p q s H. apply parse_satrec_inv in H. destruct H as (a & b & H1 & H2 & _).
  assert (T : forall x y, parse_satrec (FO := FO) x y = Panic -> parse_satrec (FO := FO) x y = Panic /\ twoline2satrec fuel x y = Panic).
  { intros x y E. split; [exact E|]. unfold twoline2satrec. now rewrite E. }
  split.
  - intros -> N l2'. apply T. unfold parse_satrec. now rewrite (line1_cut _ _ _ H1 N).
  - intros -> N. apply T. unfold parse_satrec. rewrite H1. cbn [bindR]. now rewrite (line2_cut _ _ _ H2 N).
Qed.
Print Assumptions C27_truncated_lines_panic.

(** No text with too short lines ever decodes, and a line 1 of fewer than seven bytes always panics. *)
Theorem C27_short_lines :
  forall (F : Type) (FO : FloatOps F) fuel (l1 l2 : str),
    ((blen l1 < 61)%nat \/ (blen l2 < 63)%nat -> forall s : Satrec F, parse_satrec l1 l2 <> Done (Ok s)) /\
    ((blen l1 < 7)%nat -> parse_satrec (FO := FO) l1 l2 = Panic /\ twoline2satrec (FO := FO) fuel l1 l2 = Panic).
Proof.
  intros F FO fuel l1 l2. split.
  - intros H s K. apply parse_satrec_inv in K. destruct K as (a & b & H1 & H2 & _).
    apply line1_long in H1. apply line2_long in H2. lia.
  - intros H. assert (E : parse_satrec (FO := FO) l1 l2 = Panic).
    { unfold parse_satrec, parse_line1. replace (sliceR l1 2 7) with (@Panic (result str SatrecParseError)); [reflexivity|].
      symmetry. apply sliceR_panic. now apply slice_beyond. }
    split; [exact E|]. unfold twoline2satrec. now rewrite E.
Qed.
Print Assumptions C27_short_lines.

(** A name line [parse] cannot digest: "0" alone or followed by a non-ASCII character. *)
Definition bad_name (n : str) : Prop := n = [48] \/ exists c r, n = 48 :: c :: r /\ 128 <= c.
Lemma bad_name_spec n : n <> [] -> (name_of n = None <-> bad_name n).
Proof.
  intros N. destruct n as [|c r]; [congruence|]. unfold bad_name. cbn [name_of]. destruct (Z.eqb_spec c 48) as [->|C].
  - destruct r as [|d q].
    + split; auto.
    + destruct (Z.ltb_spec d 128).
      * split; [discriminate|]. intros [H0|(x & y & H0 & H1)]; [discriminate|]. injection H0 as -> ->. lia.
      * split; [|easy]. intros _. right. now exists d, q.
  - split; [discriminate|]. intros [H0|(x & y & H0 & H1)]; congruence.
Qed.

(** [parse] panics exactly when it reaches the decoder and the decoder panics, or the record is fine
    but the name line is one of the above. *)
Theorem C27_parse :
  forall (lm : libm) fuel (ps : list str),
    Forall one_line ps ->
    let decode a b := @parse_satrec _ (B64Ops lm) a b in
    let finish a b := @twoline2satrec _ (B64Ops lm) fuel a b in
    @parse _ (B64Ops lm) fuel (join ps) = Panic <->
    (exists a b, content ps = [a; b] /\ starts 49 a /\ starts 50 b /\ decode a b = Panic) \/
    (exists n a b, content ps = [n; a; b] /\ starts 49 a /\ starts 50 b /\
        (decode a b = Panic \/ (exists s, finish a b = Done (Ok s)) /\ bad_name n)).
Proof.
  intros lm fuel ps O decode finish. unfold decode, finish.
  destruct (content ps) as [|x [|y [|z [|w r]]]] eqn:C.
  - rewrite parse_other; [|assumption|rewrite C; discriminate|rewrite C; discriminate]. split; [discriminate|].
    intros [(a & b & H & _)|(n & a & b & H & _)]; discriminate H.
  - rewrite parse_other; [|assumption|rewrite C; discriminate|rewrite C; discriminate]. split; [discriminate|].
    intros [(a & b & H & _)|(n & a & b & H & _)]; discriminate H.
  - rewrite (parse_two fuel ps x y O C). split.
    + destruct (starts_dec 49 x); [|discriminate]. destruct (starts_dec 50 y); [|discriminate]. intros H. left. exists x, y.
      apply (twoline_panic (zero_sane_B64 lm) fuel) in H. now repeat split.
    + intros [(a & b & H & Sa & Sb & D)|(n & a & b & H & _)]; [|discriminate H]. injection H as -> ->.
      destruct (starts_dec 49 a); [|contradiction]. destruct (starts_dec 50 b); [|contradiction]. now apply (twoline_panic (zero_sane_B64 lm) fuel).
  - rewrite (parse_three fuel ps x y z O C). split.
    + destruct (starts_dec 49 y); [|discriminate]. destruct (starts_dec 50 z); [|discriminate]. intros H. right. exists x, y, z.
      repeat split; try assumption. apply bindR_panic in H. destruct H as [H|(sx & H & K)].
      * left. now apply (twoline_panic (zero_sane_B64 lm) fuel) in H.
      * right. split; [now exists sx|]. apply bad_name_spec.
        { intros ->. assert (B : blank [] = false) by (apply (content_nb ps); rewrite C; now left). discriminate B. }
        destruct (name_of x); [discriminate K|reflexivity].
    + intros [(a & b & H & _)|(n & a & b & H & Sa & Sb & D)]; [discriminate H|]. injection H as -> -> ->.
      destruct (starts_dec 49 a); [|contradiction]. destruct (starts_dec 50 b); [|contradiction]. apply bindR_panic.
      destruct D as [D|[[sx D] Bn]]; [left; now apply (twoline_panic (zero_sane_B64 lm) fuel)|right]. exists sx. split; [exact D|].
      apply bad_name_spec in Bn; [now rewrite Bn|]. destruct Bn as [->|(c & r & -> & _)]; discriminate.
  - rewrite parse_other; [|assumption|rewrite C; discriminate|rewrite C; discriminate]. split; [discriminate|].
    intros [(a & b & H & _)|(n & a & b & H & _)]; discriminate H.
Qed.
Print Assumptions C27_parse.

(** [parse_multiple] inherits it: any text that comes down to two lines the first of which is shorter
    than seven bytes, or three of which the second is, brings the whole call down. *)
Theorem C27_parse_multiple :
  forall (F : Type) (FO : FloatOps F) fuel (ps : list str) (n a b : str) (rest : list str),
    Forall one_line ps -> (blen a < 7)%nat ->
    (content ps = [a; b] -> parse_multiple fuel (join ps) = Panic) /\
    (content ps = n :: a :: b :: rest -> blen (trim n) <> 25%nat -> parse_multiple fuel (join ps) = Panic).
Proof.
  intros F FO fuel ps n a b rest O A. pose proof (content_forall ps) as B.
  assert (E : twoline2satrec fuel a b = Panic) by (now apply C27_short_lines).
  rewrite parse_multiple_lines by assumption. split.
  - intros C. rewrite C in *. cbn [List.length]. rewrite multi_step by (discriminate || assumption). cbn [group]. now rewrite E.
  - intros C N. rewrite C in *. cbn [List.length]. rewrite multi_step by (discriminate || assumption). cbn [group].
    destruct (Nat.eqb_spec (blen (trim n)) 25); [contradiction|]. now rewrite E.
Qed.
Print Assumptions C27_parse_multiple.

(** Conversely [parse_multiple] panics only if two consecutive lines panic when decoded, or decode
    under a bad name line. *)
Lemma multi_panics (F : Type) (FO : FloatOps F) n fuel i ls recs errs : (List.length ls <= n)%nat -> Forall (fun p => blank p = false) ls ->
  multi_loop n fuel i ls recs errs = Panic ->
  exists pre m, ls = pre ++ m /\ m <> [] /\ snd (group (F := F) fuel m) = Panic.
Proof.
  revert i ls recs errs. induction n as [|n IH]; intros i ls recs errs Hn B H.
  - destruct ls; [|cbn in Hn; lia]. now rewrite multi_nil in H.
  - destruct ls as [|l ls]; [now rewrite multi_nil in H|]. rewrite multi_step in H by (discriminate || assumption).
    pose proof (group_size fuel (l :: ls) ltac:(discriminate)) as G. destruct (group fuel (l :: ls)) as [k o] eqn:E. cbn [fst] in G.
    destruct o as [r| |]; cbn [bindO] in H; [|exists [], (l :: ls); repeat split; [discriminate|now rewrite E]|discriminate H]. cbv zeta in H.
    assert (SP : firstn k (l :: ls) ++ skipn k (l :: ls) = l :: ls) by apply firstn_skipn.
    apply IH in H.
    + destruct H as (pre & m & S & N & P). exists (firstn k (l :: ls) ++ pre), m. split; [|easy]. now rewrite <- app_assoc, <- S, SP.
    + rewrite skipn_length. lia.
    + rewrite <- SP in B. apply Forall_app in B. apply B.
Qed.
Theorem C27_parse_multiple_only :
  forall (lm : libm) fuel (ps : list str),
    Forall one_line ps -> @parse_multiple _ (B64Ops lm) fuel (join ps) = Panic ->
    exists pre a b post, content ps = pre ++ a :: b :: post /\
      (@parse_satrec _ (B64Ops lm) a b = Panic \/
       (exists s, @twoline2satrec _ (B64Ops lm) fuel a b = Done (Ok s)) /\ exists pre' n, pre = pre' ++ [n] /\ bad_name n).
Proof.
  intros lm fuel ps O H. rewrite parse_multiple_lines in H by assumption. pose proof (content_forall ps) as B.
  apply multi_panics in H; [|lia|exact B]. destruct H as (pre & m & C & N & P). rewrite C in *. apply Forall_app in B. destruct B as [_ B].
  destruct m as [|l0 [|l1 [|l2 q]]]; [congruence|discriminate P|..]; cbn [group snd] in P.
  - exists pre, l0, l1, []. split; [reflexivity|]. left. now apply (twoline_panic (zero_sane_B64 lm)) in P.
  - destruct (Nat.eqb (blen (trim l0)) 25); cbn [snd] in P.
    + exists pre, l0, l1, (l2 :: q). split; [reflexivity|]. left. now apply (twoline_panic (zero_sane_B64 lm)) in P.
    + exists (pre ++ [l0]), l1, l2, q. split; [now rewrite <- app_assoc|].
      destruct (twoline2satrec fuel l1 l2) as [[s|e]| |] eqn:T; cbn [bindO named] in P; [|discriminate P| |discriminate P].
      * right. split; [now exists s|]. exists pre, l0. split; [reflexivity|]. apply bad_name_spec; [|now destruct (name_of l0)].
        intros ->. apply Forall_cons_iff in B. destruct B as [B _]. discriminate B.
      * left. now apply (twoline_panic (zero_sane_B64 lm)) in T.
Qed.
Print Assumptions C27_parse_multiple_only.

(** Non-vacuity: the ISS set is safe; cut anywhere it panics; a name line "0" panics. *)
Example C27_example :
  (match @parse_satrec _ (B64Ops flat_lm) iss1 iss2 with Done (Ok _) => true | _ => false end,
   match @parse_satrec _ (B64Ops flat_lm) (firstn 60 iss1) iss2 with Panic => true | _ => false end,
   match @parse_satrec _ (B64Ops flat_lm) iss1 (firstn 62 iss2) with Panic => true | _ => false end,
   match @parse _ (B64Ops flat_lm) 0 (join [[48]; iss1; iss2]) with Panic => true | _ => false end,
   match @parse_multiple _ (B64Ops flat_lm) 0 (of_string "hello") with Done _ => true | _ => false end)
  = (true, true, true, true, true) /\
  ascii iss1 /\ (61 <= List.length iss1)%nat /\ (63 <= List.length iss2)%nat.
Proof.
  split; [vm_compute; reflexivity|]. split; [|split; vm_compute; repeat constructor].
  intros c H. assert (G : forallb (fun c => (0 <=? c) && (c <? 128)) iss1 = true) by (vm_compute; reflexivity).
  rewrite forallb_forall in G. specialize (G c H). apply andb_prop in G. destruct G as [G1 G2]. apply Z.leb_le in G1. apply Z.ltb_lt in G2. lia.
Qed.
