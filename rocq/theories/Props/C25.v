(** * C25: each parsed field depends only on its own columns *)
From Coq Require Import ZArith List Bool String Lia.
From Verif.Model Require Import Float Str Satrec Constants Sgp4 Sgp4init Io.
From Verif.Inst Require Import B64.
From Verif.Golden Require Import Flat.
From Verif.Spec Require Import TextSpec.
From Verif.Proofs Require Import StrFacts IoFacts TextFacts.
Import ListNotations.
Local Open Scope Z_scope.

(** The columns (byte ranges) of the two element lines that carry data. *)
Definition used1 : list (nat * nat) := [(2, 7); (18, 20); (20, 32); (33, 43); (44, 50); (50, 52); (53, 54); (54, 59); (59, 61)]%nat.
Definition used2 : list (nat * nat) := [(8, 16); (17, 25); (26, 33); (34, 42); (43, 51); (52, 63)]%nat.
Definition agree (cols : list (nat * nat)) (a b : str) : Prop :=
  Forall (fun c => same_columns (fst c) (snd c) a b) cols.

Section Any.
Context {F : Type} {FO : FloatOps F}.
Lemma agree_slices cols a b : agree cols a b -> Forall (fun c => slice a (fst c) (snd c) = slice b (fst c) (snd c)) cols.
Proof. intros H. eapply Forall_impl; [|exact H]. intros c. apply same_slice. Qed.
Lemma parse_int_col a b n lo hi : slice a lo hi = slice b lo hi -> parse_int a n lo hi = parse_int b n lo hi.
Proof. unfold parse_int. now intros ->. Qed.
Lemma parse_float_col a b n lo hi : slice a lo hi = slice b lo hi -> parse_float a n lo hi = parse_float b n lo hi.
Proof. unfold parse_float. now intros ->. Qed.
Lemma sliceR_col a b lo hi : slice a lo hi = slice b lo hi -> sliceR a lo hi = sliceR b lo hi.
Proof. unfold sliceR. now intros ->. Qed.
Lemma nddot_col a b : slice a 44 50 = slice b 44 50 -> slice a 50 52 = slice b 50 52 -> parse_nddot a = parse_nddot b.
Proof. intros E1 E2. unfold parse_nddot. now rewrite (parse_int_col _ b _ _ _ E1), (sliceR_col _ b _ _ E2). Qed.
Lemma bstar_col a b : slice a 53 54 = slice b 53 54 -> slice a 54 59 = slice b 54 59 -> slice a 59 61 = slice b 59 61 -> parse_bstar a = parse_bstar b.
Proof. intros E1 E2 E3. unfold parse_bstar. now rewrite (sliceR_col _ b _ _ E1), (parse_int_col _ b _ _ _ E2), (sliceR_col _ b _ _ E3). Qed.
Lemma line1_col a b : agree used1 a b -> parse_line1 a = parse_line1 b.
Proof.
  intros H. apply agree_slices in H. unfold used1 in H. repeat (apply Forall_cons_iff in H; destruct H as [? H]). cbn [fst snd] in *.
  unfold parse_line1. rewrite (sliceR_col a b), (parse_int_col a b), !(parse_float_col a b), (nddot_col a b), (bstar_col a b) by assumption. reflexivity.
Qed.
Lemma line2_col a b : agree used2 a b -> parse_line2 a = parse_line2 b.
Proof.
  intros H. apply agree_slices in H. unfold used2 in H. repeat (apply Forall_cons_iff in H; destruct H as [? H]). cbn [fst snd] in *.
  unfold parse_line2, parse_ecco. rewrite (sliceR_col a b), !(parse_float_col a b) by assumption. reflexivity.
Qed.
End Any.

(** The whole outcome (record, error or panic) is a function of the used columns only. *)
Theorem C25_unused_columns_are_irrelevant :
  forall (F : Type) (FO : FloatOps F) (a1 a2 b1 b2 : str),
    agree used1 a1 b1 -> agree used2 a2 b2 ->
    parse_satrec a1 a2 = parse_satrec b1 b2 /\
    forall fuel, twoline2satrec fuel a1 a2 = twoline2satrec fuel b1 b2.
Proof.
  intros F FO a1 a2 b1 b2 H1 H2. assert (E : parse_satrec a1 a2 = parse_satrec b1 b2).
  { unfold parse_satrec. now rewrite (line1_col a1 b1 H1), (line2_col a2 b2 H2). }
  split; [exact E|]. intros fuel. unfold twoline2satrec. now rewrite E.
Qed.
Print Assumptions C25_unused_columns_are_irrelevant.

(** And each field of a decoded record is a function of its own columns only. *)
Theorem C25_fields_do_not_interfere :
  forall (F : Type) (FO : FloatOps F) (a1 a2 b1 b2 : str) (s t : Satrec F),
    parse_satrec a1 a2 = Done (Ok s) -> parse_satrec b1 b2 = Done (Ok t) ->
    (same_columns 2 7 a1 b1 -> sr_satnum s = sr_satnum t) /\
    (same_columns 18 20 a1 b1 -> sr_epochyr s = sr_epochyr t) /\
    (same_columns 20 32 a1 b1 -> sr_epochdays s = sr_epochdays t) /\
    (same_columns 18 20 a1 b1 -> same_columns 20 32 a1 b1 -> sr_jdsatepoch s = sr_jdsatepoch t) /\
    (same_columns 33 43 a1 b1 -> sr_ndot s = sr_ndot t) /\
    (same_columns 44 50 a1 b1 -> same_columns 50 52 a1 b1 -> sr_nddot s = sr_nddot t) /\
    (same_columns 53 54 a1 b1 -> same_columns 54 59 a1 b1 -> same_columns 59 61 a1 b1 -> sr_bstar s = sr_bstar t) /\
    (same_columns 8 16 a2 b2 -> sr_inclo s = sr_inclo t) /\
    (same_columns 17 25 a2 b2 -> sr_nodeo s = sr_nodeo t) /\
    (same_columns 26 33 a2 b2 -> sr_ecco s = sr_ecco t) /\
    (same_columns 34 42 a2 b2 -> sr_argpo s = sr_argpo t) /\
    (same_columns 43 51 a2 b2 -> sr_mo s = sr_mo t) /\
    (same_columns 52 63 a2 b2 -> sr_no s = sr_no t /\ sr_a s = sr_a t) /\
    (same_columns 26 33 a2 b2 -> same_columns 52 63 a2 b2 -> sr_alta s = sr_alta t /\ sr_altp s = sr_altp t) /\
    (* and no other field depends on the text *)
    s = set_altp (sr_altp s) (set_alta (sr_alta s) (set_a (sr_a s) (set_no (sr_no s) (set_mo (sr_mo s) (set_argpo (sr_argpo s) (set_ecco (sr_ecco s) (set_nodeo (sr_nodeo s) (set_inclo (sr_inclo s) (set_bstar (sr_bstar s) (set_nddot (sr_nddot s) (set_ndot (sr_ndot s) (set_jdsatepoch (sr_jdsatepoch s) (set_epochdays (sr_epochdays s) (set_epochyr (sr_epochyr s) (set_satnum (sr_satnum s) t))))))))))))))).
Proof.
  intros F FO a1 a2 b1 b2 s t Hs Ht.
  apply parse_satrec_inv in Hs. destruct Hs as (p & q & P1 & P2 & ->).
  apply parse_satrec_inv in Ht. destruct Ht as (p' & q' & Q1 & Q2 & ->).
  unfold parse_line2 in P2, Q2.
  assert (L2 : forall l (m : Line2), (try! inclo <- parse_float l "inclo" 8 16; try! nodeo <- parse_float l "nodeo" 17 25;
      try! ecco <- parse_ecco l; try! argpo <- parse_float l "argpo" 34 42; try! mo <- parse_float l "mo" 43 51;
      try! no <- parse_float l "no" 52 63;
      Done (Ok (MkLine2 (fmul inclo kDEG_2_RAD) (fmul nodeo kDEG_2_RAD) ecco (fmul argpo kDEG_2_RAD) (fmul mo kDEG_2_RAD) (fdiv no kXPDOTP)))) = Done (Ok m) ->
      exists i n e a mo no, parse_float l "inclo" 8 16 = Done (Ok i) /\ parse_float l "nodeo" 17 25 = Done (Ok n) /\ parse_ecco l = Done (Ok e) /\
        parse_float l "argpo" 34 42 = Done (Ok a) /\ parse_float l "mo" 43 51 = Done (Ok mo) /\ parse_float l "no" 52 63 = Done (Ok no) /\
        m = MkLine2 (fmul i kDEG_2_RAD) (fmul n kDEG_2_RAD) e (fmul a kDEG_2_RAD) (fmul mo kDEG_2_RAD) (fdiv no kXPDOTP)).
  { intros l m H. apply bindR_ok in H. destruct H as (i & H1 & H). apply bindR_ok in H. destruct H as (n & H2 & H).
    apply bindR_ok in H. destruct H as (e & H3 & H). apply bindR_ok in H. destruct H as (a & H4 & H).
    apply bindR_ok in H. destruct H as (mo & H5 & H). apply bindR_ok in H. destruct H as (no & H6 & H).
    injection H as <-. now exists i, n, e, a, mo, no. }
  apply L2 in P2. destruct P2 as (i & n & e & a & mo & no & B1 & B2 & B3 & B4 & B5 & B6 & ->).
  apply L2 in Q2. destruct Q2 as (i' & n' & e' & a' & mo' & no' & C1 & C2 & C3 & C4 & C5 & C6 & ->). clear L2.
  apply parse_line1_inv in P1. destruct P1 as (x1 & x2 & x3 & x4 & yr & nd & D1 & D2 & D3 & D4 & D5 & D6 & D7 & D8 & D9 & D10 & D11 & _).
  apply parse_line1_inv in Q1. destruct Q1 as (y1 & y2 & y3 & y4 & yr' & nd' & E1 & E2 & E3 & E4 & E5 & E6 & E7 & E8 & E9 & E10 & E11 & _).
  assert (Eyr : same_columns 18 20 a1 b1 -> l1_epochyr p = l1_epochyr p') by (intros H; apply same_slice in H; congruence).
  assert (Edy : same_columns 20 32 a1 b1 -> l1_epochdays p = l1_epochdays p') by (intros H; apply same_slice in H; congruence).
  assert (Eec : same_columns 26 33 a2 b2 -> e = e').
  { intros H. apply same_slice in H. unfold parse_ecco in B3, C3. rewrite (sliceR_col a2 b2) in B3 by assumption. congruence. }
  assert (Eno : same_columns 52 63 a2 b2 -> no = no') by (intros H; apply same_slice in H; rewrite (parse_float_col a2 b2) in B6 by assumption; congruence).
  unfold make_satrec. cbv zeta. cbn [sr_satnum sr_epochyr sr_epochdays sr_jdsatepoch sr_ndot sr_nddot sr_bstar sr_inclo sr_nodeo sr_ecco sr_argpo sr_mo sr_no sr_a sr_alta sr_altp
    l2_inclo l2_nodeo l2_ecco l2_argpo l2_mo l2_no l1_satnum l1_epochyr l1_epochdays l1_ndot l1_nddot l1_bstar
    set_jdsatepoch set_altp set_alta set_a set_no set_mo set_argpo set_ecco set_nodeo set_inclo set_bstar set_nddot set_ndot set_epochdays set_epochyr set_satnum set_operationmode].
  repeat match goal with |- _ /\ _ => split end; try (intros; assumption || (rewrite ?Eyr, ?Edy, ?Eec, ?Eno by assumption; reflexivity)).
  - intros H. apply same_slice in H. rewrite D2, E2. congruence.
  - intros H. apply same_slice in H. rewrite D9, E9. congruence.
  - intros H K. rewrite (nddot_col a1 b1) in D10 by (apply same_slice; assumption). congruence.
  - intros H K J. rewrite (bstar_col a1 b1) in D11 by (apply same_slice; assumption). congruence.
  - intros H. apply same_slice in H. rewrite (parse_float_col a2 b2) in B1 by assumption. congruence.
  - intros H. apply same_slice in H. rewrite (parse_float_col a2 b2) in B2 by assumption. congruence.
  - intros H. apply same_slice in H. rewrite (parse_float_col a2 b2) in B4 by assumption. congruence.
  - intros H. apply same_slice in H. rewrite (parse_float_col a2 b2) in B5 by assumption. congruence.
  - intros H. rewrite (Eno H). now split.
  - intros H K. rewrite (Eno K), (Eec H). now split.
Qed.
Print Assumptions C25_fields_do_not_interfere.

(** The lengths in these statements are those of the UTF-8 encoding, and a line's first byte is that of its encoding. *)
Theorem C25_byte_lengths :
  (forall p : str, blen p = List.length (encoded p)) /\
  (forall (line : str) lo hi x, columns line lo hi x ->
     encoded x = firstn (hi - lo) (skipn lo (encoded line))) /\
  (forall (c : Z) (p : str), hd_error (encoded (c :: p)) = Some (lead_byte c)).
Proof.
  assert (U : forall c, List.length (utf8 c) = len_utf8 c).
  { intros c. unfold utf8, len_utf8. destruct (c <? 128), (c <? 2048), (c <? 65536); reflexivity. }
  assert (B : forall p : str, blen p = List.length (encoded p)).
  { unfold encoded. induction p as [|c p IH]; [reflexivity|]. cbn [flat_map blen]. rewrite app_length, U, IH. reflexivity. }
  split; [exact B|]. split.
  - intros line lo hi x (p & q & -> & P & X). rewrite !B in X. rewrite B in P. unfold encoded in *. rewrite !flat_map_app.
    rewrite <- P, skipn_app, skipn_all, Nat.sub_diag. cbn [app skipn].
    replace (hi - List.length (flat_map utf8 p))%nat with (List.length (flat_map utf8 x) + 0)%nat by lia.
    rewrite firstn_app_2. cbn [firstn]. now rewrite app_nil_r.
  - intros c p. unfold encoded, utf8, lead_byte. cbn [flat_map]. destruct (c <? 128), (c <? 2048), (c <? 65536); reflexivity.
Qed.
Print Assumptions C25_byte_lengths.

(** Non-vacuity: two different texts (all unused columns changed) that agree on the used columns and decode. *)
Definition iss1 := of_string "1 25544U 98067A   18170.35562296  .00016717  00000-0  10270-3 0  9003".
Definition iss2 := of_string "2 25544  51.6416 299.2512 0003381 269.5310 185.0126 15.54171530118811".
Definition odd1 := of_string "?x25544@@@@@@@@@@@18170.35562296@ .00016717@ 00000-0@ 10270-3@@@@@@@".
Definition odd2 := of_string "zzzzzzzz 51.6416@299.2512@0003381@269.5310@185.0126@15.54171530".
Example C25_example :
  agree used1 iss1 odd1 /\ agree used2 iss2 odd2 /\ iss1 <> odd1 /\ iss2 <> odd2 /\
  (match @parse_satrec _ (B64Ops flat_lm) iss1 iss2, @parse_satrec _ (B64Ops flat_lm) odd1 odd2 with
   | Done (Ok s), Done (Ok t) => feq (sr_no s) (sr_no t) | _, _ => false end) = true.
Proof.
  assert (A : forall lo hi a b, slice a lo hi = slice b lo hi -> same_columns lo hi a b).
  { intros lo hi a b E x. now rewrite <- !slice_columns, E. }
  split; [unfold agree, used1; repeat (constructor; [apply A; reflexivity|]); constructor|].
  split; [unfold agree, used2; repeat (constructor; [apply A; reflexivity|]); constructor|].
  split; [vm_compute; congruence|]. split; [vm_compute; congruence|]. vm_compute. reflexivity.
Qed.
