(** * C26: checksums and the second line's satellite number are never looked at (defect) *)
From Coq Require Import ZArith List Bool String Lia.
From Verif.Model Require Import Float Str Satrec Constants Sgp4 Sgp4init Io.
From Verif.Inst Require Import B64.
From Verif.Golden Require Import Flat.
From Verif.Spec Require Import TextSpec.
From Verif.Proofs Require Import StrFacts IoFacts TextFacts.
From Verif.Props Require Import C25.
Import ListNotations.
Local Open Scope Z_scope.

(** The TLE checksum: sum of the digits, '-' counting one, modulo ten, over the first 68 characters;
    it is written in the 69th. *)
Definition weight (c : Z) : Z := if is_digit c then c - 48 else if c =? 45 then 1 else 0.
Definition checksum (line : str) : Z := (fold_right Z.add 0 (map weight (firstn 68 line))) mod 10.
Definition checksum_ok (line : str) : Prop := exists body c, line = body ++ [c] /\ List.length body = 68%nat /\ c = 48 + checksum line.

Lemma same_cols_slice lo hi a b : slice a lo hi = slice b lo hi -> same_columns lo hi a b.
Proof. intros E x. now rewrite <- !slice_columns, E. Qed.
Lemma agree_tail cols p q q' n : Forall (fun c => (snd c <= n)%nat) cols -> (n <= blen p)%nat -> agree cols (p ++ q) (p ++ q').
Proof.
  intros H N. unfold agree. eapply Forall_impl; [|exact H]. intros [lo hi]. cbn [fst snd]. intros L.
  apply same_cols_slice. now rewrite !slice_prefix by lia.
Qed.
Lemma agree_head cols p p' q n : Forall (fun c => (n <= fst c)%nat) cols -> blen p = n -> blen p' = n -> agree cols (p ++ q) (p' ++ q).
Proof.
  intros H N N'. unfold agree. eapply Forall_impl; [|exact H]. intros [lo hi]. cbn [fst snd]. intros L.
  apply same_cols_slice. apply slice_suffix; lia.
Qed.
Lemma agree_refl cols a : agree cols a a.
Proof. apply Forall_forall. intros c _ x. reflexivity. Qed.
Lemma agree_trans cols a b c : agree cols a b -> agree cols b c -> agree cols a c.
Proof. unfold agree. rewrite !Forall_forall. intros H K x Hx y. now rewrite (H x Hx y), (K x Hx y). Qed.

(** Whatever is written from column 61 of line 1 on, from column 63 of line 2 on, and in the first
    eight columns of line 2 (line number and satellite number), the outcome is the same. *)
Theorem C26_checksum_and_satnum_never_read :
  forall (F : Type) (FO : FloatOps F) fuel (p1 q1 q1' n n' p2 q2 q2' : str),
    (61 <= blen p1)%nat -> blen n = 8%nat -> blen n' = 8%nat -> (55 <= blen p2)%nat ->
    parse_satrec (p1 ++ q1) (n ++ p2 ++ q2) = parse_satrec (p1 ++ q1') (n' ++ p2 ++ q2') /\
    twoline2satrec fuel (p1 ++ q1) (n ++ p2 ++ q2) = twoline2satrec fuel (p1 ++ q1') (n' ++ p2 ++ q2').
Proof.
  intros F FO fuel p1 q1 q1' n n' p2 q2 q2' H1 N N' H2.
  assert (A1 : agree used1 (p1 ++ q1) (p1 ++ q1')).
  { apply agree_tail with (n := 61%nat); [|exact H1]. unfold used1. repeat (constructor; [cbn; lia|]). constructor. }
  assert (A2 : agree used2 (n ++ p2 ++ q2) (n' ++ p2 ++ q2')).
  { apply agree_trans with (n' ++ p2 ++ q2).
    - apply agree_head with (n := 8%nat); [|assumption|assumption]. unfold used2. repeat (constructor; [cbn; lia|]). constructor.
    - rewrite !app_assoc. apply agree_tail with (n := 63%nat); [|rewrite blen_app; lia]. unfold used2. repeat (constructor; [cbn; lia|]). constructor. }
  destruct (C25_unused_columns_are_irrelevant F FO _ _ _ _ A1 A2) as [E1 E2]. split; [exact E1|apply E2].
Qed.
Print Assumptions C26_checksum_and_satnum_never_read.

(** Hence every 69-character element set that is accepted is still accepted, as the very same
    record, after its checksums are spoiled and its second line's satellite number is replaced. *)
Theorem C26_spoiled_sets_are_accepted :
  forall (F : Type) (FO : FloatOps F) fuel (l1 l2 : str) (s : Satrec F),
    ascii l1 -> ascii l2 -> List.length l1 = 69%nat -> List.length l2 = 69%nat ->
    twoline2satrec fuel l1 l2 = Done (Ok s) ->
    exists m1 m2,
      List.length m1 = 69%nat /\ List.length m2 = 69%nat /\ ~ checksum_ok m1 /\ ~ checksum_ok m2 /\
      slice m2 2 7 <> slice l1 2 7 /\
      twoline2satrec fuel m1 m2 = Done (Ok s).
Proof.
  intros F FO fuel l1 l2 s A1 A2 N1 N2 H.
  assert (SP : forall body, List.length body = 68%nat -> ~ checksum_ok (body ++ [120])).
  { intros body LB (b & c & E & L & C). apply app_inj_tail in E. destruct E as [_ <-].
    unfold checksum in C. pose proof (Z.mod_pos_bound (fold_right Z.add 0 (map weight (firstn 68 (body ++ [120])))) 10). lia. }
  assert (LEN : forall l k, ascii l -> (k <= List.length l)%nat -> blen (firstn k l) = k).
  { intros l k A K. rewrite ascii_blen; [now apply firstn_length_le|]. intros c Hc. apply A. rewrite <- (firstn_skipn k l). apply in_or_app. now left. }
  (* pick a satellite number different from line 1's *)
  destruct (ascii_slice l1 2 7 A1) as [x X]; [lia|].
  set (y := if list_eq_dec Z.eq_dec x [120;120;120;120;120] then [121;121;121;121;121] else [120;120;120;120;120]).
  assert (Y : y <> x). { unfold y. destruct (list_eq_dec Z.eq_dec x [120;120;120;120;120]) as [->|]; congruence. }
  assert (Yl : blen y = 5%nat /\ List.length y = 5%nat) by (unfold y; destruct (list_eq_dec Z.eq_dec x _); now split).
  destruct Yl as [Yb Yl].
  set (n' := [50; 32] ++ y ++ [32]).
  exists (firstn 68 l1 ++ [120]), (n' ++ firstn 60 (skipn 8 l2) ++ [120]).
  assert (LS : List.length (firstn 60 (skipn 8 l2)) = 60%nat) by (rewrite firstn_length, skipn_length; lia).
  split; [rewrite app_length, firstn_length, N1; reflexivity|].
  split; [unfold n'; rewrite !app_length, LS, Yl; reflexivity|].
  split; [apply SP; rewrite firstn_length; lia|].
  split. { rewrite app_assoc. apply SP. unfold n'. rewrite !app_length, LS, Yl. reflexivity. }
  split.
  { rewrite X. assert (E : slice (n' ++ firstn 60 (skipn 8 l2) ++ [120]) 2 7 = Done y).
    { apply slice_columns. exists [50; 32], ([32] ++ firstn 60 (skipn 8 l2) ++ [120]). unfold n'. rewrite <- !app_assoc. repeat split. rewrite Yb. reflexivity. }
    rewrite E. congruence. }
  rewrite <- H. destruct (C26_checksum_and_satnum_never_read F FO fuel (firstn 68 l1) [120] (skipn 68 l1) n' (firstn 8 l2) (firstn 60 (skipn 8 l2)) [120] (skipn 60 (skipn 8 l2))) as [_ E].
  - rewrite LEN by (assumption || lia). lia.
  - unfold n'. rewrite !blen_app, Yb. reflexivity.
  - apply LEN; [assumption|lia].
  - rewrite LEN; [lia| |rewrite skipn_length; lia]. intros c Hc. apply A2. rewrite <- (firstn_skipn 8 l2). apply in_or_app. now right.
  - rewrite E, !firstn_skipn. reflexivity.
Qed.
Print Assumptions C26_spoiled_sets_are_accepted.

(** Non-vacuity: the ISS set is accepted; so it is with wrong checksums and another number on line 2. *)
Definition good1 := of_string "1 25544U 98067A   18170.35562296  .00016717  00000-0  10270-3 0  9002".
Definition good2 := of_string "2 25544  51.6416 299.2512 0003381 269.5310 185.0126 15.54171530118810".
Definition bad1 := of_string "1 25544U 98067A   18170.35562296  .00016717  00000-0  10270-3 0  9005".
Definition bad2 := of_string "2 99999  51.6416 299.2512 0003381 269.5310 185.0126 15.54171530118814".
Lemma checksum_spec line : List.length line = 69%nat -> (checksum_ok line <-> nth 68 line 0 = 48 + checksum line).
Proof.
  intros N. split.
  - intros (b & c & -> & Lb & C). rewrite app_nth2, Lb by lia. exact C.
  - intros E. exists (firstn 68 line), (nth 68 line 0). repeat split; [|rewrite firstn_length; lia|exact E].
    rewrite <- (firstn_skipn 68 line) at 1. f_equal. assert (LS : List.length (skipn 68 line) = 1%nat) by (rewrite skipn_length; lia).
    rewrite <- (firstn_skipn 68 line) at 2. rewrite app_nth2, firstn_length by (rewrite firstn_length; lia). rewrite N. cbn [Nat.min Nat.sub].
    destruct (skipn 68 line) as [|z [|]]; try discriminate LS. reflexivity.
Qed.
Example C26_example :
  (match @twoline2satrec _ (B64Ops flat_lm) 0 good1 good2, @twoline2satrec _ (B64Ops flat_lm) 0 bad1 bad2 with
   | Done (Ok s), Done (Ok t) => feq (sr_no s) (sr_no t) | _, _ => false end) = true /\
  checksum_ok good1 /\ checksum_ok good2 /\ ~ checksum_ok bad1 /\ ~ checksum_ok bad2.
Proof.
  split; [vm_compute; reflexivity|].
  rewrite !checksum_spec by reflexivity. split; [vm_compute; reflexivity|]. split; [vm_compute; reflexivity|]. split; vm_compute; congruence.
Qed.
