(** * Strings, slices and numbers *)
From Coq Require Import ZArith List Bool Lia PeanoNat.
From Verif.Model Require Import Float Str.
Import ListNotations.
Local Open Scope Z_scope.

Lemma len_utf8_pos c : (1 <= len_utf8 c <= 4)%nat.
Proof. unfold len_utf8. destruct (c <? 128), (c <? 2048), (c <? 65536); lia. Qed.
Lemma length_le_blen s : (length s <= blen s)%nat.
Proof. induction s as [|c s IH]; cbn; [lia|]. pose proof (len_utf8_pos c). lia. Qed.
Lemma blen_app a b : blen (a ++ b) = (blen a + blen b)%nat.
Proof. induction a as [|c a IH]; cbn; [lia|]. rewrite IH. lia. Qed.
Lemma blen_rev a : blen (rev a) = blen a.
Proof. induction a as [|c a IH]; cbn; [lia|]. rewrite blen_app, IH. cbn. lia. Qed.
Lemma blen_0 s : blen s = 0%nat -> s = [].
Proof. destruct s as [|c s]; [easy|]. cbn. pose proof (len_utf8_pos c). lia. Qed.

(** ** Byte offsets: a slice cuts the string in three *)
Lemma bskip_inv n s r : bskip n s = Some r -> exists p, s = p ++ r /\ blen p = n.
Proof.
  revert n. induction s as [|c s IH]; intros [|n]; cbn [bskip].
  - intros [= <-]. now exists [].
  - discriminate.
  - intros [= <-]. now exists [].
  - destruct (Nat.leb_spec (len_utf8 c) (S n)); [|discriminate]. intros H1. apply IH in H1. destruct H1 as (p & -> & E).
    exists (c :: p). split; [reflexivity|]. cbn [blen]. lia.
Qed.
Lemma bskip_app p r : bskip (blen p) (p ++ r) = Some r.
Proof.
  induction p as [|c p IH]; cbn [blen app]; [now destruct r|].
  pose proof (len_utf8_pos c). destruct (len_utf8 c + blen p)%nat as [|n] eqn:E; [lia|]. cbn [bskip].
  destruct (Nat.leb_spec (len_utf8 c) (S n)); [|lia]. rewrite <- E. replace (len_utf8 c + blen p - len_utf8 c)%nat with (blen p) by lia.
  exact IH.
Qed.
Lemma btake_inv n s x : btake n s = Some x -> exists q, s = x ++ q /\ blen x = n.
Proof.
  revert n x. induction s as [|c s IH]; intros [|n] x; cbn [btake].
  - intros [= <-]. now exists [].
  - discriminate.
  - intros [= <-]. now exists (c :: s).
  - destruct (Nat.leb_spec (len_utf8 c) (S n)); [|discriminate].
    destruct (btake (S n - len_utf8 c) s) as [y|] eqn:E; [|discriminate]. cbn. intros [= <-].
    apply IH in E. destruct E as (q & -> & E). exists q. split; [reflexivity|]. cbn [blen]. lia.
Qed.
Lemma btake_app x q : btake (blen x) (x ++ q) = Some x.
Proof.
  induction x as [|c x IH]; cbn [blen app]; [now destruct q|].
  pose proof (len_utf8_pos c). destruct (len_utf8 c + blen x)%nat as [|n] eqn:E; [lia|]. cbn [btake].
  destruct (Nat.leb_spec (len_utf8 c) (S n)); [|lia]. rewrite <- E. replace (len_utf8 c + blen x - len_utf8 c)%nat with (blen x) by lia.
  now rewrite IH.
Qed.
Lemma slice_iff s lo hi x : slice s lo hi = Done x <->
  exists p q, s = p ++ x ++ q /\ blen p = lo /\ (lo + blen x = hi)%nat.
Proof.
  unfold slice. split.
  - destruct (Nat.leb_spec lo hi); [|discriminate]. destruct (bskip lo s) as [r|] eqn:E1; [|discriminate].
    destruct (btake (hi - lo) r) as [y|] eqn:E2; [|discriminate]. intros [= <-].
    apply bskip_inv in E1. destruct E1 as (p & -> & Ep). apply btake_inv in E2. destruct E2 as (q & -> & Eq).
    exists p, q. repeat split; lia.
  - intros (p & q & -> & Ep & Ex). destruct (Nat.leb_spec lo hi); [|lia]. rewrite <- Ep, bskip_app.
    replace (hi - blen p)%nat with (blen x) by lia. now rewrite btake_app.
Qed.
Lemma slice_blen s lo hi x : slice s lo hi = Done x -> blen x = (hi - lo)%nat.
Proof. intros H. apply slice_iff in H. destruct H as (p & q & _ & _ & E). lia. Qed.
Lemma slice_no_fuel s lo hi : slice s lo hi <> NoFuel.
Proof. unfold slice. destruct (Nat.leb lo hi); [|discriminate]. destruct (bskip lo s); [|discriminate]. now destruct (btake _ _). Qed.

(** ** trim *)
Lemma trim_start_suffix s : exists w, s = w ++ trim_start s /\ forallb is_ws w = true.
Proof.
  induction s as [|c s [w [E W]]]; [now exists []|]. cbn [trim_start]. destruct (is_ws c) eqn:C.
  - exists (c :: w). cbn. rewrite C. split; [now f_equal|exact W].
  - now exists [].
Qed.
Lemma trim_parts s : exists a b, s = a ++ trim s ++ b /\ forallb is_ws a = true /\ forallb is_ws b = true.
Proof.
  destruct (trim_start_suffix s) as (a & Ea & Wa). destruct (trim_start_suffix (rev (trim_start s))) as (b & Eb & Wb).
  exists a, (rev b). unfold trim. refine (conj _ (conj Wa _)).
  - rewrite <- rev_app_distr, <- Eb, rev_involutive. exact Ea.
  - rewrite forallb_forall in *. intros c Hc. apply Wb. now apply in_rev in Hc.
Qed.
Lemma trim_blen s : (blen (trim s) <= blen s)%nat.
Proof. destruct (trim_parts s) as (a & b & E & _). rewrite E at 2. rewrite !blen_app. lia. Qed.
Lemma trim_start_head s c r : trim_start s = c :: r -> is_ws c = false.
Proof. induction s as [|x s IH]; cbn; [discriminate|]. destruct (is_ws x) eqn:E; [exact IH|]. now intros [= -> ->]. Qed.
(** a string without blanks at its ends is left alone *)
Definition tight (s : str) : Prop := (forall c r, s = c :: r -> is_ws c = false) /\ (forall c r, s = r ++ [c] -> is_ws c = false).
Lemma trim_start_id s : (forall c r, s = c :: r -> is_ws c = false) -> trim_start s = s.
Proof. destruct s as [|c s]; [easy|]. intros H. cbn. now rewrite (H c s eq_refl). Qed.
Lemma trim_id s : tight s -> trim s = s.
Proof.
  intros [H1 H2]. unfold trim. rewrite (trim_start_id s H1). rewrite trim_start_id; [apply rev_involutive|].
  intros c r E. apply (H2 c (rev r)). rewrite <- (rev_involutive s), E. reflexivity.
Qed.
Lemma trim_ws_start a s : forallb is_ws a = true -> trim_start (a ++ s) = trim_start s.
Proof. induction a as [|c a IH]; [easy|]. cbn. destruct (is_ws c); [exact IH|discriminate]. Qed.
Lemma trim_start_ws_end s b : forallb is_ws b = true -> trim_start s <> [] -> trim_start (s ++ b) = trim_start s ++ b.
Proof. induction s as [|c s IH]; cbn; [congruence|]. destruct (is_ws c); [exact IH|reflexivity]. Qed.
Lemma trim_start_all b : forallb is_ws b = true -> trim_start b = [].
Proof. intros H. rewrite <- (app_nil_r b). now rewrite trim_ws_start. Qed.
Lemma trim_app a s b : forallb is_ws a = true -> forallb is_ws b = true -> tight s -> trim (a ++ s ++ b) = s.
Proof.
  intros Wa Wb T. unfold trim. rewrite trim_ws_start by assumption. destruct s as [|c s].
  - cbn [app]. rewrite (trim_start_all b) by assumption. reflexivity.
  - assert (E : trim_start (c :: s) = c :: s) by (apply trim_start_id, T).
    rewrite (trim_start_ws_end (c :: s) b Wb) by (rewrite E; discriminate). rewrite E, rev_app_distr.
    rewrite trim_ws_start by (rewrite forallb_forall in *; intros x Hx; apply Wb, in_rev, Hx).
    rewrite trim_start_id; [apply rev_involutive|]. intros x r Ex. destruct T as [_ T2]. apply (T2 x (rev r)).
    rewrite <- (rev_involutive (c :: s)), Ex. reflexivity.
Qed.
Lemma trim_tight s : tight (trim s).
Proof.
  unfold trim. split.
  - intros c r E. destruct (trim_start_suffix (rev (trim_start s))) as (b & Eb & _).
    apply (f_equal (@rev Z)) in Eb. rewrite rev_involutive, rev_app_distr, E in Eb. cbn [app] in Eb.
    apply (trim_start_head s c (r ++ rev b)). exact Eb.
  - intros c r E. apply (trim_start_head (rev (trim_start s)) c (rev r)).
    rewrite <- (rev_involutive (trim_start (rev (trim_start s)))), E, rev_app_distr. reflexivity.
Qed.

(** ** Digit strings *)
Definition digits (d : str) : Prop := forallb is_digit d = true.
Lemma is_digit_range c : is_digit c = true <-> 48 <= c <= 57.
Proof. unfold is_digit. rewrite andb_true_iff, !Z.leb_le. reflexivity. Qed.
Lemma digits_fold d acc : fold_left (fun acc c => acc * 10 + digit_val c) d acc = acc * 10 ^ Z.of_nat (length d) + digits_val d.
Proof.
  unfold digits_val. revert acc. induction d as [|c d IH]; intros acc; cbn [fold_left length]; [cbn; lia|].
  rewrite (IH (acc * 10 + digit_val c)), (IH (0 * 10 + digit_val c)). rewrite Nat2Z.inj_succ, Z.pow_succ_r by lia. ring.
Qed.
Lemma digits_val_cons c d : digits_val (c :: d) = digit_val c * 10 ^ Z.of_nat (length d) + digits_val d.
Proof. unfold digits_val at 1. cbn [fold_left]. rewrite digits_fold. ring. Qed.
Lemma digits_val_app a b : digits_val (a ++ b) = digits_val a * 10 ^ Z.of_nat (length b) + digits_val b.
Proof. unfold digits_val at 1. rewrite fold_left_app. rewrite digits_fold. reflexivity. Qed.
Lemma digits_val_range d : digits d -> 0 <= digits_val d < 10 ^ Z.of_nat (length d).
Proof.
  unfold digits. induction d as [|c d IH]; [cbn; lia|]. cbn [forallb length]. rewrite andb_true_iff. intros [Hc Hd].
  apply is_digit_range in Hc. specialize (IH Hd). rewrite digits_val_cons, Nat2Z.inj_succ, Z.pow_succ_r by lia. unfold digit_val. nia.
Qed.
Lemma span_digits_spec s d r : span_digits s = (d, r) -> s = d ++ r /\ digits d /\ (forall c q, r = c :: q -> is_digit c = false).
Proof.
  revert d r. induction s as [|c s IH]; intros d r; cbn [span_digits].
  - intros [= <- <-]. repeat split. discriminate.
  - destruct (is_digit c) eqn:C.
    + destruct (span_digits s) as [d' r'] eqn:E. intros [= <- <-]. destruct (IH d' r' eq_refl) as (-> & D & K).
      refine (conj eq_refl (conj _ K)). unfold digits. cbn. now rewrite C.
    + intros [= <- <-]. refine (conj eq_refl (conj eq_refl _)). now intros x q [= <- <-].
Qed.
Lemma span_digits_app d r : digits d -> (forall c q, r = c :: q -> is_digit c = false) -> span_digits (d ++ r) = (d, r).
Proof.
  unfold digits. induction d as [|c d IH]; cbn [forallb app]; intros D K.
  - destruct r as [|c r]; [reflexivity|]. cbn. now rewrite (K c r eq_refl).
  - apply andb_true_iff in D. destruct D as [C D]. cbn. rewrite C, IH by assumption. reflexivity.
Qed.
Lemma span_digits_all d : digits d -> span_digits d = (d, []).
Proof. intros D. rewrite <- (app_nil_r d) at 1. apply span_digits_app; [exact D|discriminate]. Qed.

(** magnitude of a parsed integer, by the length of its text *)
Lemma parse_i64_digits s v : parse_i64 s = Some v -> exists d, digits d /\ (0 < length d)%nat /\
  ((s = d /\ v = digits_val d) \/ (s = 43 :: d /\ v = digits_val d) \/ (s = 45 :: d /\ v = - digits_val d)).
Proof.
  unfold parse_i64.
  assert (G : forall (neg : bool) body, match body with
    | [] => None
    | _ => let (d, rest) := span_digits body in
           match rest with
           | [] => let v := if neg then - digits_val d else digits_val d in
                   if (- 9223372036854775808 <=? v) && (v <=? 9223372036854775807) then Some v else None
           | _ => None
           end
    end = Some v -> digits body /\ (0 < length body)%nat /\ v = if neg then - digits_val body else digits_val body).
  { intros neg body. destruct body as [|c body]; [discriminate|]. destruct (span_digits (c :: body)) as [d r] eqn:E.
    destruct (span_digits_spec _ _ _ E) as (Es & D & _). destruct r as [|]; [|discriminate]. rewrite app_nil_r in Es. cbv zeta.
    destruct (_ && _); [|discriminate]. intros [= <-]. rewrite Es. refine (conj D (conj _ eq_refl)). rewrite <- Es. cbn. lia. }
  destruct s as [|c r]; [discriminate|]. destruct (Z.eqb_spec c 45) as [->|].
  - intros H. apply (G true r) in H. destruct H as (D & L & ->). exists r. tauto.
  - destruct (Z.eqb_spec c 43) as [->|]; intros H.
    + apply (G false r) in H. destruct H as (D & L & ->). exists r. tauto.
    + apply (G false (c :: r)) in H. destruct H as (D & L & ->). exists (c :: r). tauto.
Qed.
Lemma parse_i64_short s v : parse_i64 s = Some v -> (length s <= 2)%nat -> -9 <= v <= 99.
Proof.
  intros H L. apply parse_i64_digits in H. destruct H as (d & D & P & H). pose proof (digits_val_range d D) as R.
  assert (A : forall k, (length d <= k)%nat -> digits_val d < 10 ^ Z.of_nat k).
  { intros k K. apply Z.lt_le_trans with (1 := proj2 R). apply Z.pow_le_mono_r; lia. }
  destruct H as [[-> ->]|[[-> ->]|[-> ->]]]; cbn [length] in L.
  - specialize (A 2%nat ltac:(lia)). cbn in A. lia.
  - specialize (A 1%nat ltac:(lia)). cbn in A. lia.
  - specialize (A 1%nat ltac:(lia)). cbn in A. lia.
Qed.
(** an unsigned digit string reads as its value *)
Lemma parse_i64_unsigned d : digits d -> (0 < length d <= 18)%nat -> parse_i64 d = Some (digits_val d).
Proof.
  intros D L. pose proof (digits_val_range d D) as R. assert (10 ^ Z.of_nat (length d) <= 10 ^ 18) by (apply Z.pow_le_mono_r; lia).
  unfold parse_i64. destruct d as [|c r] eqn:E; [cbn in L; lia|]. rewrite <- E in *.
  assert (C : 48 <= c <= 57). { apply is_digit_range. unfold digits in D. rewrite E in D. cbn in D. now apply andb_true_iff in D. }
  destruct (Z.eqb_spec c 45); [lia|]. destruct (Z.eqb_spec c 43); [lia|].
  rewrite span_digits_all by assumption. rewrite E at 1.
  replace (-9223372036854775808 <=? digits_val d) with true by (symmetry; apply Z.leb_le; lia).
  replace (digits_val d <=? 9223372036854775807) with true by (symmetry; apply Z.leb_le; lia). reflexivity.
Qed.

(** characters without blanks *)
Lemma ws_range c : is_ws c = true -> c <= 32 \/ 133 <= c.
Proof. unfold is_ws. rewrite !orb_true_iff, !andb_true_iff, !Z.eqb_eq, !Z.leb_le. lia. Qed.
Lemma not_ws c : 32 < c < 133 -> is_ws c = false.
Proof. intros H. destruct (is_ws c) eqn:E; [|reflexivity]. apply ws_range in E. lia. Qed.
Lemma tight_all s : (forall c, In c s -> is_ws c = false) -> tight s.
Proof.
  intros H. split.
  - intros c r ->. apply H. now left.
  - intros c r ->. apply H. apply in_or_app. right. now left.
Qed.
Lemma digits_tight d : digits d -> tight d.
Proof.
  intros D. apply tight_all. intros c Hc. unfold digits in D. rewrite forallb_forall in D. specialize (D c Hc).
  apply is_digit_range in D. apply not_ws. lia.
Qed.
Lemma digits_trim d : digits d -> trim d = d.
Proof. intros D. now apply trim_id, digits_tight. Qed.
