(** * Texts, lines, columns: the parser's splitting and slicing meets the specification *)
From Coq Require Import ZArith List Bool Lia PeanoNat.
From Verif.Model Require Import Float Str Io.
From Verif.Spec Require Import TextSpec.
From Verif.Proofs Require Import StrFacts.
Import ListNotations.
Local Open Scope Z_scope.

(** ** White space *)
Lemma white_ws c : white c = is_ws c.
Proof.
  apply eq_true_iff_eq. unfold white, is_ws. rewrite existsb_exists, !orb_true_iff, !andb_true_iff, !Z.eqb_eq, !Z.leb_le. split.
  - intros (x & I & E). apply Z.eqb_eq in E. subst x. cbn [In white_space] in I. lia.
  - intros H. exists c. split; [|apply Z.eqb_refl]. cbn [In white_space]. lia.
Qed.
Lemma blank_ws p : blank p = forallb is_ws p.
Proof. unfold blank. induction p as [|c p IH]; [reflexivity|]. cbn [forallb]. now rewrite white_ws, IH. Qed.

(** ** Lines *)
Lemma split_one p : one_line p -> split_nl p = [p].
Proof.
  unfold one_line. induction p as [|c p IH]; intros H; [reflexivity|]. cbn [split_nl].
  destruct (Z.eqb_spec c 10) as [->|]; [elim H; now left|]. rewrite IH; [reflexivity|]. intros K; apply H; now right.
Qed.
Lemma split_cons p r : one_line p -> split_nl (p ++ 10 :: r) = p :: split_nl r.
Proof.
  unfold one_line. induction p as [|c p IH]; intros H; [reflexivity|]. cbn [split_nl app].
  destruct (Z.eqb_spec c 10) as [->|]; [elim H; now left|]. rewrite IH; [reflexivity|]. intros K; apply H; now right.
Qed.
Lemma split_join ps : ps <> [] -> Forall one_line ps -> split_nl (join ps) = ps.
Proof.
  induction ps as [|p [|q ps] IH]; intros N H; [congruence| |]; inversion H; subst.
  - now apply split_one.
  - change (join (p :: q :: ps)) with (p ++ 10 :: join (q :: ps)). rewrite split_cons by assumption. rewrite IH; [reflexivity|discriminate|assumption].
Qed.
Lemma text_as_lines s : exists ps, ps <> [] /\ Forall one_line ps /\ s = join ps.
Proof.
  induction s as [|c s (ps & N & F & ->)].
  - exists [[]]. repeat split; [discriminate|]. constructor; [intros []|constructor].
  - destruct ps as [|p ps]; [congruence|]. destruct (Z.eq_dec c 10) as [->|NE].
    + exists ([] :: p :: ps). repeat split; [discriminate|]. constructor; [intros []|assumption].
    + exists ((c :: p) :: ps). repeat split; [discriminate| |].
      * inversion F; subst. constructor; [|assumption]. intros [E|K]; [congruence|contradiction].
      * destruct ps; reflexivity.
Qed.
Lemma nonblank_blank p : nonblank p = negb (blank p).
Proof.
  rewrite blank_ws. unfold nonblank. destruct (forallb is_ws p) eqn:E.
  - unfold trim. rewrite (trim_start_all p E). reflexivity.
  - destruct (trim p) as [|c r] eqn:T; [|reflexivity]. exfalso. destruct (trim_parts p) as (a & b & P & A & B).
    rewrite T in P. cbn [app] in P. rewrite P, forallb_app, A, B in E. discriminate E.
Qed.
Lemma filter_same {A} (f g : A -> bool) l : (forall x, f x = g x) -> filter f l = filter g l.
Proof. intros H. induction l as [|x l IH]; cbn; [reflexivity|]. now rewrite H, IH. Qed.
Lemma text_lines_join ps : Forall one_line ps -> text_lines (join ps) = content ps.
Proof.
  intros H. unfold text_lines, content. destruct ps as [|p ps]; [reflexivity|]. rewrite split_join; [|discriminate|assumption].
  apply filter_same. apply nonblank_blank.
Qed.
Lemma content_app a b : content (a ++ b) = content a ++ content b.
Proof. unfold content. apply filter_app. Qed.
Lemma content_nonblank ls : Forall (fun p => blank p = false) ls -> content ls = ls.
Proof. unfold content. induction 1 as [|p l H F IH]; cbn; [reflexivity|]. rewrite H, IH. reflexivity. Qed.
Lemma content_blank ls : Forall (fun p => blank p = true) ls -> content ls = [].
Proof. unfold content. induction 1 as [|p l H F IH]; cbn; [reflexivity|]. now rewrite H, IH. Qed.
Lemma content_in ps p : In p (content ps) -> In p ps /\ blank p = false.
Proof. unfold content. rewrite filter_In. destruct (blank p); intuition. Qed.
Lemma join_app a b : a <> [] -> b <> [] -> join (a ++ b) = join a ++ 10 :: join b.
Proof.
  intros Na Nb. induction a as [|p [|q a] IH]; [congruence| |].
  - destruct b as [|r b]; [congruence|reflexivity].
  - change ((p :: q :: a) ++ b) with (p :: (q :: a) ++ b).
    change (join (p :: q :: a)) with (p ++ 10 :: join (q :: a)).
    change (join (p :: (q :: a) ++ b)) with (p ++ 10 :: join ((q :: a) ++ b)). rewrite IH by discriminate. now rewrite <- app_assoc.
Qed.
Lemma nonblank_nonempty p : blank p = false -> exists c r, p = c :: r.
Proof. destruct p as [|c r]; [discriminate|]. intros _. now exists c, r. Qed.

(** ** Columns *)
Lemma slice_columns line lo hi x : slice line lo hi = Done x <-> columns line lo hi x.
Proof. rewrite slice_iff. unfold columns. split; intros (p & q & A & B & C); exists p, q; repeat split; try assumption; lia. Qed.
Lemma columns_unique line lo hi x y : columns line lo hi x -> columns line lo hi y -> x = y.
Proof. rewrite <- !slice_columns. congruence. Qed.
Lemma slice_cases line lo hi : (exists x, slice line lo hi = Done x /\ columns line lo hi x) \/ (slice line lo hi = Panic /\ forall x, ~ columns line lo hi x).
Proof.
  destruct (slice line lo hi) as [x| |] eqn:E.
  - left. exists x. now split; [|apply slice_columns].
  - right. split; [reflexivity|]. intros x H. apply slice_columns in H. congruence.
  - elim (slice_no_fuel _ _ _ E).
Qed.
Lemma same_slice lo hi a b : same_columns lo hi a b -> slice a lo hi = slice b lo hi.
Proof.
  intros H. destruct (slice_cases a lo hi) as [(x & E & C)|[E N]].
  - rewrite E. symmetry. apply slice_columns. now apply H.
  - rewrite E. destruct (slice_cases b lo hi) as [(y & E' & C')|[E' _]]; [|congruence]. apply H in C'. elim (N y C').
Qed.
Lemma columns_blen line lo hi x : columns line lo hi x -> (lo <= hi)%nat /\ blen x = (hi - lo)%nat /\ (hi <= blen line)%nat.
Proof. intros (p & q & -> & A & B). rewrite !blen_app. lia. Qed.
(** appending after the columns, or changing what precedes them, changes nothing *)
Lemma columns_prefix p q lo hi x : columns p lo hi x -> columns (p ++ q) lo hi x.
Proof. intros (a & b & -> & A & B). exists a, (b ++ q). repeat split; try assumption. now rewrite !app_assoc. Qed.
Lemma slice_beyond line lo hi : (blen line < hi)%nat -> slice line lo hi = Panic.
Proof. intros H. destruct (slice_cases line lo hi) as [(x & _ & C)|[E _]]; [|exact E]. apply columns_blen in C. lia. Qed.
(** columns of a text cut in two *)
Lemma app_split {A} (p q a b : list A) : p ++ q = a ++ b -> (length a <= length p)%nat -> exists m, p = a ++ m /\ b = m ++ q.
Proof.
  revert a. induction p as [|x p IH]; intros a E L.
  - destruct a; [|cbn in L; lia]. exists []. now split.
  - destruct a as [|y a]; [exists (x :: p); now split|]. cbn in E, L. injection E as -> E. destruct (IH a E) as (m & -> & ->); [lia|]. exists m. now split.
Qed.
Lemma blen_len_le a b p q : p ++ q = a ++ b -> (blen a <= blen p)%nat -> (length a <= length p)%nat.
Proof.
  intros E H. destruct (Nat.le_gt_cases (length a) (length p)) as [L|L]; [exact L|exfalso].
  assert (E' : a ++ b = p ++ q) by congruence. destruct (app_split a b p q E') as (m & -> & _); [lia|].
  rewrite blen_app in H. assert (blen m = 0%nat) by lia. apply blen_0 in H0. subst m. rewrite app_nil_r in L. lia.
Qed.
Lemma columns_cut p q lo hi x : (hi <= blen p)%nat -> columns (p ++ q) lo hi x -> columns p lo hi x.
Proof.
  intros H (a & b & E & A & B). rewrite app_assoc in E. destruct (app_split p q (a ++ x) b E) as (m & -> & ->).
  - apply (blen_len_le _ b _ q E). rewrite blen_app. lia.
  - exists a, m. now rewrite <- app_assoc.
Qed.
Lemma slice_prefix p q lo hi : (hi <= blen p)%nat -> slice (p ++ q) lo hi = slice p lo hi.
Proof. intros H. apply same_slice. intros x. split; [now apply columns_cut|apply columns_prefix]. Qed.
Lemma columns_suffix p q lo hi x : (blen p <= lo)%nat -> columns (p ++ q) lo hi x <-> columns q (lo - blen p) (hi - blen p) x /\ (lo <= hi)%nat.
Proof.
  intros H. split.
  - intros C. destruct (columns_blen _ _ _ _ C) as (LH & _). split; [|exact LH]. destruct C as (a & b & E & A & B).
    destruct (app_split a (x ++ b) p q) as (m & -> & E2); [congruence|apply (blen_len_le p q a (x ++ b)); [congruence|lia]|].
    exists m, b. rewrite blen_app in *. repeat split; [assumption|lia|lia].
  - intros [(a & b & -> & A & B) LH]. exists (p ++ a), b. rewrite blen_app. repeat split; [now rewrite app_assoc|lia|lia].
Qed.
Lemma slice_suffix p p' q lo hi : blen p = blen p' -> (blen p <= lo)%nat -> slice (p ++ q) lo hi = slice (p' ++ q) lo hi.
Proof. intros E H. apply same_slice. intros x. rewrite !columns_suffix by lia. now rewrite E. Qed.
Lemma ascii_blen p : ascii p -> blen p = length p.
Proof.
  unfold ascii. induction p as [|c p IH]; intros H; [reflexivity|]. cbn [blen length]. rewrite IH by (intros d D; apply H; now right).
  specialize (H c (or_introl eq_refl)). unfold len_utf8. destruct (Z.ltb_spec c 128); lia.
Qed.
Lemma ascii_slice line lo hi : ascii line -> (lo <= hi <= length line)%nat -> exists x, slice line lo hi = Done x.
Proof.
  intros A H. exists (firstn (hi - lo) (skipn lo line)). apply slice_columns.
  exists (firstn lo line), (skipn (hi - lo) (skipn lo line)). rewrite !firstn_skipn.
  assert (SA : forall l, (forall c, In c l -> In c line) -> blen l = length l) by (intros l Hl; apply ascii_blen; intros c Hc; apply A, Hl, Hc).
  assert (B1 : blen (firstn lo line) = lo).
  { rewrite SA; [rewrite firstn_length; lia|]. intros c Hc. rewrite <- (firstn_skipn lo line). apply in_or_app. now left. }
  assert (B2 : blen (firstn (hi - lo) (skipn lo line)) = (hi - lo)%nat).
  { rewrite SA; [rewrite firstn_length, skipn_length; lia|]. intros c Hc. rewrite <- (firstn_skipn lo line). apply in_or_app. right.
    rewrite <- (firstn_skipn (hi - lo) (skipn lo line)). apply in_or_app. now left. }
  rewrite B1, B2. repeat split; lia.
Qed.
(** first byte of a line *)
Lemma lead_is c b : b < 128 -> lead_byte c = b -> c = b.
Proof.
  unfold lead_byte. intros B. destruct (Z.ltb_spec c 128); [easy|]. destruct (Z.ltb_spec c 2048); [|destruct (Z.ltb_spec c 65536)].
  - pose proof (Z.div_pos c 64). lia.
  - pose proof (Z.div_pos c 4096). lia.
  - pose proof (Z.div_pos c 262144). lia.
Qed.
Lemma lead_ascii b : b < 128 -> lead_byte b = b.
Proof. unfold lead_byte. intros B. destruct (Z.ltb_spec b 128); [reflexivity|lia]. Qed.
Lemma starts_spec b c r : b < 128 -> starts_with_byte b (c :: r) = Done (c =? b).
Proof.
  intros B. unfold starts_with_byte. cbn [byte0 bindO]. f_equal. destruct (Z.eqb_spec c b) as [->|N].
  - rewrite lead_ascii by assumption. apply Z.eqb_refl.
  - apply Z.eqb_neq. intros E. apply N. now apply lead_is.
Qed.
