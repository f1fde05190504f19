(** * C71: the same answers on every platform *)
From Coq Require Import ZArith List Bool String Reals Lra Lia.
From Flocq Require Import Core.Raux IEEE754.BinarySingleNaN.
From Verif.Model Require Import Float Str Satrec Constants Ext Vec3 Sgp4 Sgp4init Propagate Io.
From Verif.Inst Require Import RInst RTac B64 B64Facts.
From Verif.Spec Require Import Calendar TextSpec NumText TleSpec Str3Api Sgp4Spec PeriodicSpec LibmAccuracy NearAccuracy DeepAccuracy Agreement.
From Verif.Spec Require Str3.
From Verif.Proofs Require Import VisViva SameState Sgp4Frame IoFacts ParseFacts DecodeFacts.
From Verif.Props Require Import C07 C08 C24 C28 C54 C58 C63 C67 C69 C70.
From Verif.Props Require C25 C57 C62.
From Verif.Proofs Require LibmExists.
Import ListNotations.
Local Open Scope R_scope.

Lemma both_close e v w x : NearAccuracy.close e v x -> NearAccuracy.close e w x -> within (2 * e) v w.
Proof.
  intros ((F1 & X1) & (F2 & X2) & (F3 & X3)) ((G1 & Y1) & (G2 & Y2) & (G3 & Y3)).
  assert (T : forall a b c, Rabs (a - c) <= e -> Rabs (b - c) <= e -> Rabs (a - b) <= 2 * e) by (intros a b c A B; apply Rabs_le_inv in A, B; apply Rabs_le; lra).
  repeat split; try assumption; eapply T; eassumption.
Qed.
Lemma side x m : ~ Rabs x < m -> 0 < m -> x <= - m \/ m <= x.
Proof. intros H M. destruct (Rle_dec x (- m)); [now left|]. destruct (Rle_dec m x); [now right|]. exfalso. apply H, Rabs_def1; lra. Qed.

Lemma near_agree full el tm a b : near_outcome64 full el tm a -> near_outcome64 full el tm b -> ~ near_borderline el full tm ->
  agree (24 / 100000) (4 / 10000000) a b.
Proof.
  intros (A1 & A2) (B1 & B2) N. unfold near_borderline in N.
  destruct (side _ _ (fun H => N (or_introl H)) ltac:(lra)) as [L|L]; [rewrite (A1 ltac:(lra)), (B1 ltac:(lra)); reflexivity|].
  destruct (A2 ltac:(lra)) as (E & u & KA & SU & CU & _ & A3 & A4). destruct (B2 ltac:(lra)) as (E' & u' & KB & SU' & CU' & _ & B3 & B4).
  rewrite <- (kepler_angle_unique _ _ _ _ _ KA KB) in *. clear E' KB. rewrite <- SU in SU'. rewrite <- CU in CU'.
  rewrite (same_rk el full tm 0 (Str3.i0 el) E u' u SU' CU'), (same_position el full tm 0 (Str3.i0 el) E u' u SU' CU'), (same_velocity el full tm 0 (Str3.i0 el) E u' u SU' CU') in *.
  assert (Q : ~ Rabs (Str3.rk el full tm 0 (Str3.i0 el) E u - 1) < 1 / 100000000) by (intros H; apply N; right; exists E, u; auto).
  destruct (side _ _ Q ltac:(lra)) as [D|D]; [rewrite (A3 ltac:(lra)), (B3 ltac:(lra)); reflexivity|].
  destruct (A4 ltac:(lra)) as (v & -> & P1 & V1 & _). destruct (B4 ltac:(lra)) as (w & -> & P2 & V2 & _).
  split; [replace (24 / 100000) with (2 * (12 / 100000)) by field|replace (4 / 10000000) with (2 * (2 / 10000000)) by field]; eapply both_close; eassumption.
Qed.
Lemma deep_agree el sR tm a b : deep_outcome64 el sR tm a -> deep_outcome64 el sR tm b -> ~ deep_borderline el sR tm ->
  agree (28 / 100000) (12 / 100000000) a b.
Proof.
  intros (A1 & A2 & A3) (B1 & B2 & B3) N. unfold deep_borderline in N.
  destruct (side _ _ (fun H => N (or_introl H)) ltac:(lra)) as [L|L]; [rewrite (A1 ltac:(lra)), (B1 ltac:(lra)); reflexivity|].
  destruct (side _ _ (fun H => N (or_intror H)) ltac:(lra)) as [D|D]; [rewrite (A2 ltac:(lra) ltac:(lra)), (B2 ltac:(lra) ltac:(lra)); reflexivity|].
  destruct (A3 ltac:(lra) D) as (v & E & u & -> & KA & SU & CU & _ & P1 & V1 & _). destruct (B3 ltac:(lra) D) as (w & E' & u' & -> & KB & SU' & CU' & _ & P2 & V2 & _).
  rewrite <- (kepler_angle_unique _ _ _ _ _ KA KB) in *. clear E' KB. rewrite <- SU in SU'. rewrite <- CU in CU'.
  set (de := sr_dedt sR * tm) in *. set (i := Rabs _) in *.
  rewrite (same_position el false tm de i E u' u SU' CU') in P2. rewrite (same_velocity el false tm de i E u' u SU' CU') in V2.
  split; [replace (28 / 100000) with (2 * (14 / 100000)) by field|replace (12 / 100000000) with (2 * (6 / 100000000)) by field]; eapply both_close; eassumption.
Qed.
Lemma eccentric_agree el sR tm a b : eccentric_outcome64 el sR tm a -> eccentric_outcome64 el sR tm b -> ~ eccentric_borderline el sR tm ->
  agree (52 / 10000) (64 / 10000000) a b.
Proof.
  intros (E & u & KA & SU & CU & A3 & A4) (E' & u' & KB & SU' & CU' & B3 & B4) N.
  rewrite <- (kepler_angle_unique _ _ _ _ _ KA KB) in *. clear E' KB. rewrite <- SU in SU'. rewrite <- CU in CU'.
  unfold eccentric_borderline in N. set (de := sr_dedt sR * tm) in *. set (i := Rabs _) in *.
  rewrite (same_rk el false tm de i E u' u SU' CU'), (same_position el false tm de i E u' u SU' CU'), (same_velocity el false tm de i E u' u SU' CU') in *.
  assert (Q : ~ Rabs (Str3.rk el false tm de i E u - 1) < 1 / 50000000) by (intros H; apply N; exists E, u; auto).
  destruct (side _ _ Q ltac:(lra)) as [D|D]; [rewrite (A3 ltac:(lra)), (B3 ltac:(lra)); reflexivity|].
  destruct (A4 ltac:(lra)) as (v & -> & _ & P1 & V1 & _). destruct (B4 ltac:(lra)) as (w & -> & _ & P2 & V2 & _).
  split; [replace (52 / 10000) with (2 * (26 / 10000)) by field|replace (64 / 10000000) with (2 * (32 / 10000000)) by field]; eapply both_close; eassumption.
Qed.

(** From text: what is borderline and how close the answers are, for the three kinds. *)
Definition borderline (k : kind) (t : tle) (sR : Satrec R) (tm : R) : Prop :=
  match k with
  | Near full => near_borderline (tle_elements t) full tm
  | Deep => deep_borderline (tle_elements t) sR tm
  | Eccentric => eccentric_borderline (tle_elements t) sR tm
  end.
Definition agreeing (k : kind) : result (SGP4Result b64) SGP4Error -> result (SGP4Result b64) SGP4Error -> Prop :=
  match k with
  | Near _ => agree (24 / 100000) (4 / 10000000)
  | Deep => agree (28 / 100000) (12 / 100000000)
  | Eccentric => agree (52 / 10000) (64 / 10000000)
  end.
Lemma answers_agree k t sR tm a b : answer k t sR tm a -> answer k t sR tm b -> ~ borderline k t sR tm -> agreeing k a b.
Proof. destruct k; [apply near_agree|apply deep_agree|apply eccentric_agree]. Qed.

(** ** The elapsed time does not depend on the library *)
Section Same.
Variables (F : Type) (A B : FloatOps F).
Hypothesis H1 : @fadd F A = @fadd F B.
Hypothesis H2 : @fsub F A = @fsub F B.
Hypothesis H3 : @fmul F A = @fmul F B.
Hypothesis H4 : @fdiv F A = @fdiv F B.
Hypothesis H5 : @ffloor F A = @ffloor F B.
Hypothesis H6 : @flit F A = @flit F B.
Hypothesis H7 : @fofZ F A = @fofZ F B.
Hypothesis H8 : @ftoU64 F A = @ftoU64 F B.
Lemma same_jday y mo d h mi s ms : @jday F A y mo d h mi s ms = @jday F B y mo d h mi s ms.
Proof. unfold jday, L. now rewrite H1, H2, H3, H4, H5, H6. Qed.
Lemma same_jday_datetime d : @jday_datetime F A d = @jday_datetime F B d.
Proof. unfold jday_datetime. now rewrite same_jday, H7. Qed.
Lemma same_jdsatepoch y d : @tle_jdsatepoch F A y d = @tle_jdsatepoch F B y d.
Proof.
  unfold tle_jdsatepoch, days2mdhms, L. rewrite H8, H5, H7, H2, H3, H6. destruct (month_loop _ _ _ _) as [i j]. cbn [mh_month mh_day mh_hour mh_minute mh_second]. now rewrite same_jday.
Qed.
Lemma same_minutes d j : @fmul F A (@fsub F A (@jday_datetime F A d) j) (@L F A 1440 0) = @fmul F B (@fsub F B (@jday_datetime F B d) j) (@L F B 1440 0).
Proof. rewrite same_jday_datetime. unfold L. now rewrite H2, H3, H6. Qed.
End Same.

Lemma same_epoch lm lm' l1 l2 t (p p' : Satrec b64) :
  @parse_satrec _ (B64Ops lm) l1 l2 = Done (Ok p) -> @parse_satrec _ (B64Ops lm') l1 l2 = Done (Ok p') ->
  sr_epochyr p = t_year t -> sr_epochyr p' = t_year t -> nearest (sr_epochdays p) (t_day t) -> nearest (sr_epochdays p') (t_day t) -> 1 <= dec_value (t_day t) ->
  sr_jdsatepoch p = sr_jdsatepoch p'.
Proof.
  intros P P' Y Y' (F & E) (F' & E') G.
  assert (S : forall x : b64, B2R x = rnd (dec_value (t_day t)) -> is_finite_strict x = true).
  { intros x Ex. assert (1 <= B2R x). { rewrite Ex. rewrite <- (rnd_id 1) by (apply (fmt_int 1); cbn; lia). now apply rnd_le. } destruct x; cbn [B2R] in *; try reflexivity; lra. }
  assert (D : sr_epochdays p = sr_epochdays p') by (apply B2R_inj; [now apply S|now apply S|now rewrite E, E']).
  apply parse_satrec_inv in P, P'. destruct P as (a & b & _ & _ & ->). destruct P' as (a' & b' & _ & _ & ->).
  change (l1_epochdays a = l1_epochdays a') in D. change (l1_epochyr a = t_year t) in Y. change (l1_epochyr a' = t_year t) in Y'.
  change (tle_jdsatepoch (FO := B64Ops lm) (l1_epochyr a) (l1_epochdays a) = tle_jdsatepoch (FO := B64Ops lm') (l1_epochyr a') (l1_epochdays a')).
  rewrite D, Y, Y'. apply same_jdsatepoch; reflexivity.
Qed.
Lemma same_elapsed lm lm' (s s' : Satrec b64) d : sr_jdsatepoch s = sr_jdsatepoch s' -> elapsed64 lm s d = elapsed64 lm' s' d.
Proof.
  intros J. unfold elapsed64. rewrite J. apply same_minutes; reflexivity.
Qed.

Lemma at_elapsed lm n (s : Satrec b64) d : propogate_datetime (FO := B64Ops lm) n s d = returned (sgp4 (FO := B64Ops lm) n s (elapsed64 lm s d)).
Proof. exact (C08_is_sgp4 b64 (B64Ops lm) n s d). Qed.

(** what decoding gives, for the three kinds *)
Lemma day_usual k t : in_scope k t -> 1 <= dec_value (t_day t) <= IZR (year_length (full_year (t_year t))) + 1 - 1 / 100000000.
Proof.
  destruct k as [full| |]; cbn [in_scope]; [intros ((_ & _ & _ & _ & _ & _ & _ & U & _) & _)|intros (_ & _ & _ & _ & _ & _ & _ & U & _)|intros (_ & _ & _ & _ & _ & _ & _ & U & _)]; exact U.
Qed.
Lemma horizon_43200 k t : horizon k t <= 43199.
Proof. destruct k; cbn [horizon]; try lra. unfold span. destruct (Rle_dec _ _); lra. Qed.
Lemma decoded_any (lm : libm) l1 l2 k t x : well_written l1 l2 t -> in_scope k t -> epoch_days t x ->
  exists p : Satrec b64, @parse_satrec _ (B64Ops lm) l1 l2 = Done (Ok p) /\ sr_epochyr p = t_year t /\ nearest (sr_epochdays p) (t_day t).
Proof.
  intros W S HX. destruct k as [full| |]; cbn [in_scope] in S.
  - destruct S as (U & _). destruct (decoded64 lm l1 l2 t W U) as (p & PA & _ & _ & _ & Y1 & Y2). eauto.
  - destruct (deep_decoded64 lm l1 l2 t x W S HX) as (p & PA & _ & _ & Y1 & Y2). eauto.
  - destruct (eccentric_decoded64 lm l1 l2 t x W S HX) as (p & PA & _ & _ & Y1 & Y2). eauto.
Qed.
Lemma record_epoch (lm : libm) fuel l1 l2 k t x s : well_written l1 l2 t -> in_scope k t -> epoch_days t x ->
  twoline2satrec (FO := B64Ops lm) fuel l1 l2 = Done (Ok s) ->
  sr_epochyr s = t_year t /\ nearest (sr_epochdays s) (t_day t) /\ exists p, @parse_satrec _ (B64Ops lm) l1 l2 = Done (Ok p) /\ sr_jdsatepoch s = sr_jdsatepoch p /\ sr_epochyr p = t_year t /\ nearest (sr_epochdays p) (t_day t).
Proof.
  intros W S HX T. destruct (decoded_any lm l1 l2 k t x W S HX) as (p & PA & Y1 & Y2).
  destruct (C07_ready _ _ _ _ _ _ T) as (p' & v' & PA' & _ & _ & _ & _ & _ & _ & Q1 & Q2 & Q3 & _). rewrite PA in PA'. injection PA' as <-.
  rewrite Q1, Q2. eauto 8.
Qed.

Lemma same_record {F} {FO : FloatOps F} fuel l1 l2 (p s s1 : Satrec F) r : parse_satrec l1 l2 = Done (Ok p) -> sgp4init fuel p (tle_options p) = Done (s1, r) ->
  twoline2satrec fuel l1 l2 = Done (Ok s) -> s1 = s.
Proof.
  intros P H T. assert (X : twoline2satrec fuel l1 l2 = Done (match r with Ok _ => Ok s1 | Err e => Err (Sgp4InitError e) end)) by (unfold twoline2satrec; rewrite P; cbn [bindR]; rewrite H; now destruct r).
  clear P H. rewrite T in X. destruct r; [|discriminate X]. assert (Y : forall b c : Satrec F, Done (@Ok _ SatrecParseError b) = Done (Ok c) -> b = c) by (intros b c Q; congruence). symmetry. exact (Y _ _ X).
Qed.
Lemma returned_done {F} (x : outcome (Satrec F * result (SGP4Result F) SGP4Error)) s' res : x = Done (s', res) -> returned x = Done res.
Proof. intros ->. reflexivity. Qed.

(** the state for any time, on a decoded record *)
Lemma record_answers (lm : libm) (ACC : accurate lm) fuel fuel' l1 l2 k t x sR s (tt : b64) : well_written l1 l2 t -> in_scope k t -> epoch_days t x -> exact_record t x sR -> (60 <= fuel')%nat ->
  twoline2satrec (FO := B64Ops lm) fuel l1 l2 = Done (Ok s) -> is_finite tt = true -> Rabs (B2R tt) <= horizon k t + 1 ->
  exists res, returned (sgp4 (FO := B64Ops lm) fuel' s tt) = Done res /\ answer k t sR (B2R tt) res.
Proof.
  intros W S HX (fuelR & s0R & rR & HR) HF T F I. apply Rabs_le_inv in I.
  destruct k as [full| |]; cbn [in_scope horizon answer] in *.
  - destruct S as (U & P). destruct (decoded64 lm l1 l2 t W U) as (p & PA & SD & RD & CL & _ & _). set (o := @tle_options _ (B64Ops lm) p) in *.
    destruct (C57.class_returns lm ACC full fuel p o _ CL RD P (SD full)) as (s1 & r & H & K).
    pose proof (same_record _ _ _ _ _ _ _ PA H T) as E. subst s1.
    destruct (K nil fuel' tt) as (s1 & s' & res & K1 & K2). cbn [after_calls] in K1. injection K1 as <-. exists res. split; [exact (returned_done _ _ _ K2)|].
    apply (C57.C57_rounded_elements lm ACC full fuel p s o r nil s fuel' tt s' res _ H eq_refl K2 CL RD P (SD full)). split; [exact F|lra].
  - destruct (deep_decoded64 lm l1 l2 t x W S HX) as (p & PA & CL & RD & _ & _). set (o := @tle_options _ (B64Ops lm) p) in *.
    destruct (C62.C62_always_returns lm fuel p (@satrec_zero _ ROps) o) as ((s1 & r & H) & _ & K).
    pose proof (same_record _ _ _ _ _ _ _ PA H T) as E. subst s1.
    assert (IT : inside tt (-43200) 43200) by (split; [exact F|lra]). destruct (K s fuel' tt HF IT) as (s' & res & G). exists res. split; [exact (returned_done _ _ _ G)|].
    rewrite <- (text_options_elements t x). exact (C62.deep_accuracy lm ACC fuel p s o r nil s fuel' tt s' res (text_options t x) fuelR s0R sR rR H eq_refl G HR CL RD IT).
  - destruct (eccentric_decoded64 lm l1 l2 t x W S HX) as (p & PA & CL & RD & _ & _). set (o := @tle_options _ (B64Ops lm) p) in *.
    destruct (C62.C62_always_returns lm fuel p (@satrec_zero _ ROps) o) as ((s1 & r & H) & _ & K).
    pose proof (same_record _ _ _ _ _ _ _ PA H T) as E. subst s1.
    assert (IT : inside tt (-43200) 43200) by (split; [exact F|lra]). destruct (K s fuel' tt HF IT) as (s' & res & G). exists res. split; [exact (returned_done _ _ _ G)|].
    rewrite <- (text_options_elements t x). exact (eccentric_accuracy lm ACC fuel p s o r nil s fuel' tt s' res (text_options t x) fuelR s0R sR rR H eq_refl G HR CL RD IT).
Qed.

(** Two platforms, each with a mathematical library accurate to a few units in the last place, decode the same
    text.  Unless the theory is borderline at the epoch, both accept it or both refuse it with the same error. *)
Theorem C71_decoding :
  forall (lm lm' : libm), accurate lm -> accurate lm' ->
  forall (fuel fuel' : nat) (l1 l2 : str) (k : kind) (t : tle) (x : R) (sR : Satrec R),
    well_written l1 l2 t -> in_scope k t -> epoch_days t x -> exact_record t x sR -> ~ borderline k t sR 0 ->
    (exists s s', twoline2satrec (FO := B64Ops lm) fuel l1 l2 = Done (Ok s) /\ twoline2satrec (FO := B64Ops lm') fuel' l1 l2 = Done (Ok s')) \/
    (exists e, twoline2satrec (FO := B64Ops lm) fuel l1 l2 = Done (Err e) /\ twoline2satrec (FO := B64Ops lm') fuel' l1 l2 = Done (Err e)).
Proof.
  intros lm lm' ACC ACC' fuel fuel' l1 l2 k t x sR W S HX HR B.
  destruct (two_lines lm ACC fuel 60 l1 l2 k t x sR W S HX HR (le_n _)) as (r & T & r0 & A0 & D).
  destruct (two_lines lm' ACC' fuel' 60 l1 l2 k t x sR W S HX HR (le_n _)) as (r' & T' & r0' & A0' & D').
  pose proof (answers_agree _ _ _ _ _ _ A0 A0' B) as G. rewrite T, T'.
  destruct r0 as [v|e], r0' as [v'|e'].
  - left. destruct D as (s & -> & _). destruct D' as (s' & -> & _). eauto.
  - exfalso. destruct k; exact G.
  - exfalso. destruct k; exact G.
  - right. assert (E : e = e') by (destruct k; exact G). subst. eauto.
Qed.

(** And both answer every date within the set's horizon for the same time [tm] and with the same decision, and
    states that differ by at most 24 cm and 0.4 mm/s (near the Earth), 28 cm and 0.12 mm/s (deep space), 5.2 m and 6.4 mm/s
    (highly eccentric orbits) per coordinate, unless the theory is borderline at that time. *)
Theorem C71_states :
  forall (lm lm' : libm), accurate lm -> accurate lm' ->
  forall (fuel fuel' n n' : nat) (l1 l2 : str) (k : kind) (t : tle) (x : R) (sR : Satrec R) (s s' : Satrec b64),
    well_written l1 l2 t -> in_scope k t -> epoch_days t x -> exact_record t x sR -> (60 <= n)%nat -> (60 <= n')%nat ->
    twoline2satrec (FO := B64Ops lm) fuel l1 l2 = Done (Ok s) -> twoline2satrec (FO := B64Ops lm') fuel' l1 l2 = Done (Ok s') ->
    forall (d : DateTime) (m : R), civil d -> in_span d -> minutes_since_epoch t d m -> Rabs m <= horizon k t ->
      exists tm res res', Rabs (tm - m) <= 4 / 1000000 /\
        propogate_datetime (FO := B64Ops lm) n s d = Done res /\ propogate_datetime (FO := B64Ops lm') n' s' d = Done res' /\
        (~ borderline k t sR tm -> agreeing k res res').
Proof.
  intros lm lm' ACC ACC' fuel fuel' n n' l1 l2 k t x sR s s' W S HX HR N N' T T' d m Cd Sd (days & HD & EM) Hm.
  destruct (record_epoch lm fuel l1 l2 k t x s W S HX T) as (Y & ED & p & PA & J & Y1 & Y2).
  destruct (record_epoch lm' fuel' l1 l2 k t x s' W S HX T') as (_ & _ & p' & PA' & J' & Y1' & Y2'). pose proof (day_usual _ _ S) as U8.
  assert (EL : elapsed64 lm s d = elapsed64 lm' s' d).
  { apply same_elapsed. rewrite J, J'. exact (same_epoch lm lm' l1 l2 t p p' PA PA' Y1 Y1' Y2 Y2' (proj1 U8)). }
  destruct (day_near _ _ _ ED U8) as (F0 & DD & DR).
  destruct (tle_elapsed64 lm fuel l1 l2 s d days T F0 ltac:(now rewrite Y) Cd Sd ltac:(now rewrite Y)) as (F & E).
  set (tt := elapsed64 lm s d) in *.
  assert (TM : Rabs (B2R tt - m) <= 4 / 1000000).
  { apply Rabs_le_inv in E, DD. rewrite EM. apply Rabs_le. assert (/ 2 ^ 18 <= 382 / 100000000) by (cbn; lra). lra. }
  assert (IT : Rabs (B2R tt) <= horizon k t + 1) by (apply Rabs_le_inv in TM, Hm; apply Rabs_le; lra).
  destruct (record_answers lm ACC fuel n l1 l2 k t x sR s tt W S HX HR N T F IT) as (res & R1 & A1).
  destruct (record_answers lm' ACC' fuel' n' l1 l2 k t x sR s' tt W S HX HR N' T' F IT) as (res' & R2 & A2).
  exists (B2R tt), res, res'. split; [exact TM|]. rewrite !at_elapsed, <- EL. fold tt. split; [exact R1|]. split; [exact R2|]. exact (answers_agree _ _ _ _ _ _ A1 A2).
Qed.

(** Non-vacuity: the drag-free set of C70 is never borderline, the ISS set is not at its epoch; texts of the other
    two kinds are those of C69. *)
Lemma sound_clear full t sR tm : usual t -> perigee_class full (tle_elements t) -> dec_value (t_bstar t) = 0 \/ tm = 0 -> ~ borderline (Near full) t sR tm.
Proof.
  intros (_ & _ & UE & _) P B. set (el := tle_elements t) in *.
  assert (HP : 100 <= Str3.perigee_height el) by (unfold perigee_class in P; destruct full; lra).
  assert (HE : 0 <= Str3.e0 el <= 6 / 10) by (change (Str3.e0 el) with (dec_value (t_ecc t)); lra).
  change (Str3.Bstar el = 0 \/ tm = 0) in B. pose proof (undisturbed_e el full tm B) as EE.
  destruct (undisturbed el full tm (Str3.i0 el) B HE HP) as (_ & RK). cbn [borderline]. fold el.
  intros [H|(E & u & _ & _ & _ & H)]; [rewrite EE in H|specialize (RK E u)]; apply Rabs_def2 in H; lra.
Qed.
Example C71_example :
  accurate LibmExists.exact_lm /\
  (well_written still1 C25.iss2 still /\ in_scope (Near true) still /\ exists x sR, epoch_days still x /\ exact_record still x sR /\ forall tm, ~ borderline (Near true) still sR tm) /\
  (well_written C25.iss1 C25.iss2 iss /\ in_scope (Near true) iss /\ exists x sR, epoch_days iss x /\ exact_record iss x sR /\ ~ borderline (Near true) iss sR 0) /\
  civil noon /\ in_span noon /\ (exists m, minutes_since_epoch still noon m /\ Rabs m <= horizon (Near true) still) /\
  (well_written C25.iss1 C54.geo2 C54.geo /\ in_scope Deep C54.geo) /\ (well_written C25.iss1 mol2 mol /\ in_scope Eccentric mol).
Proof.
  destruct C70_example as (A & (S1 & S2 & S3 & S4) & C & D & M & (I1 & I2 & x & sR & HX & HR & _) & G & L). destruct (record_exists still x) as (sS & HS).
  split; [exact A|]. split. { split; [exact S1|]. split; [split; assumption|]. exists x, sS. split; [exact HX|]. split; [exact HS|]. intros tm. apply sound_clear; auto. }
  split. { split; [exact I1|]. split; [exact I2|]. exists x, sR. split; [exact HX|]. split; [exact HR|]. destruct I2. apply sound_clear; auto. }
  auto.
Qed.
