(** * C54: from the text of an element set to a state at a date *)
From Coq Require Import ZArith List Bool String Reals Lra Lia.
From Flocq Require Import Core.Raux.
From Verif.Model Require Import Float Str Satrec Constants Ext Vec3 Sgp4 Sgp4init Propagate Io.
From Verif.Inst Require Import RInst RTac.
From Verif.Spec Require Import Calendar TextSpec NumText TleSpec Sgp4Spec PeriodicSpec Str3Api Outcome.
From Verif.Spec Require Str3.
From Verif.Proofs Require Import StrFacts TextFacts IoFacts Sgp4Frame InitFrame InitElems ParseFacts Str3Init.
From Verif.Golden Require Import RSat.
From Verif.Props Require Import C07 C08 C24 C28 C33 C34.
From Verif.Proofs Require DspaceR NumFacts.
From Verif.Props Require C17 C50 C53.
Import ListNotations.
Local Open Scope R_scope.

(** The mean elements written in a set: degrees become radians, revolutions per day become radians per minute. *)
Definition tle_elements (t : tle) : Str3.Elements :=
  let rad d := dec_value d * PI / 180 in
  Str3.MkElements (dec_value (t_motion t) * (2 * PI) / 1440) (dec_value (t_ecc t)) (rad (t_incl t))
    (rad (t_anomaly t)) (rad (t_argp t)) (rad (t_node t)) (dec_value (t_bstar t)).

(** A set whose power fields are written in the usual way: no leading zeros in the mantissas, no negative second
    derivative (see C29 and C30 for the others). *)
Definition well_written (l1 l2 : str) (t : tle) : Prop :=
  exists m1 m2, carries l1 l2 t m1 m2 /\ normal m1 /\ normal m2 /\ (d_neg (t_nddot t) = false \/ value m1 = 0%Z).

(** Minutes from the epoch written in the set (two-digit year, day of the year with fraction) to the date [d]. *)
Definition minutes_since_epoch (t : tle) (d : DateTime) (m : R) : Prop :=
  exists days, days_from (Date (full_year (t_year t)) 1 1) (dt_date d) days /\
    m = 1440 * (IZR days - (dec_value (t_day t) - 1)) + IZR (tod d) / 60.

Lemma near_outcome_of el t res : outcome_of el (Rle_bool 220 (Str3.perigee_height el)) t 0 (Str3.i0 el) True res -> near_outcome el t res.
Proof. intros H. eexists. split; [|exact H]. apply Rle_bool_iff. Qed.

Lemma record_elements l1 l2 t (p : Satrec R) : well_written l1 l2 t -> @parse_satrec _ ROps l1 l2 = Done (Ok p) ->
  elements (tle_options p) = tle_elements t /\ sr_epochyr p = t_year t /\ sr_epochdays p = dec_value (t_day t).
Proof.
  intros (m1 & m2 & C & N1 & N2 & G) P. destruct (C28_exact_values _ _ _ _ _ C N1 N2 G) as (q & Q & V).
  rewrite P in Q. injection Q as <-. destruct V as (_ & V1 & V2 & _ & _ & V3 & V4 & V5 & V6 & V7 & V8 & V9).
  split; [|split; assumption]. unfold elements, tle_options, tle_elements. cbn [in_xno in_xecco in_xinclo in_xmo in_xargpo in_xnodeo in_xbstar].
  now rewrite V3, V4, V5, V6, V7, V8, V9.
Qed.

Lemma terminates (n : nat) (s : Satrec R) (t : R) : Rabs t < 720 * (INR n + 1) -> exists s' r, sgp4 n s t = Done (s', r).
Proof.
  intros H. destruct (C17.sgp4_done n s t) as ([s' r] & E); [|eauto].
  intros o E. apply DspaceR.dspace_terminates_R. now rewrite E.
Qed.
Lemma init_terminates (n : nat) (s0 : Satrec R) o : exists s r, sgp4init n s0 o = Done (s, r).
Proof.
  unfold sgp4init. destruct (terminates n (sgp4init_elements o s0) (L 0 0)) as (s' & r & ->).
  - change (@L R ROps 0 0) with 0. rewrite Rabs_R0. pose proof (pos_INR n). lra.
  - cbn [bindO]. destruct r; eauto.
Qed.

(** propagation by date, for a record decoded from a well-written set, in terms of [sgp4] *)
Lemma dated l1 l2 t fuel (s : Satrec R) fuel' d m : well_written l1 l2 t -> twoline2satrec fuel l1 l2 = Done (Ok s) ->
  civil d -> in_span d -> minutes_since_epoch t d m -> propogate_datetime fuel' s d = returned (sgp4 fuel' s m).
Proof.
  intros W T Cd Sd (days & HD & ->). destruct (C07_ready _ _ _ _ _ _ T) as (p & v & P & _ & _ & _ & _ & _ & _ & Y1 & Y2 & _).
  destruct (record_elements _ _ _ _ W P) as (_ & EY & ED).
  rewrite (C08_tle_elapsed_exact fuel fuel' l1 l2 s d days T Cd Sd); [|rewrite Y1, EY; exact HD].
  now rewrite Y2, ED.
Qed.
Lemma decoded fuel l1 l2 t : well_written l1 l2 t -> exists (p s : Satrec R) r,
  @parse_satrec _ ROps l1 l2 = Done (Ok p) /\ elements (tle_options p) = tle_elements t /\ sgp4init fuel p (tle_options p) = Done (s, r) /\
  twoline2satrec fuel l1 l2 = Done (match r with Ok _ => Ok s | Err e => Err (Sgp4InitError e) end).
Proof.
  intros W. assert (W' := W). destruct W' as (m1 & m2 & C & N1 & N2 & G).
  destruct (C28_exact_values _ _ _ _ _ C N1 N2 G) as (p & P & _). destruct (init_terminates fuel p (tle_options p)) as (s & r & H).
  exists p, s, r. split; [exact P|]. split; [apply (record_elements _ _ _ _ W P)|]. split; [exact H|].
  unfold twoline2satrec. rewrite P. cbn [bindR]. rewrite H. now destruct r.
Qed.

(** Near the Earth.  Decoding and initialising a well-written set always returns.  If the theory says at the epoch
    that there is no state (eccentricity, semi-latus rectum or radius out of range), the set is refused with that
    error; otherwise a record is returned, and asking it for any date of the calendar's span returns the theory's
    answer for the elements written in the text at the minutes elapsed since the epoch written in the text. *)
Theorem C54_near_earth :
  forall (fuel fuel' : nat) (l1 l2 : str) (t : tle),
    well_written l1 l2 t ->
    let el := tle_elements t in
    orbital el -> period el < 225 ->
    exists r0 : result (SGP4Result R) SGP4Error, near_outcome el 0 r0 /\
      (forall e, r0 = Err e -> twoline2satrec fuel l1 l2 = Done (Err (Sgp4InitError e))) /\
      (forall v, r0 = Ok v -> exists s : Satrec R, twoline2satrec fuel l1 l2 = Done (Ok s) /\
         forall (d : DateTime) (m : R), civil d -> in_span d -> minutes_since_epoch t d m ->
           exists res, propogate_datetime fuel' s d = Done res /\ near_outcome el m res).
Proof.
  intros fuel fuel' l1 l2 t W el HO HP.
  destruct (decoded fuel l1 l2 t W) as (p & s & r & P & EL & H & T). fold el in EL.
  assert (HO' : orbital (elements (tle_options p))) by (rewrite EL; exact HO).
  assert (HP' : period (elements (tle_options p)) < 225) by (rewrite EL; exact HP).
  assert (DS : deep s = false).
  { unfold deep. destruct (sgp4init_coefs _ _ _ _ _ H HO') as (_ & _ & _ & _ & ->).
    change (2 * PI / Str3.n (elements (tle_options p))) with (period (elements (tle_options p))).
    now rewrite Rle_bool_false by exact HP'. }
  assert (ANY : forall f u, exists s2 res, sgp4 f s u = Done (s2, res) /\ near_outcome el u res).
  { intros f u. destruct (near_done R ROps f _ u DS) as (s2 & res & K). exists s2, res. split; [exact K|].
    apply near_outcome_of. pose proof (C53.near_outcome0 _ _ _ _ _ nil s _ _ _ _ H eq_refl K HO' HP') as Q.
    change (in_xinclo (tle_options p)) with (Str3.i0 (elements (tle_options p))) in Q. rewrite EL in Q. exact Q. }
  exists r. split; [|split].
  - pose proof (sgp4init_replay _ _ _ _ _ H) as RP. change (@L R ROps 0 0) with 0 in RP.
    destruct (ANY fuel 0) as (s2 & res & K & Q). rewrite K in RP. cbn [outcome_snd] in RP. injection RP as <-. exact Q.
  - intros e ->. exact T.
  - intros v ->. exists s. split; [exact T|]. intros d m Cd Sd HM. destruct (ANY fuel' m) as (s2 & res & K & Q).
    exists res. split; [|exact Q]. rewrite (dated l1 l2 t fuel s fuel' d m W T Cd Sd HM), K. reflexivity.
Qed.
Print Assumptions C54_near_earth.

(** In deep space.  Decoding and initialising a well-written set always returns; if it returns a record, asking it
    for any date takes at most |minutes|/720 integration steps and returns the theory's answer for the elements
    written in the text, given the only two lunar-solar effects that reach the state (C50): the secular change of
    eccentricity and the periodic change of inclination. *)
Theorem C54_deep_space :
  forall (fuel : nat) (l1 l2 : str) (t : tle),
    well_written l1 l2 t ->
    let el := tle_elements t in
    orbital el -> 225 <= period el ->
    (exists e, twoline2satrec (FO := ROps) fuel l1 l2 = Done (Err (Sgp4InitError e))) \/
    (exists s : Satrec R, twoline2satrec fuel l1 l2 = Done (Ok s) /\
       forall (fuel' : nat) (d : DateTime) (m : R), civil d -> in_span d -> minutes_since_epoch t d m ->
         Rabs m < 720 * (INR fuel' + 1) ->
         exists res, propogate_datetime fuel' s d = Done res /\
           outcome_of el false m (sr_dedt s * m) (Rabs (Str3.i0 el + d_incl s m))
             (0 <= Str3.e el false m (sr_dedt s * m) + d_ecc s m <= 1) res).
Proof.
  intros fuel l1 l2 t W el HO HP.
  destruct (decoded fuel l1 l2 t W) as (p & s & r & P & EL & H & T). fold el in EL.
  assert (HO' : orbital (elements (tle_options p))) by (rewrite EL; exact HO).
  assert (HP' : 225 <= period (elements (tle_options p))) by (rewrite EL; exact HP).
  destruct r as [v|e]; [|left; now exists e]. right. exists s. split; [exact T|].
  intros fuel' d m Cd Sd HM FU. destruct (terminates fuel' s m FU) as (s2 & res & K). exists res. split.
  - rewrite (dated l1 l2 t fuel s fuel' d m W T Cd Sd HM), K. reflexivity.
  - pose proof (C50.C50_deep_space_state _ _ _ _ _ nil s _ _ _ _ H eq_refl K HO' HP') as Q. rewrite EL in Q. exact Q.
Qed.
Print Assumptions C54_deep_space.

(** A whole text, with or without a name line, blank lines anywhere: a record [parse] returns answers every
    date as the record of its two element lines does, and [parse] refuses what those lines are refused for. *)
Theorem C54_text :
  forall (fuel : nat) (ps : list str) (a b : str),
    Forall one_line ps -> content ps = [a; b] \/ (exists n, content ps = [n; a; b]) -> starts 49 a -> starts 50 b ->
    (forall e, parse (FO := ROps) fuel (join ps) = Done (Err e) <-> twoline2satrec (FO := ROps) fuel a b = Done (Err e)) /\
    (forall s : Satrec R, parse fuel (join ps) = Done (Ok s) ->
       exists s', twoline2satrec fuel a b = Done (Ok s') /\
         forall fuel' d, propogate_datetime fuel' s d = propogate_datetime fuel' s' d).
Proof.
  intros fuel ps a b O C Sa Sb. split.
  - intros e. destruct (C33_checks_come_first R ROps fuel ps O) as (_ & _ & Q). now apply Q.
  - intros s H. destruct (C33_success_means_checked R ROps fuel ps s O H) as (a' & b' & t & C' & _ & _ & T & E).
    assert (AB : a' = a /\ b' = b).
    { destruct C as [C|[n C]], C' as [C'|[n' C']]; rewrite C in C'; inversion C'; auto. }
    destruct AB as [-> ->]. exists t. split; [exact T|]. intros fuel' d. rewrite !C08_is_sgp4.
    assert (G : s = graft s t). { rewrite E. destruct t. reflexivity. }
    assert (J : sr_jdsatepoch s = sr_jdsatepoch t) by (rewrite E; reflexivity). rewrite J, G.
    generalize (fmul (fsub (jday_datetime d) (sr_jdsatepoch t)) (L 1440 0)). intros u.
    rewrite sgp4_graft. destruct (sgp4 fuel' t u) as [[x y]| |]; reflexivity.
Qed.
Print Assumptions C54_text.

(** Non-vacuity: a real near-earth set, and a geostationary second line with the same first line, are well written;
    their elements are orbital, with periods on either side of 225 minutes. *)
Section Ex.
Variable el : Str3.Elements.
Hypothesis Hn : 0 < Str3.n0 el <= Str3.ke.
Hypothesis He : 0 <= Str3.e0 el <= 1 / 10.
Lemma ex_beta : / Str3.beta0 el ^ 3 <= 102 / 100 /\ 0 < / Str3.beta0 el ^ 3.
Proof.
  set (b := Str3.beta0 el). assert (B : 995 / 1000 - 1 / 1000 <= b).
  { unfold b, Str3.beta0. apply Rsqr_incr_0_var; [|apply sqrt_pos]. rewrite Rsqr_sqrt by nra. unfold Rsqr. nra. }
  assert (P : 982 / 1000 <= b ^ 3). { assert (994 / 1000 * (994 / 1000) <= b * b) by nra. simpl. nra. }
  split; [|apply Rinv_0_lt_compat; lra].
  apply Rmult_le_reg_r with (b ^ 3); [lra|]. rewrite Rinv_l by lra. lra.
Qed.
Lemma ex_kozai a : 99 / 100 <= a -> - (1 / 1000) <= Str3.kozai el a <= 2 / 1000.
Proof.
  intros A. unfold Str3.kozai. destruct ex_beta as [B1 B2]. unfold Rdiv.
  assert (Q : 0 < / a ^ 2 <= 1021 / 1000).
  { split; [apply Rinv_0_lt_compat; nra|]. apply Rmult_le_reg_r with (a ^ 2); [nra|]. rewrite Rinv_l by nra. nra. }
  set (x := / a ^ 2) in *. set (y := / Str3.beta0 el ^ 3) in *. clearbody x y.
  assert (T : -1 <= 3 * Str3.theta el ^ 2 - 1 <= 2).
  { unfold Str3.theta. pose proof (COS_bound (Str3.i0 el)). nra. }
  set (c := 3 * Str3.theta el ^ 2 - 1) in *. clearbody c.
  assert (P : 0 <= x * y <= 105 / 100) by nra.
  replace (3 * / 2 * Str3.k2 * x * c * y) with ((3 / 2 * Str3.k2) * (x * y) * c) by field.
  assert (K : 3 / 2 * Str3.k2 * (x * y) <= 9 / 10000 /\ 0 <= 3 / 2 * Str3.k2 * (x * y)) by (unfold Str3.k2, Str3.J2; lra).
  nra.
Qed.
Lemma ex_d0 : - (1 / 1000) <= Str3.d0 el <= 2 / 1000.
Proof.
  assert (A1 : 1 <= Str3.a1 el).
  { unfold Str3.a1, Str3.two_thirds. rewrite <- (Rpower_1 1) at 1 by lra. replace (Rpower 1 1) with (Rpower 1 (2 / 3)).
    - apply Rle_Rpower_l; [lra|]. split; [lra|]. apply Rmult_le_reg_r with (Str3.n0 el); [lra|]. unfold Rdiv. rewrite Rmult_assoc, Rinv_l by lra. lra.
    - unfold Rpower. rewrite ln_1, !Rmult_0_r. reflexivity. }
  unfold Str3.d0. apply ex_kozai. unfold Str3.a0. pose proof (ex_kozai (Str3.a1 el) ltac:(lra)) as D. fold (Str3.d1 el) in D.
  set (d := Str3.d1 el) in *. clearbody d. assert (998 / 1000 <= 1 - d / 3 - d ^ 2 - 134 / 81 * d ^ 3) by nra. nra.
Qed.
Lemma ex_orbital : orbital el /\ 2 * PI / Str3.n0 el * (999 / 1000) <= period el <= 2 * PI / Str3.n0 el * (1002 / 1000).
Proof.
  pose proof ex_d0 as D. pose proof PI_RGT_0. assert (N : Str3.n el = Str3.n0 el / (1 + Str3.d0 el)) by reflexivity.
  split.
  - split; [lra|]. split; [lra|]. rewrite N. apply Rdiv_lt_0_compat; lra.
  - unfold period. rewrite N. replace (2 * PI / (Str3.n0 el / (1 + Str3.d0 el))) with (2 * PI / Str3.n0 el * (1 + Str3.d0 el)) by (field; lra).
    assert (0 < 2 * PI / Str3.n0 el) by (apply Rdiv_lt_0_compat; lra). nra.
Qed.
End Ex.
Lemma PI_34 : PI <= 335 / 100.
Proof. pose proof (PI_ineq 2) as [_ H]. unfold tg_alt, PI_tg in H. simpl in H. lra. Qed.
Lemma rev_per_day m : 0 < m <= 159 / 10 -> 0 < m * (2 * PI) / 1440 <= Str3.ke /\ 2 * PI / (m * (2 * PI) / 1440) = 1440 / m.
Proof.
  intros H. pose proof PI_RGT_0. pose proof PI_34. assert (Str3.ke = 7436685316871385 / 100000000000000000) as KE by reflexivity. rewrite KE.
  split; [split; [nra|nra]|field; lra].
Qed.
Ltac decv := match goal with |- dec_value ?y = _ => let v := eval compute in y in change y with v end;
  unfold dec_value; cbn [d_neg d_man d_exp]; unfold powerRZ; unfold Pos.to_nat; cbn [Pos.iter_op Nat.add]; simpl; lra.
Example C54_near_example : well_written C25.iss1 C25.iss2 iss /\ orbital (tle_elements iss) /\ period (tle_elements iss) < 225.
Proof.
  destruct C28_example as (C & N1 & N2 & G). split; [exists (of_string "00000"), (of_string "10270"); auto|].
  assert (M : dec_value (t_motion iss) = 1554171530 / 100000000) by decv.
  assert (E : dec_value (t_ecc iss) = 3381 / 10000000) by decv.
  destruct (rev_per_day (dec_value (t_motion iss)) ltac:(rewrite M; lra)) as [R1 R2].
  destruct (ex_orbital (tle_elements iss) R1 ltac:(change (Str3.e0 (tle_elements iss)) with (dec_value (t_ecc iss)); rewrite E; lra)) as [O P].
  split; [exact O|]. change (Str3.n0 (tle_elements iss)) with (dec_value (t_motion iss) * (2 * PI) / 1440) in P. rewrite R2 in P.
  assert (Q : 1440 / dec_value (t_motion iss) <= 100).
  { rewrite M. lra. }
  lra.
Qed.
Definition geo2 := of_string "2 28626   0.0019 286.9433 0000335  13.7918  55.6504  1.00270176  4891".
Definition geo : tle :=
  Tle (of_string "25544") 18 (Dec false 17035562296 (-8)) (Dec false 16717 (-8)) (Dec false 0 (-5)) (Dec false 10270 (-8))
      (Dec false 19 (-4)) (Dec false 2869433 (-4)) (Dec false 335 (-7)) (Dec false 137918 (-4)) (Dec false 556504 (-4)) (Dec false 100270176 (-8)).
Example C54_deep_example : well_written C25.iss1 geo2 geo /\ orbital (tle_elements geo) /\ 225 <= period (tle_elements geo).
Proof.
  destruct C28_example as ((C1 & C2 & C3 & C4 & C5 & C6 & _) & N1 & N2 & G). split.
  { exists (of_string "00000"), (of_string "10270"). split; [|auto]. do 6 (split; [assumption|]).
    split; [eapply reads_of; reflexivity|]. split; [eapply reads_of; reflexivity|].
    split. { exists (of_string "0000335"), (of_string "0000335"). split; [apply columns_of; reflexivity|]. split; [exists [], []; repeat split|].
      split; [discriminate|]. split; [now apply NumFacts.all_digits_iff|reflexivity]. }
    split; [eapply reads_of; reflexivity|]. split; [eapply reads_of; reflexivity|]. eapply reads_of; reflexivity. }
  assert (M : dec_value (t_motion geo) = 100270176 / 100000000) by decv.
  assert (E : dec_value (t_ecc geo) = 335 / 10000000) by decv.
  destruct (rev_per_day (dec_value (t_motion geo)) ltac:(rewrite M; lra)) as [R1 R2].
  destruct (ex_orbital (tle_elements geo) R1 ltac:(change (Str3.e0 (tle_elements geo)) with (dec_value (t_ecc geo)); rewrite E; lra)) as [O P].
  split; [exact O|]. change (Str3.n0 (tle_elements geo)) with (dec_value (t_motion geo) * (2 * PI) / 1440) in P. rewrite R2 in P.
  assert (Q : 1400 <= 1440 / dec_value (t_motion geo)).
  { rewrite M. lra. }
  lra.
Qed.
