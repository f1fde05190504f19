(** * C62: binary64 deep-space states are close to the published theory's exact ones *)
From Coq Require Import ZArith QArith List Bool Reals Qreals Lra Psatz.
From Flocq Require Import Core.Zaux Core.Raux IEEE754.BinarySingleNaN.
From Verif.Model Require Import Float Str Satrec Constants Vec3 Initl Dpper Sgp4 Sgp4init.
From Verif.Inst Require Import RInst RTac B64.
From Verif.Proofs Require Import Sgp4Frame InitElems InitFrame InitTotal DeepInit Sgp4Errors Str3Init Str3State AccSgp4 AccEnd DeepBoot DeepRun LibmExists.
From Verif.Spec Require Import LibmAccuracy Sgp4Spec StateSpec PeriodicSpec Str3Api NearAccuracy DeepAccuracy.
From Verif.Spec Require Str3.
From Verif.Props Require C17 C21 C51 C57.
Local Open Scope R_scope.

Lemma class_deep_orbital oR : deep_class oR -> orbital (elements oR).
Proof.
  intros (Hn & _ & He & _).
  assert (N : 0 < Str3.n0 (elements oR) <= 73 / 1000) by (cbn [elements Str3.n0]; lra).
  assert (E' : 0 <= Str3.e0 (elements oR) <= 451 / 1000) by (cbn [elements Str3.e0]; lra).
  pose proof (d0_small _ N E') as D. apply Rabs_le_inv in D. split; [lra|]. split; [lra|]. unfold Str3.n. apply Rdiv_lt_0_compat; lra.
Qed.
Lemma deep_self o : deep_ordinary o -> deep_class (exact o) /\ deep_rounded o (exact o).
Proof.
  intros ((Fn & Hn) & (Fi & Hi) & (Fe & He) & (Fp & Hp) & (Fb & Hb) & (Fw & Hw) & (Fm & Hm) & (Fd & Hd)).
  assert (T : 0 <= / 10 ^ 60) by (left; apply Rinv_0_lt_compat, pow_lt; lra).
  split; [repeat (split; [assumption|]); assumption|]. split; [reflexivity|]. split.
  - unfold rounded, elements, exact. cbn [in_xno in_xecco in_xinclo in_xmo in_xargpo in_xnodeo in_xbstar Str3.n0 Str3.e0 Str3.i0 Str3.M0 Str3.w0 Str3.node0 Str3.Bstar].
    cbv zeta. repeat split; try (apply agree_self; try assumption; lra); try assumption; apply agree_self; try assumption; lra.
  - split; [exact Fp|]. cbn [exact in_epoch]. rewrite Rminus_eq_0, Rabs_R0. lra.
Qed.
Lemma deep_orbital o : deep_ordinary o -> orbital (elements (exact o)).
Proof. intros O. exact (class_deep_orbital _ (proj1 (deep_self o O))). Qed.

(** initialisation ends with a propagation, which leaves the lunar-solar coefficients alone *)
Lemma same_third fuel (s0 s : Satrec R) o r : sgp4init fuel s0 o = Done (s, r) ->
  let a := sgp4init_elements o s0 in sr_dedt s = sr_dedt a /\ (forall t, d_ecc s t = d_ecc a t) /\ (forall t, d_incl s t = d_incl a t).
Proof.
  intros H a. apply sgp4init_inv in H. destruct H as (s1 & H & E). apply sgp4_third in H. destruct H as (H1 & _ & H3). fold a in H1, H3. clearbody a.
  assert (X : third_of s = third_of a /\ rez_of s = rez_of a) by (rewrite <- H1, <- H3, E; destruct r; split; reflexivity).
  clear H1 H3 E. destruct X as (T & Z). pose proof (f_equal z_dedt Z) as Z1. cbn [rez_of z_dedt] in Z1.
  pose proof (f_equal k_se2 T) as T1. pose proof (f_equal k_se3 T) as T2. pose proof (f_equal k_ee2 T) as T3. pose proof (f_equal k_e3 T) as T4.
  pose proof (f_equal k_si2 T) as T5. pose proof (f_equal k_si3 T) as T6. pose proof (f_equal k_xi2 T) as T7. pose proof (f_equal k_xi3 T) as T8.
  pose proof (f_equal k_zmol T) as T9. pose proof (f_equal k_zmos T) as T10. pose proof (f_equal k_peo T) as T11. pose proof (f_equal k_pinco T) as T12.
  cbn [third_of k_se2 k_se3 k_ee2 k_e3 k_si2 k_si3 k_xi2 k_xi3 k_zmol k_zmos k_peo k_pinco] in *.
  split; [exact Z1|]. split; intros t; unfold d_ecc, d_incl, sun_at, moon_at; rewrite ?T1, ?T2, ?T3, ?T4, ?T5, ?T6, ?T7, ?T8, T9, T10, ?T11, ?T12; reflexivity.
Qed.

(** the exact state of the record initialised from exact elements, in the words of the theory *)
Lemma deep_exact (o : SGP4InitOptions R) s0 s t : s = sgp4init_elements o s0 -> orbital (elements o) -> sr_method s = MethodD ->
  let el := elements o in let de := sr_dedt s * t in let i := Rabs (Str3.i0 el + d_incl s t) in
  ecc_at s t = Str3.e_unclamped el false t de /\ pr_ep (periodics s t) = Str3.e el false t de + d_ecc s t /\
  (0 < semi_latus s t -> exists E u,
     kepler_angle (Str3.axN el false t de) (Str3.ayN el false t de i) (Str3.U el false t de i) E /\
     sin u = Str3.sin_u el false t de i E /\ cos u = Str3.cos_u el false t de i E /\
     radius s t = Str3.rk el false t de i E u /\
     position_at s t = Str3.position el false t de i E u /\ velocity_at s t = Str3.velocity el false t de i E u).
Proof.
  intros ES HO M el de i.
  pose proof (elements_coefs o s0 HO) as (C & I & G & SI & MM). pose proof (elements_elems o s0) as EL. rewrite <- ES in C, I, G, SI, MM, EL.
  unfold elems_of in EL. injection EL as E1 E2 E3 E4 E5 E6 E7 _ _ _. clear ES.
  assert (HE : sr_no s = Str3.n el /\ sr_ecco s = Str3.e0 el /\ sr_inclo s = Str3.i0 el /\ sr_mo s = Str3.M0 el /\ sr_argpo s = Str3.w0 el /\ sr_nodeo s = Str3.node0 el /\ sr_bstar s = Str3.Bstar el).
  { rewrite E1, E2, E3, E4, E5, E6, E7. split; [apply initl_no_T, HO|repeat split]. }
  rewrite M in MM. destruct (Rle_bool 225 (2 * PI / Str3.n (elements o))); [|discriminate]. cbn [orb] in SI.
  assert (D : deep s = true) by (unfold deep; now rewrite M).
  assert (F : full_drag s = false) by (unfold full_drag; now rewrite SI).
  assert (DE : de_of s t = de) by (unfold de_of; now rewrite D).
  assert (HH : full_drag s = true -> high_of s = high_T el) by (intros X; congruence).
  assert (HI : deep s = false -> incl_of s = incl_T' el) by (intros X; congruence).
  destruct (C21.C21_direct_elements (set_t t s) (MkDpperOptions InitN (sr_operationmode s) (sr_inclo s) (ecc_used s t) (sr_inclo s)
                       (node_red s t) (argp_red s t) (M_red s t)) eq_refl) as (PE & PI & _).
  fold (periodics s t) in PE, PI. cbn [po_ep po_inclp] in PE, PI.
  change (d_ecc (set_t t s) (sr_t (set_t t s))) with (d_ecc s t) in PE.
  change (d_incl (set_t t s) (sr_t (set_t t s))) with (d_incl s t) in PI.
  fold el in C. rewrite (e_T s el t C HE HH HI), F, DE in PE.
  assert (IN : incl_at s t = i).
  { unfold incl_at. rewrite D. cbv zeta. rewrite PI. destruct HE as (_ & _ & -> & _). rops. unfold i.
    case Rlt_bool_spec; intros Q; [now rewrite Rabs_left by exact Q|now rewrite Rabs_pos_eq by exact Q]. }
  pose proof (ecc_T s el t C HE HH HI) as ET. pose proof (latus_T s el t HO C HE HH HI) as LT. pose proof (state_T s el t HO C HE HH HI) as ST.
  rewrite F, DE in ET, LT, ST. rewrite IN in LT, ST. split; [exact ET|]. split; [exact PE|]. rewrite LT. exact ST.
Qed.

Lemma dlatus_apx x (a : R) : ApxCalc.apx x a DeepTail.dplB -> 0 < a.
Proof. intros (_ & I & _). cbn [ApxCalc.el ApxCalc.eh DeepTail.dplB] in I. unfold Q2R in I. cbn [QArith_base.Qnum QArith_base.Qden] in I. lra. Qed.

Section S.
Context (lm : libm) (ACC : accurate lm).
Notation B := (B64Ops lm).
Lemma time_apx t : inside t (-43200) 43200 -> ApxCalc.apx t (B2R t) timeB.
Proof. intros Ht. apply (inside_apx _ _ _ _ _ Ht); unfold Q2R; cbn [QArith_base.Qnum QArith_base.Qden QArith_base.inject_Z]; lra. Qed.
Lemma epoch_Q : 1 / 10 ^ 9 = Q2R (1 # 10 ^ 9).
Proof.
  assert (E : 10 ^ 9 = IZR (Z.pos (10 ^ 9)%positive)) by (rewrite (pow_IZR 10 9); apply (f_equal IZR); vm_compute; reflexivity).
  rewrite E. unfold Q2R. cbn [Qnum Qden]. reflexivity.
Qed.
Lemma deep_start o oR s0 s0' : deep_class oR -> deep_rounded o oR -> deep_rec lm (@sgp4init_elements _ B o s0) (@sgp4init_elements _ ROps oR s0').
Proof.
  intros (Hn & Hi & He & Hp & Hb & Hw & Hm & Hd) (OM & (Rn & Re & Ri & Rm & Rw & Rd & Rb) & Fp & Rp).
  unfold elements in *. cbn [Str3.n0 Str3.e0 Str3.i0 Str3.M0 Str3.w0 Str3.node0 Str3.Bstar] in *.
  assert (T0 : 0 <= / 10 ^ 60) by (left; apply Rinv_0_lt_compat, pow_lt; lra).
  pose proof u6_Q as U6. pose proof u1_Q as U1.
  refine (deep_boot lm ACC o oR s0 s0' OM _ _ _ _ _ _ _ _ _ _ eq_refl eq_refl).
  - apply (agree_apx _ _ _ _ _ _ _ _ Rn U6 (eq_sym RMicromega.Q2R_0)); [lra|lra|]; unfold Q2R; cbn [Qnum Qden inject_Z]; lra.
  - apply (agree_apx _ _ _ _ _ _ _ _ Ri U6 tiny_Q); [lra|lra|]; unfold Q2R; cbn [Qnum Qden inject_Z]; lra.
  - apply (agree_apx _ _ _ _ _ _ _ _ Re U1 tiny_Q); [lra|lra|]; unfold Q2R; cbn [Qnum Qden inject_Z]; lra.
  - split; [exact Fp|]. cbn [ApxCalc.el ApxCalc.eh ApxCalc.rr ApxCalc.ab DeepMoon.epochB]. rewrite <- epoch_Q. unfold Q2R. cbn [Qnum Qden inject_Z]. split; [lra|]. split; [lra|]. lra.
  - apply (agree_apx _ _ _ _ _ _ _ _ Rb U1 tiny_Q); [lra|lra|]; unfold Q2R; cbn [Qnum Qden inject_Z]; lra.
  - apply (agree_apx _ _ _ _ _ _ _ _ Rw U6 tiny_Q); [lra|lra|]; unfold Q2R; cbn [Qnum Qden inject_Z]; lra.
  - apply (agree_apx _ _ _ _ _ _ _ _ Rm U6 tiny_Q); [lra|lra|]; unfold Q2R; cbn [Qnum Qden inject_Z]; lra.
  - apply (agree_apx _ _ _ _ _ _ _ _ Rd U6 tiny_Q); [lra|lra|]; unfold Q2R; cbn [Qnum Qden inject_Z]; lra.
Qed.
Lemma deep_accuracy fuel (s0 s : Satrec b64) (o : SGP4InitOptions b64) r calls s1 fuel' (t : b64) s' res oR fuelR s0R sR rR :
  @sgp4init _ B fuel s0 o = Done (s, r) -> @after_calls _ B s calls = Done s1 -> @sgp4 _ B fuel' s1 t = Done (s', res) ->
  @sgp4init _ ROps fuelR s0R oR = Done (sR, rR) ->
  deep_class oR -> deep_rounded o oR -> inside t (-43200) 43200 -> deep_outcome64 (elements oR) sR (B2R t) res.
Proof.
  intros H A G HR CL RD Ht. destruct (fresh _ _ _ _ _ _ _ _ _ _ _ H A G) as (s2 & K). clear H A G.
  destruct (same_third _ _ _ _ _ HR) as (X1 & X2 & X3). clear HR.
  pose proof (deep_start o oR s0 s0R CL RD) as NR. pose proof (time_apx t Ht) as JT.
  remember (@sgp4init_elements _ B o s0) as a eqn:EA. remember (@sgp4init_elements _ ROps oR s0R) as a' eqn:EA'.
  destruct (deep_run lm ACC fuel' a a' t (B2R t) s2 res NR JT K) as (R1 & R2). destruct (deep_short lm ACC a a' t (B2R t) NR JT) as (PL & _). destruct NR as ((_ & M') & _).
  unfold deep_outcome64. rewrite X1, X2, X3. clear X1 X2 X3 K JT. set (tm := B2R t) in *. clearbody tm.
  destruct (deep_exact oR _ a' tm EA' (class_deep_orbital oR CL) M') as (T1 & T2 & T3). cbv zeta.
  rewrite T1, T2 in R2. rewrite T1 in R1. split; [exact R1|]. split; [intros Q; exact (proj1 (R2 Q))|].
  intros Q Q2. destruct (proj2 (R2 Q) Q2) as (v & -> & V1 & V2 & V3). destruct (T3 (dlatus_apx _ _ PL)) as (E & u & K1 & K2 & K3 & K4 & K5 & K6).
  rewrite K4 in V1. rewrite K5 in V2. rewrite K6 in V3. exists v, E, u. repeat (split; [first [reflexivity|assumption]|]). exact V3.
Qed.
End S.

(** Initialise a record from binary64 elements of a deep-space orbit, make any calls on it, then propagate it to
    a binary64 time within thirty days of epoch, all in binary64 with any accurate library.  Evaluate the
    published theory on the same numbers without rounding, with the lunar-solar coefficients of an exact
    initialisation.  The call takes the theory's decision unless that is within 1e-9 of going the other way, and
    the state it returns is within 14 cm and 0.06 mm/s of the theory's in every coordinate. *)
Theorem C62_deep_space_accuracy :
  forall (lm : libm), accurate lm ->
  forall fuel (s0 s : Satrec b64) (o : SGP4InitOptions b64) r calls s1 fuel' (t : b64) s' res fuelR s0R sR rR,
    sgp4init (FO := B64Ops lm) fuel s0 o = Done (s, r) ->
    after_calls (FO := B64Ops lm) s calls = Done s1 ->
    sgp4 (FO := B64Ops lm) fuel' s1 t = Done (s', res) ->
    sgp4init (FO := ROps) fuelR s0R (exact o) = Done (sR, rR) ->
    deep_ordinary o -> inside t (-43200) 43200 ->
    deep_outcome64 (elements (exact o)) sR (B2R t) res.
Proof.
  intros lm ACC fuel s0 s o r calls s1 fuel' t s' res fuelR s0R sR rR H A G HR O Ht. destruct (deep_self o O) as (CL & RD).
  exact (deep_accuracy lm ACC fuel s0 s o r calls s1 fuel' t s' res (exact o) fuelR s0R sR rR H A G HR CL RD Ht).
Qed.
Print Assumptions C62_deep_space_accuracy.

(** The elements and the epoch may have been rounded on their way in: the bounds hold against the theory for any
    elements the binary64 ones are roundings of, and any epoch within 1e-9 days. *)
Theorem C62_rounded_elements :
  forall (lm : libm), accurate lm ->
  forall fuel (s0 s : Satrec b64) (o : SGP4InitOptions b64) r calls s1 fuel' (t : b64) s' res (oR : SGP4InitOptions R) fuelR s0R sR rR,
    sgp4init (FO := B64Ops lm) fuel s0 o = Done (s, r) ->
    after_calls (FO := B64Ops lm) s calls = Done s1 ->
    sgp4 (FO := B64Ops lm) fuel' s1 t = Done (s', res) ->
    sgp4init (FO := ROps) fuelR s0R oR = Done (sR, rR) ->
    deep_class oR -> deep_rounded o oR -> inside t (-43200) 43200 ->
    deep_outcome64 (elements oR) sR (B2R t) res.
Proof. exact deep_accuracy. Qed.
Print Assumptions C62_rounded_elements.

(** Such calls always come back: initialisation with any fuel, in either arithmetic, and propagation after any
    calls that came back with sixty half-day steps allowed. *)
Theorem C62_always_returns :
  forall (lm : libm) fuel (s0 : Satrec b64) s0R (o : SGP4InitOptions b64),
    (exists s r, sgp4init (FO := B64Ops lm) fuel s0 o = Done (s, r)) /\
    (exists sR rR, sgp4init (FO := ROps) fuel s0R (exact o) = Done (sR, rR)) /\
    forall (s1 : Satrec b64) n t, (60 <= n)%nat -> inside t (-43200) 43200 ->
      exists s' res, sgp4 (FO := B64Ops lm) n s1 t = Done (s', res).
Proof.
  intros lm fuel s0 s0R o. split; [apply sgp4init_total, zero_sane_B64|]. split; [apply sgp4init_total, zero_sane_R|].
  intros s1 n t N (F & I). destruct (C17.C17_terminates_binary64 lm n s1 t F) as ((s' & res) & E).
  - apply Rle_trans with 43200; [apply Rabs_le; lra|simpl; lra].
  - apply le_INR in N. replace (INR 60) with 60 in N by (simpl; lra). apply Rle_lt_trans with 43200; [apply Rabs_le; lra|nra].
  - eauto.
Qed.
Print Assumptions C62_always_returns.

(** Non-vacuity: every drag-free circular orbit of the class (any mean motion, inclination, epoch, phase, perigee
    and node in it; resonant ones too) propagates to a state within the bounds at every time of the thirty days,
    whatever was asked of the record before. *)
Lemma deep_period lm (ACC : accurate lm) o : deep_ordinary o -> 225 <= period (elements (exact o)).
Proof.
  intros O. destruct (deep_self o O) as (CL & RD). destruct (deep_start lm ACC o (exact o) (@satrec_zero _ (B64Ops lm)) (@satrec_zero _ ROps) CL RD) as ((_ & M) & _).
  destruct (elements_coefs (exact o) (@satrec_zero _ ROps) (deep_orbital o O)) as (_ & _ & _ & _ & MM). rewrite M in MM.
  unfold period. destruct (Rle_bool_spec 225 (2 * PI / Str3.n (elements (exact o)))); [assumption|discriminate].
Qed.
Example C62_example :
  accurate exact_lm /\
  forall o t, deep_ordinary o -> B2R (in_xecco o) = 0 -> B2R (in_xbstar o) = 0 -> inside t (-43200) 43200 ->
    exists sR rR, sgp4init (FO := ROps) 0 satrec_zero (exact o) = Done (sR, rR) /\
    exists s r s' v E u, sgp4init (FO := B64Ops exact_lm) 0 (satrec_zero (FO := B64Ops exact_lm)) o = Done (s, r) /\
      sgp4 (FO := B64Ops exact_lm) 60 s t = Done (s', Ok v) /\
      close (14 / 100000) (g4_position v) (Str3.position (elements (exact o)) false (B2R t) 0 (Rabs (B2R (in_xinclo o) + d_incl sR (B2R t))) E u).
Proof.
  split; [exact exact_lm_accurate|]. intros o t O He Hb Ht.
  destruct (C62_always_returns exact_lm 0 (@satrec_zero _ (B64Ops exact_lm)) (@satrec_zero _ ROps) o) as ((s & r & H) & (sR & rR & HR) & K).
  exists sR, rR. split; [exact HR|]. destruct (K s 60%nat t (le_n _) Ht) as (s' & res & G).
  pose proof (C62_deep_space_accuracy exact_lm exact_lm_accurate _ _ _ _ _ nil s _ _ _ _ _ _ _ _ H eq_refl G HR O Ht) as (_ & _ & C).
  destruct (C51.C51_lagrange_equations _ _ _ _ _ HR (deep_orbital o O) (deep_period _ exact_lm_accurate o O)) as (_ & _ & _ & _ & _ & E0 & _).
  destruct (E0 He) as (E1 & E2 & E3 & E4 & E5).
  destruct (C51.C51_epoch_phases _ _ _ _ _ HR (deep_orbital o O) (deep_period _ exact_lm_accurate o O)) as (_ & _ & _ & _ & E6 & _).
  assert (D : d_ecc sR (B2R t) = 0) by (unfold d_ecc, wave; rewrite E2, E3, E4, E5, E6; field).
  rewrite E1, D, Rmult_0_l in C.
  assert (Y : Str3.e_unclamped (elements (exact o)) false (B2R t) 0 = 0).
  { unfold Str3.e_unclamped, Str3.if_full. cbn [elements exact Str3.Bstar Str3.e0 in_xbstar in_xecco]. rewrite He, Hb. ring. }
  assert (Y2 : Str3.e (elements (exact o)) false (B2R t) 0 = 1 / 1000000) by (unfold Str3.e; rewrite Y; apply Rmax_right; lra).
  rewrite Y, Y2 in C. destruct (C ltac:(lra) ltac:(lra)) as (v & E & u & -> & _ & _ & _ & _ & V & _).
  exists s, r, s', v, E, u. split; [exact H|]. split; [exact G|exact V].
Qed.

(** Such orbits exist: mean motion 1/64 rad/min. *)
Definition n64 : b64 := @B754_finite prec emax false 4503599627370496 (-58) eq_refl.
Definition circle (ep i w M nd : b64) : SGP4InitOptions b64 :=
  MkSGP4InitOptions OpsI nil ep (B754_zero false) (B754_zero false) w i M n64 nd.
Example C62_inhabited : forall ep i w M nd,
  inside ep 0 40000 -> inside i 0 (28 / 10) -> inside w (-7) 7 -> inside M (-7) 7 -> inside nd (-7) 7 ->
  deep_ordinary (circle ep i w M nd) /\ B2R (in_xecco (circle ep i w M nd)) = 0 /\ B2R (in_xbstar (circle ep i w M nd)) = 0.
Proof.
  intros ep i w M nd H1 H2 H3 H4 H5.
  assert (E : B2R n64 = 1 / 64). { unfold n64, B2R, Defs.F2R. cbn [Defs.Fnum Defs.Fexp Zaux.cond_Zopp]. change (-58)%Z with (Z.opp 58). rewrite (bpow_opp radix2 58). cbn [bpow]. change (Z.pow_pos radix2 58) with 288230376151711744%Z. lra. }
  assert (Z : forall l h, l <= 0 <= h -> inside (B754_zero false) l h) by (intros l h H; split; [reflexivity|exact H]).
  split; [|split; reflexivity]. split; [split; [reflexivity|change (in_xno (circle ep i w M nd)) with n64; rewrite E; lra]|].
  split; [exact H2|]. split; [apply Z; lra|]. split; [exact H1|]. split; [apply Z; lra|]. split; [exact H3|]. split; [exact H4|exact H5].
Qed.
