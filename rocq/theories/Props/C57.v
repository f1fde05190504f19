(** * C57: binary64 near-Earth states are close to the published theory's exact ones *)
From Coq Require Import ZArith List Bool Reals Qreals Lra Psatz.
From Flocq Require Import Core IEEE754.BinarySingleNaN.
From Verif.Model Require Import Float Str Satrec Constants Vec3 Initl Sgp4 Sgp4init.
From Verif.Inst Require Import RInst RTac B64.
From Verif.Proofs Require Import Sgp4Frame InitElems Sgp4Errors Str3Init Str3State AccSgp4 AccEnd LibmExists.
From Verif.Spec Require Import Vectors3 LibmAccuracy Sgp4Spec StateSpec Str3Api NearAccuracy.
From Verif.Spec Require Str3.
From Verif.Golden Require Import RSat.
Local Open Scope R_scope.

(** the exact state of the record initialised from exact elements, in the words of the theory *)
Lemma exact_state full (o : SGP4InitOptions R) s0 s t : s = sgp4init_elements o s0 -> orbital (elements o) -> sr_method s = MethodN ->
  perigee_class full (elements o) ->
  let el := elements o in let i := Str3.i0 el in
  ecc_at s t = Str3.e_unclamped el full t 0 /\
  (0 < semi_latus s t -> exists E u,
     kepler_angle (Str3.axN el full t 0) (Str3.ayN el full t 0 i) (Str3.U el full t 0 i) E /\
     sin u = Str3.sin_u el full t 0 i E /\ cos u = Str3.cos_u el full t 0 i E /\
     radius s t = Str3.rk el full t 0 i E u /\
     position_at s t = Str3.position el full t 0 i E u /\ velocity_at s t = Str3.velocity el full t 0 i E u).
Proof.
  intros ES HO M P el i.
  pose proof (elements_coefs o s0 HO) as (C & I & G & SI & MM). pose proof (elements_elems o s0) as EL. rewrite <- ES in C, I, G, SI, MM, EL.
  unfold elems_of in EL. injection EL as E1 E2 E3 E4 E5 E6 E7 _ _ _. clear ES.
  assert (HE : sr_no s = Str3.n el /\ sr_ecco s = Str3.e0 el /\ sr_inclo s = Str3.i0 el /\ sr_mo s = Str3.M0 el /\ sr_argpo s = Str3.w0 el /\ sr_nodeo s = Str3.node0 el /\ sr_bstar s = Str3.Bstar el).
  { rewrite E1, E2, E3, E4, E5, E6, E7. split; [apply initl_no_T, HO|repeat split]. }
  rewrite M in MM. destruct (Rle_bool 225 (2 * PI / Str3.n (elements o))); [discriminate|]. cbn [orb] in SI. 
  assert (D : deep s = false) by (unfold deep; now rewrite M).
  assert (F : full_drag s = full).
  { unfold full_drag. destruct full; cbn [perigee_class] in P; [rewrite Rlt_bool_false in SI by lra|rewrite Rlt_bool_true in SI by lra]; now rewrite SI. }
  assert (DE : de_of s t = 0) by (unfold de_of; now rewrite D).
  assert (IN : incl_at s t = i) by (unfold incl_at; rewrite D; apply HE).
  assert (HH : full_drag s = true -> high_of s = high_T el) by (intros Q; apply G; unfold full_drag in Q; destruct (sr_isimp s =? 1)%Z eqn:Z; [discriminate|apply Z.eqb_neq; exact Z]).
  assert (HI : deep s = false -> incl_of s = incl_T' el) by (intros _; exact I).
  fold el in C. pose proof (ecc_T s el t C HE HH HI) as ET. pose proof (latus_T s el t HO C HE HH HI) as LT. pose proof (state_T s el t HO C HE HH HI) as ST.
  rewrite F, DE in ET, LT, ST. rewrite IN in LT, ST. split; [exact ET|]. rewrite LT. exact ST.
Qed.

(** near-Earth records: every call returns *)
Section Always.
Context {F : Type} {FO : FloatOps F}.
Lemma always fuel (s0 : Satrec F) o : sr_method (sgp4init_elements o s0) = MethodN ->
  exists s r, sgp4init fuel s0 o = Done (s, r) /\
    forall calls fuel' t, exists s1 s' res, after_calls s calls = Done s1 /\ sgp4 fuel' s1 t = Done (s', res).
Proof.
  intros M.
  assert (DN : forall f (x : Satrec F) t, sr_method x = MethodN -> exists x' r, sgp4 f x t = Done (x', r) /\ sr_method x' = MethodN).
  { intros f x t Mx. destruct (near_done F FO f x t) as (x' & r & H); [unfold deep; now rewrite Mx|]. exists x', r. split; [exact H|].
    apply sgp4_frame in H. destruct H as [HN _]. rewrite (HN Mx). exact Mx. }
  destruct (DN fuel _ (L 0 0) M) as (a & r & H & Ma).
  assert (X : exists s, sgp4init fuel s0 o = Done (s, r) /\ sr_method s = MethodN).
  { unfold sgp4init. cbv zeta. rewrite H. cbn [bindO]. destruct r; eexists; (split; [reflexivity|exact Ma]). }
  destruct X as (s & K & Ms). exists s, r. split; [exact K|]. clear - DN Ms.
  intros calls. revert s Ms. induction calls as [|[n t0] rest IH]; intros s Ms fuel' t; cbn [after_calls].
  - destruct (DN fuel' s t Ms) as (s' & res & H & _). eauto.
  - destruct (DN n s t0 Ms) as (x & r & H & Mx). rewrite H. cbn [bindO]. exact (IH x Mx fuel' t).
Qed.
End Always.

(** semi-latus rectum from its enclosure *)
Lemma latus_apx x (a : R) : ApxCalc.apx x a AccTail.plB -> 0 < a.
Proof. intros (_ & I & _). cbn [ApxCalc.el ApxCalc.eh AccTail.plB] in I. unfold Q2R in I. cbn [QArith_base.Qnum QArith_base.Qden] in I. lra. Qed.

Section S.
Context (lm : libm) (ACC : accurate lm).
Notation B := (B64Ops lm).
(** elements [el], binary64 elements [o] that agree with them up to rounding *)
Lemma class_accuracy full fuel (s0 s : Satrec b64) (o : SGP4InitOptions b64) r calls s1 fuel' (t : b64) s' res el :
  @sgp4init _ B fuel s0 o = Done (s, r) -> @after_calls _ B s calls = Done s1 -> @sgp4 _ B fuel' s1 t = Done (s', res) ->
  in_class el -> rounded o el -> inside t (- span el) (span el) -> perigee_class full el -> same_side full o el -> near_outcome64 full el (B2R t) res.
Proof.
  intros H A G O RD Ht P SD. set (tm := B2R t). set (i := Str3.i0 el). set (e := Str3.e_unclamped el full tm 0).
  destruct (fresh _ _ _ _ _ _ _ _ _ _ _ H A G) as (s2 & K). clear H A G.
  remember (@sgp4init_elements _ B o s0) as a eqn:EA. remember (@sgp4init_elements _ ROps (options_of o el) (@satrec_zero _ ROps)) as a' eqn:EA'.
  pose proof (class_rec lm ACC full o el t a a' s0 _ O RD P SD Ht EA EA') as NR.
  destruct (near_run lm ACC fuel' a a' t (B2R t) s2 res NR K) as (R1 & R2). destruct (near_short lm ACC a a' t (B2R t) NR) as (PL & _).
  destruct NR as (_ & M' & _).
  assert (HO : orbital (elements (options_of o el))) by (rewrite options_elements; exact (class_orbital el O)).
  assert (HP : perigee_class full (elements (options_of o el))) by (rewrite options_elements; exact P).
  destruct (exact_state full (options_of o el) _ a' tm EA' HO M' HP) as (T1 & T2). rewrite options_elements in T1, T2. fold i in T2. fold tm in R1, R2, PL.
  rewrite T1 in R1, R2. fold e in R1, R2. split; [exact R1|]. intros Q. specialize (R2 Q).
  pose proof (latus_apx _ _ PL) as PP.
  destruct (T2 PP) as (E & u & K1 & K2 & K3 & K4 & K5 & K6). rewrite K4, K5, K6 in R2. exists E, u.
  split; [exact K1|]. split; [exact K2|]. split; [exact K3|]. exact R2.
Qed.
End S.

(** Initialise a record from binary64 elements, make any calls on it, then propagate it to a binary64 time
    within a day of epoch (three weeks, from a perigee of 400 km up), all in binary64 with any accurate
    library.  Evaluate the published theory on the
    same numbers without rounding.  Unless one of the theory's quantities lies within 1e-9 (eccentricity)
    or 1e-8 (radius) of a decision boundary, the call takes the theory's decision, and the position and
    velocity it returns are within 12 cm and 0.2 mm/s of the theory's in every coordinate.  [full] is the
    theory's drag model: the full one for perigees above 221 km, the short one between 157 and 219 km.  With
    the full one the eccentricity must not be the double nearest to 1e-4, where a term is switched off. *)
Theorem C57_near_earth_accuracy :
  forall (lm : libm), accurate lm ->
  forall (full : bool) fuel (s0 s : Satrec b64) (o : SGP4InitOptions b64) r calls s1 fuel' (t : b64) s' res,
    sgp4init (FO := B64Ops lm) fuel s0 o = Done (s, r) ->
    after_calls (FO := B64Ops lm) s calls = Done s1 ->
    sgp4 (FO := B64Ops lm) fuel' s1 t = Done (s', res) ->
    let el := elements (exact o) in
    ordinary o -> inside t (- span el) (span el) -> (full = true -> B2R (in_xecco o) <> B2R (b64_lit 1 (-4))) ->
    let i := Str3.i0 el in
    let tm := B2R t in
    perigee_class full el ->
    let e := Str3.e_unclamped el full tm 0 in
    (e <= - (1 / 1000) - 1 / 1000000000 -> res = Err Eccentricty) /\
    (- (1 / 1000) + 1 / 1000000000 <= e -> exists E u,
       kepler_angle (Str3.axN el full tm 0) (Str3.ayN el full tm 0 i) (Str3.U el full tm 0 i) E /\
       sin u = Str3.sin_u el full tm 0 i E /\ cos u = Str3.cos_u el full tm 0 i E /\
       Str3.rk el full tm 0 i E u <= 305 / 100 /\
       (Str3.rk el full tm 0 i E u <= 1 - 1 / 100000000 -> res = Err DecayCondition) /\
       (1 + 1 / 100000000 <= Str3.rk el full tm 0 i E u -> exists v, res = Ok v /\
          close (12 / 100000) (g4_position v) (Str3.position el full tm 0 i E u) /\
          close (2 / 10000000) (g4_velocity v) (Str3.velocity el full tm 0 i E u) /\
          Vectors3.norm (Str3.velocity el full tm 0 i E u) <= 175)).
Proof.
  intros lm ACC full fuel s0 s o r calls s1 fuel' t s' res H A G el O Ht SD i tm P. destruct (ordinary_class o O) as (CL & RD).
  exact (class_accuracy lm ACC full fuel s0 s o r calls s1 fuel' t s' res el H A G CL RD Ht P (exact_side full o SD)).
Qed.
Print Assumptions C57_near_earth_accuracy.

(** The elements themselves may have been rounded on their way in: the bounds hold against the theory for any
    elements the binary64 ones are roundings of. *)
Theorem C57_rounded_elements :
  forall (lm : libm), accurate lm ->
  forall (full : bool) fuel (s0 s : Satrec b64) (o : SGP4InitOptions b64) r calls s1 fuel' (t : b64) s' res (el : Str3.Elements),
    sgp4init (FO := B64Ops lm) fuel s0 o = Done (s, r) ->
    after_calls (FO := B64Ops lm) s calls = Done s1 ->
    sgp4 (FO := B64Ops lm) fuel' s1 t = Done (s', res) ->
    in_class el -> rounded o el -> perigee_class full el -> same_side full o el -> inside t (- span el) (span el) ->
    near_outcome64 full el (B2R t) res.
Proof.
  intros lm ACC full fuel s0 s o r calls s1 fuel' t s' res el H A G CL RD P SD Ht.
  exact (class_accuracy lm ACC full fuel s0 s o r calls s1 fuel' t s' res el H A G CL RD Ht P SD).
Qed.
Print Assumptions C57_rounded_elements.

Lemma class_returns lm (ACC : accurate lm) full fuel (s0 : Satrec b64) (o : SGP4InitOptions b64) el :
  in_class el -> rounded o el -> perigee_class full el -> same_side full o el ->
  exists s r, sgp4init (FO := B64Ops lm) fuel s0 o = Done (s, r) /\
    forall calls fuel' t, exists s1 s' res, after_calls (FO := B64Ops lm) s calls = Done s1 /\ sgp4 (FO := B64Ops lm) fuel' s1 t = Done (s', res).
Proof.
  intros CL RD P SD.
  assert (M : sr_method (@sgp4init_elements _ (B64Ops lm) o s0) = MethodN).
  { assert (Z : inside (B754_zero false) (- span el) (span el)) by (pose proof (span_at_least el); split; [reflexivity|cbn [B2R]; lra]).
    exact (proj1 (class_rec lm ACC full o el _ _ _ s0 (@satrec_zero _ ROps) CL RD P SD Z eq_refl eq_refl)). }
  exact (always fuel s0 o M).
Qed.
(** Such calls always come back, with any fuel. *)
Theorem C57_always_returns :
  forall (lm : libm), accurate lm ->
  forall (full : bool) fuel (s0 : Satrec b64) (o : SGP4InitOptions b64),
    ordinary o -> (full = true -> B2R (in_xecco o) <> B2R (b64_lit 1 (-4))) -> perigee_class full (elements (exact o)) ->
    exists s r, sgp4init (FO := B64Ops lm) fuel s0 o = Done (s, r) /\
      forall calls fuel' t, exists s1 s' res,
        after_calls (FO := B64Ops lm) s calls = Done s1 /\ sgp4 (FO := B64Ops lm) fuel' s1 t = Done (s', res).
Proof.
  intros lm ACC full fuel s0 o O SD P. destruct (ordinary_class o O) as (CL & RD). exact (class_returns lm ACC full fuel s0 o _ CL RD P (exact_side full o SD)).
Qed.
Print Assumptions C57_always_returns.

(** Non-vacuity.  Any ordinary set with mean motion up to 1/32 and eccentricity up to 1/10 has its perigee
    high enough, and a circular one of 73/1024 rad/min (16.3 revolutions a day) has it between 157 and 219 km;
    for the equatorial circular ones without drag, whatever their phase, perigee and node, the call returns a
    state within the bounds, at every time of the day. *)
Lemma pow23_ge x : 64 / 27 <= x -> 16 / 9 <= Str3.two_thirds x.
Proof.
  intros H. apply Rle_trans with (Str3.two_thirds (64 / 27)).
  - unfold Str3.two_thirds. replace (64 / 27) with ((4 / 3) ^ 3) by field. rewrite <- Rpower_pow by lra. rewrite Rpower_mult.
    replace (INR 3 * (2 / 3)) with (INR 2) by (simpl; field). rewrite Rpower_pow by lra. lra.
  - apply Rle_Rpower_l; lra.
Qed.
Lemma high_a el : 0 < Str3.n0 el <= 1 / 32 -> 0 <= Str3.e0 el <= 451 / 1000 -> 16 / 9 <= Str3.a el.
Proof.
  intros N E. pose proof (d0_small el ltac:(lra) E) as D. apply Rabs_le_inv in D. unfold Str3.a. apply pow23_ge. unfold Str3.n.
  replace (Str3.ke / (Str3.n0 el / (1 + Str3.d0 el))) with (Str3.ke * (1 + Str3.d0 el) / Str3.n0 el) by (field; lra).
  apply Rmult_le_reg_r with (Str3.n0 el); [lra|]. unfold Rdiv at 2. rewrite Rmult_assoc, Rinv_l by lra. unfold Str3.ke. lra.
Qed.
Lemma high_perigee_ok el : 0 < Str3.n0 el <= 1 / 32 -> 0 <= Str3.e0 el <= 1 / 10 -> 400 <= Str3.perigee_height el.
Proof. intros N E. pose proof (high_a el N ltac:(lra)) as A. unfold Str3.perigee_height, Str3.aE. nra. Qed.
Lemma pow23_le x : 0 < x <= 1051 / 1000 -> Str3.two_thirds x <= 10342 / 10000.
Proof.
  intros H. apply Rle_trans with (Str3.two_thirds ((10169 / 10000) ^ 3)).
  - apply Rle_Rpower_l; lra.
  - unfold Str3.two_thirds. rewrite <- Rpower_pow by lra. rewrite Rpower_mult.
    replace (INR 3 * (2 / 3)) with (INR 2) by (simpl; field). rewrite Rpower_pow by lra. lra.
Qed.
Lemma pow23_low x : 1038 / 1000 <= x -> 10250 / 10000 <= Str3.two_thirds x.
Proof.
  intros H. apply Rle_trans with (Str3.two_thirds ((10125 / 10000) ^ 3)).
  - unfold Str3.two_thirds. rewrite <- Rpower_pow by lra. rewrite Rpower_mult.
    replace (INR 3 * (2 / 3)) with (INR 2) by (simpl; field). rewrite Rpower_pow by lra. lra.
  - apply Rle_Rpower_l; lra.
Qed.
Lemma low_a el : 7124 / 100000 <= Str3.n0 el <= 7130 / 100000 -> 0 <= Str3.e0 el <= 1 / 10000 -> 10250 / 10000 <= Str3.a el <= 10342 / 10000.
Proof.
  intros N E. pose proof (d0_small el ltac:(lra) ltac:(lra)) as D. apply Rabs_le_inv in D. unfold Str3.a, Str3.n.
  replace (Str3.ke / (Str3.n0 el / (1 + Str3.d0 el))) with (Str3.ke * (1 + Str3.d0 el) / Str3.n0 el) by (field; lra).
  assert (Q : 1039 / 1000 <= Str3.ke * (1 + Str3.d0 el) / Str3.n0 el <= 1049 / 1000).
  { set (k := Str3.ke * (1 + Str3.d0 el)). assert (K : 741 / 10000 <= k <= 746 / 10000) by (unfold k, Str3.ke; lra). clearbody k.
    assert (X : k / Str3.n0 el * Str3.n0 el = k) by (field; lra). set (y := k / Str3.n0 el) in *. clearbody y. nra. }
  split; [apply pow23_low|apply pow23_le]; lra.
Qed.
Lemma low_perigee_ok el : 7124 / 100000 <= Str3.n0 el <= 7130 / 100000 -> 0 <= Str3.e0 el <= 1 / 10000 -> perigee_class false el.
Proof. intros N E. pose proof (low_a el N E) as A. unfold perigee_class, Str3.perigee_height, Str3.aE. nra. Qed.
Section Co.
Variable el : Str3.Elements.
Hypothesis HB : Str3.Bstar el = 0.
Hypothesis HE : Str3.e0 el = 0.
Hypothesis HA : 1025 / 1000 <= Str3.a el.
Lemma co_C1 : Str3.C1 el = 0.
Proof. unfold Str3.C1. rewrite HB. ring. Qed.
Lemma co_e full t : Str3.e_unclamped el full t 0 = 0.
Proof. unfold Str3.e_unclamped, Str3.if_full. rewrite HB, HE. destruct full; ring. Qed.
Lemma co_e2 full t : Str3.e el full t 0 = 1 / 1000000.
Proof. unfold Str3.e. rewrite co_e. apply Rmax_right. lra. Qed.
Lemma co_at full t : Str3.at_ el full t = Str3.a el.
Proof. unfold Str3.at_, Str3.if_full, Str3.D2, Str3.D3, Str3.D4. rewrite co_C1. destruct full; ring. Qed.
Lemma co_eL full t : Str3.eL2 el full t 0 0 = (1 / 1000000) ^ 2.
Proof.
  unfold Str3.eL2, Str3.axN, Str3.ayN. rewrite co_e2, sin_0. pose proof (sin2_cos2 (Str3.w el full t)) as Q. unfold Rsqr in Q.
  unfold Rdiv. rewrite Rmult_0_r, Rmult_0_l, Rplus_0_r. nra.
Qed.
Lemma co_pL full t : 102 / 100 <= Str3.pL el full t 0 0.
Proof. unfold Str3.pL. rewrite co_eL, co_at. pose proof HA. lra. Qed.
Lemma co_rk full t E u : 1 + 1 / 100000000 <= Str3.rk el full t 0 0 E u.
Proof.
  unfold Str3.rk. rewrite co_eL, cos_0.
  pose proof (co_pL full t) as P. set (p := Str3.pL el full t 0 0) in *. clearbody p.
  assert (R : 102 / 100 <= Str3.r el full t 0 0 E).
  { unfold Str3.r. rewrite co_at. pose proof HA as A.
    assert (C : Str3.e_cosE el full t 0 0 E <= 2 / 1000000).
    { unfold Str3.e_cosE. pose proof (co_eL full t) as Q. unfold Str3.eL2 in Q.
      set (x := Str3.axN el full t 0) in *. set (y := Str3.ayN el full t 0 0) in *. clearbody x y.
      pose proof (sin2_cos2 E) as S. unfold Rsqr in S. pose proof (pow2_ge_0 (x * sin E - y * cos E)).
      assert ((x * cos E + y * sin E) ^ 2 <= (x ^ 2 + y ^ 2) * (cos E * cos E + sin E * sin E)) by nra.
      replace (cos E * cos E + sin E * sin E) with 1 in * by lra. nra. }
    nra. }
  set (r := Str3.r el full t 0 0 E) in *. clearbody r.
  assert (B : 0 <= sqrt (1 - (1 / 1000000) ^ 2) <= 1).
  { split; [apply sqrt_pos|]. replace 1 with (sqrt 1) at 3 by apply sqrt_1. apply sqrt_le_1_alt; lra. }
  set (b := sqrt _) in *. clearbody b.
  assert (Q : / p ^ 2 <= 1).
  { rewrite <- Rinv_1. apply Rinv_le_contravar; [lra|]. nra. }
  assert (Q0 : 0 < / p ^ 2) by (apply Rinv_0_lt_compat; nra).
  replace (1 - 1 ^ 2) with 0 by ring. rewrite Rmult_0_r, Rmult_0_l, Rplus_0_r.
  replace (3 / 2 * Str3.k2 * b / p ^ 2 * (3 * 1 ^ 2 - 1)) with (3 / 2 * Str3.k2 * b * / p ^ 2 * (3 * 1 ^ 2 - 1)) by reflexivity.
  set (q := / p ^ 2) in *. clearbody q.
  assert (0 <= 3 / 2 * Str3.k2 * b * q * (3 * 1 ^ 2 - 1) <= 2 / 1000).
  { assert (0 <= b * q <= 1) by nra. unfold Str3.k2, Str3.J2. lra. }
  nra.
Qed.
End Co.
(** the binary64 numbers 1/32 and 73/1024 *)
Definition n32 : b64 := @B754_finite prec emax false 4503599627370496 (-57) eq_refl.
Definition n73 : b64 := @B754_finite prec emax false 5136918324969472 (-56) eq_refl.
Definition eq_orbit (n w M nd : b64) : SGP4InitOptions b64 :=
  MkSGP4InitOptions OpsI nil (B754_zero false) (B754_zero false) (B754_zero false) w (B754_zero false) M n nd.
Lemma n32_val : B2R n32 = 1 / 32.
Proof. unfold n32, B2R, Defs.F2R. cbn [Defs.Fnum Defs.Fexp Zaux.cond_Zopp]. change (-57)%Z with (Z.opp 57). rewrite (bpow_opp radix2 57). cbn [bpow]. change (Z.pow_pos radix2 57) with 144115188075855872%Z. lra. Qed.
Lemma n73_val : B2R n73 = 73 / 1024.
Proof. unfold n73, B2R, Defs.F2R. cbn [Defs.Fnum Defs.Fexp Zaux.cond_Zopp]. change (-56)%Z with (Z.opp 56). rewrite (bpow_opp radix2 56). cbn [bpow]. change (Z.pow_pos radix2 56) with 72057594037927936%Z. lra. Qed.
Lemma not4 : B2R (@B754_zero prec emax false) <> B2R (b64_lit 1 (-4)).
Proof.
  cbn [B2R]. rewrite lit_round4. intros E. assert (H : bpow radix2 (-20) <= 0).
  { rewrite E at 1. rewrite <- (round_generic radix2 (SpecFloat.fexp prec emax) ZnearestE (bpow radix2 (-20))).
    - apply round_le; [apply fexp_correct; reflexivity|apply valid_rnd_N|]. change (-20)%Z with (Z.opp 20). rewrite (bpow_opp radix2 20). cbn [bpow]. change (Z.pow_pos radix2 20) with 1048576%Z. lra.
    - apply generic_format_bpow. vm_compute. discriminate. }
  pose proof (bpow_gt_0 radix2 (-20)). lra.
Qed.
Lemma eq_case full n w M nd t : inside n (28 / 1000) (73 / 1000) -> inside w (-7) 7 -> inside M (-7) 7 -> inside nd (-7) 7 ->
  let o := eq_orbit n w M nd in let el := elements (exact o) in inside t (- span el) (span el) -> perigee_class full el -> 1025 / 1000 <= Str3.a el ->
  ordinary o /\ B2R (in_xecco o) <> B2R (b64_lit 1 (-4)) /\
  exists s r s' v E u, sgp4init (FO := B64Ops exact_lm) 0 (satrec_zero (FO := B64Ops exact_lm)) o = Done (s, r) /\
    sgp4 (FO := B64Ops exact_lm) 0 s t = Done (s', Ok v) /\
    close (12 / 100000) (g4_position v) (Str3.position el full (B2R t) 0 0 E u).
Proof.
  intros Hn Hw HM Hd o el Ht P A.
  assert (Z : forall l h, l <= 0 <= h -> inside (B754_zero false) l h) by (intros l h; split; [reflexivity|exact H]).
  assert (O : ordinary o) by (split; [exact Hn|]; split; [apply Z; lra|]; split; [apply Z; lra|]; split; [apply Z; lra|]; now repeat split; try apply Hw; try apply HM; try apply Hd).
  assert (He : Str3.e0 el = 0) by reflexivity. assert (HB : Str3.Bstar el = 0) by reflexivity. assert (Hi : Str3.i0 el = 0) by reflexivity.
  split; [exact O|]. split; [exact not4|].
  destruct (C57_always_returns exact_lm exact_lm_accurate full 0 (@satrec_zero _ (B64Ops exact_lm)) o O (fun _ => not4) P) as (s & r & H & K).
  destruct (K nil 0%nat t) as (s1 & s' & res & K1 & K2). cbn [after_calls] in K1. injection K1 as <-.
  destruct (C57_near_earth_accuracy exact_lm exact_lm_accurate full _ _ _ _ _ nil s _ _ _ _ H eq_refl K2 O Ht (fun _ => not4) P) as (_ & C). cbv zeta in C. fold el in C.
  rewrite (co_e el HB He), Hi in C. destruct (C ltac:(lra)) as (E & u & _ & _ & _ & _ & _ & C2).
  destruct (C2 (co_rk el HB He A _ _ _ _)) as (v & -> & C3 & _). exists s, r, s', v, E, u. repeat split; try assumption; apply C3.
Qed.
Example C57_example :
  accurate exact_lm /\
  forall w M nd t, inside w (-7) 7 -> inside M (-7) 7 -> inside nd (-7) 7 ->
    forall (full : bool), let o := eq_orbit (if full then n32 else n73) w M nd in let el := elements (exact o) in
    inside t (- span el) (span el) -> span el = (if full then 30240 else 1440) /\ ordinary o /\ B2R (in_xecco o) <> B2R (b64_lit 1 (-4)) /\ perigee_class full el /\
    exists s r s' v E u, sgp4init (FO := B64Ops exact_lm) 0 (satrec_zero (FO := B64Ops exact_lm)) o = Done (s, r) /\
      sgp4 (FO := B64Ops exact_lm) 0 s t = Done (s', Ok v) /\
      close (12 / 100000) (g4_position v) (Str3.position el full (B2R t) 0 0 E u).
Proof.
  split; [exact exact_lm_accurate|]. intros w M nd t Hw HM Hd full o el Ht.
  assert (He : Str3.e0 el = 0) by reflexivity.
  assert (PA : inside (if full then n32 else n73) (28 / 1000) (73 / 1000) /\ perigee_class full el /\ 1025 / 1000 <= Str3.a el /\ span el = (if full then 30240 else 1440)).
  { destruct full.
    - assert (HN : 0 < Str3.n0 el <= 1 / 32) by (change (Str3.n0 el) with (B2R n32); rewrite n32_val; lra). pose proof (high_a el HN ltac:(lra)).
      split; [split; [reflexivity|rewrite n32_val; lra]|]. pose proof (high_perigee_ok el HN ltac:(lra)) as P. split; [unfold perigee_class; lra|]. split; [lra|]. unfold span. destruct (Rle_dec _ _); [reflexivity|contradiction].
    - assert (HN : Str3.n0 el = 73 / 1024) by (exact n73_val). pose proof (low_a el ltac:(lra) ltac:(lra)).
      split; [split; [reflexivity|rewrite n73_val; lra]|]. pose proof (low_perigee_ok el ltac:(lra) ltac:(lra)) as P. split; [exact P|]. split; [lra|]. unfold perigee_class in P. unfold span. destruct (Rle_dec _ _); [lra|reflexivity]. }
  destruct PA as (N & P & A & SP). split; [exact SP|]. destruct (eq_case full _ w M nd t N Hw HM Hd Ht P A) as (X1 & X2 & X3).
  split; [exact X1|]. split; [exact X2|]. split; [exact P|]. exact X3.
Qed.
