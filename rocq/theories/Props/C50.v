(** * C50: a propagated state is the state of the published theory *)
From Coq Require Import ZArith List Bool Reals Lra Psatz.
From Flocq Require Import Core.Raux.
From Verif.Model Require Import Float Str Satrec Constants Vec3 Dpper Sgp4 Sgp4init.
From Verif.Inst Require Import RInst RTac.
From Verif.Proofs Require Import Sgp4Frame InitElems KeplerFacts KeplerHigh Sgp4Errors Str3Init Str3State.
From Verif.Spec Require Import KeplerSpec Sgp4Spec PeriodicSpec Str3Api.
From Verif.Spec Require Str3.
From Verif.Golden Require Import RSat RDeep.
From Verif.Props Require C01 C12 C21 C51.
Local Open Scope R_scope.

Lemma from_init fuel (s0 s s1 s' : Satrec R) o r calls fuel' t res :
  sgp4init fuel s0 o = Done (s, r) -> after_calls s calls = Done s1 -> sgp4 fuel' s1 t = Done (s', res) ->
  orbital (elements o) ->
  let el := elements o in
  coefs_of s = coefs_T el /\
  (sr_no s = Str3.n el /\ sr_ecco s = Str3.e0 el /\ sr_inclo s = Str3.i0 el /\ sr_mo s = Str3.M0 el /\
   sr_argpo s = Str3.w0 el /\ sr_nodeo s = Str3.node0 el /\ sr_bstar s = Str3.Bstar el) /\
  (full_drag s = true -> high_of s = high_T el) /\
  (deep s = false -> incl_of s = incl_T' el) /\
  exists s2, sgp4 fuel' s t = Done (s2, res).
Proof.
  intros H A P HO el. destruct (sgp4init_coefs _ _ _ _ _ H HO) as (C & I & G & _ & _).
  destruct (sgp4init_elems _ _ _ _ _ H) as [E _]. unfold elems_of in E. injection E as E1 E2 E3 E4 E5 E6 E7 _ _ _.
  split; [exact C|]. split.
  { rewrite E1, E2, E3, E4, E5, E6, E7. split; [apply initl_no_T, HO|repeat split]. }
  split. { intros F. apply G. unfold full_drag in F. apply negb_true_iff, Z.eqb_neq in F. exact F. }
  split. { intros D. apply I. unfold deep in D. destruct (sr_method s); [reflexivity|discriminate]. }
  pose proof (C01.C01_history_independence _ _ _ _ _ fuel' t A) as K. rewrite P in K. cbn [returned] in K.
  destruct (sgp4 fuel' s t) as [[s2 r2]| |]; try discriminate. cbn [returned] in K. injection K as <-. eauto.
Qed.

(** Near the Earth (period below 225 minutes).  Initialise a record from elements [el], make any calls on it,
    then propagate it to [t].  The outcome is decided by the theory's quantities: an eccentricity outside
    [-0.001, 1) is an error, so is a negative semi-latus rectum, so is a radius below 1; in every other case the
    call returns the theory's position and velocity.  (The semi-latus rectum 0 is not covered.) *)
Theorem C50_near_earth_state :
  forall (fuel : nat) (s0 s : Satrec R) (o : SGP4InitOptions R) r calls s1 fuel' (t : R) s' res,
    sgp4init fuel s0 o = Done (s, r) -> after_calls s calls = Done s1 -> sgp4 fuel' s1 t = Done (s', res) ->
    let el := elements o in
    orbital el -> period el < 225 ->
    let full := Rle_bool 220 (Str3.perigee_height el) in
    let i := Str3.i0 el in
    let e := Str3.e_unclamped el full t 0 in
    let pL := Str3.pL el full t 0 i in
    (~ ecc_ok e -> res = Err Eccentricty) /\
    (ecc_ok e -> pL < 0 -> res = Err Pl) /\
    (ecc_ok e -> 0 < pL -> exists E u,
       kepler_angle (Str3.axN el full t 0) (Str3.ayN el full t 0 i) (Str3.U el full t 0 i) E /\
       sin u = Str3.sin_u el full t 0 i E /\ cos u = Str3.cos_u el full t 0 i E /\
       (Str3.rk el full t 0 i E u < 1 -> res = Err DecayCondition) /\
       (1 <= Str3.rk el full t 0 i E u ->
          res = Ok (MkSGP4Result (Str3.position el full t 0 i E u) (Str3.velocity el full t 0 i E u)))).
Proof.
  intros fuel s0 s o r calls s1 fuel' t s' res H A P el HO HP full i e pL.
  destruct (sgp4init_coefs _ _ _ _ _ H HO) as (_ & _ & _ & SI & M). fold el in SI, M.
  change (2 * PI / Str3.n el) with (period el) in SI, M. rewrite Rle_bool_false in SI, M by exact HP. cbn [orb] in SI.
  destruct (from_init _ _ _ _ _ _ _ _ _ _ _ H A P HO) as (HC & HE & HH & HI & s2 & HD). fold el in HC, HE, HH, HI.
  assert (D : deep s = false) by (unfold deep; now rewrite M).
  assert (F : full_drag s = full).
  { unfold full_drag, full. rewrite SI. case Rlt_bool_spec; intros Q.
    - now rewrite Rle_bool_false by exact Q.
    - now rewrite Rle_bool_true by exact Q. }
  assert (DE : de_of s t = 0) by (unfold de_of; now rewrite D).
  assert (IN : incl_at s t = i) by (unfold incl_at; rewrite D; apply HE).
  assert (EP : bad_perturbed_ecc s t = false) by (unfold bad_perturbed_ecc; now rewrite D).
  pose proof (outcome_ecc s el t HO HC HE HH HI fuel' s2 res HD) as O1.
  pose proof (outcome_pl s el t HO HC HE HH HI fuel' s2 res HD) as O2.
  pose proof (outcome_state s el t HO HC HE HH HI fuel' s2 res HD) as O3.
  rewrite F, DE in O1, O2, O3. rewrite IN in O2, O3. unfold e, pL.
  split; [exact O1|]. split; intros G; [exact (O2 G EP)|exact (O3 G EP)].
Qed.
Print Assumptions C50_near_earth_state.

(** Deep space (period 225 minutes or more).  As shipped, of all lunar-solar effects only two reach the state:
    the secular change of eccentricity, and the periodic change of inclination.  Given those, the outcome is the
    theory's, with simplified drag; an eccentricity that the lunar-solar periodics push outside [0, 1] is an
    error too. *)
Theorem C50_deep_space_state :
  forall (fuel : nat) (s0 s : Satrec R) (o : SGP4InitOptions R) r calls s1 fuel' (t : R) s' res,
    sgp4init fuel s0 o = Done (s, r) -> after_calls s calls = Done s1 -> sgp4 fuel' s1 t = Done (s', res) ->
    let el := elements o in
    orbital el -> 225 <= period el ->
    let de := sr_dedt s * t in
    let i := Rabs (Str3.i0 el + d_incl s t) in
    let e := Str3.e_unclamped el false t de in
    let ep := Str3.e el false t de + d_ecc s t in
    let pL := Str3.pL el false t de i in
    (~ ecc_ok e -> res = Err Eccentricty) /\
    (ecc_ok e -> ~ 0 <= ep <= 1 -> res = Err Ep) /\
    (ecc_ok e -> 0 <= ep <= 1 -> pL < 0 -> res = Err Pl) /\
    (ecc_ok e -> 0 <= ep <= 1 -> 0 < pL -> exists E u,
       kepler_angle (Str3.axN el false t de) (Str3.ayN el false t de i) (Str3.U el false t de i) E /\
       sin u = Str3.sin_u el false t de i E /\ cos u = Str3.cos_u el false t de i E /\
       (Str3.rk el false t de i E u < 1 -> res = Err DecayCondition) /\
       (1 <= Str3.rk el false t de i E u ->
          res = Ok (MkSGP4Result (Str3.position el false t de i E u) (Str3.velocity el false t de i E u)))).
Proof.
  intros fuel s0 s o r calls s1 fuel' t s' res H A P el HO HP de i e ep pL.
  destruct (sgp4init_coefs _ _ _ _ _ H HO) as (_ & _ & _ & SI & M). fold el in SI, M.
  change (2 * PI / Str3.n el) with (period el) in SI, M. rewrite Rle_bool_true in SI, M by exact HP. cbn [orb] in SI.
  destruct (from_init _ _ _ _ _ _ _ _ _ _ _ H A P HO) as (HC & HE & HH & HI & s2 & HD). fold el in HC, HE, HH, HI.
  assert (D : deep s = true) by (unfold deep; now rewrite M).
  assert (F : full_drag s = false) by (unfold full_drag; now rewrite SI).
  assert (DE : de_of s t = de) by (unfold de_of; now rewrite D).
  destruct (C21.C21_direct_elements (set_t t s) (MkDpperOptions InitN (sr_operationmode s) (sr_inclo s) (ecc_used s t) (sr_inclo s)
                       (node_red s t) (argp_red s t) (M_red s t)) eq_refl) as (PE & PI & _).
  fold (periodics s t) in PE, PI. cbn [po_ep po_inclp] in PE, PI.
  change (d_ecc (set_t t s) (sr_t (set_t t s))) with (d_ecc s t) in PE.
  change (d_incl (set_t t s) (sr_t (set_t t s))) with (d_incl s t) in PI.
  rewrite (e_T s el t HC HE HH HI), F, DE in PE. fold ep in PE.
  assert (IN : incl_at s t = i).
  { unfold incl_at. rewrite D. cbv zeta. rewrite PI. destruct HE as (_ & _ & -> & _). rops. unfold i.
    case Rlt_bool_spec; intros Q; [now rewrite Rabs_left by exact Q|now rewrite Rabs_pos_eq by exact Q]. }
  assert (EP : bad_perturbed_ecc s t = true <-> ~ 0 <= ep <= 1).
  { unfold bad_perturbed_ecc. rewrite D, PE. cbn [andb]. rops. rewrite orb_true_iff, !Rlt_bool_iff. split; [lra|].
    intros N. destruct (Rle_lt_dec 0 ep) as [Q|Q]; [right|now left]. apply Rnot_le_lt. intros Q2. apply N. lra. }
  assert (EF : 0 <= ep <= 1 -> bad_perturbed_ecc s t = false).
  { intros Q. destruct (bad_perturbed_ecc s t); [|reflexivity]. now elim (proj1 EP eq_refl). }
  pose proof (outcome_ecc s el t HO HC HE HH HI fuel' s2 res HD) as O1.
  pose proof (outcome_ep s el t HO HC HE HH HI fuel' s2 res HD) as O4.
  pose proof (outcome_pl s el t HO HC HE HH HI fuel' s2 res HD) as O2.
  pose proof (outcome_state s el t HO HC HE HH HI fuel' s2 res HD) as O3.
  rewrite F, DE in O1, O2, O3, O4. rewrite IN in O2, O3. unfold e, pL. clear - O1 O2 O3 O4 EP EF.
  split; [exact O1|]. split; [|split].
  - intros G Q. apply O4; [exact G|]. now apply EP.
  - intros G Q. apply O2; auto.
  - intros G Q. apply O3; auto.
Qed.
Print Assumptions C50_deep_space_state.

(** The angle E solves Kepler's equation: for a corrected eccentricity up to 0.77, to within 1e-12 times the
    derivative, so to within 2e-12/(1 - e) of the one exact solution. *)
Theorem C50_kepler_angle :
  forall ax ay U E e : R,
    kepler_angle ax ay U E -> 0 <= e <= 77 / 100 -> ax ^ 2 + ay ^ 2 = e ^ 2 ->
    Rabs (U - (E - ax * sin E + ay * cos E)) <= 1 / 1000000000000 * (1 - ax * cos E - ay * sin E) /\
    exists A, U = A - ax * sin A + ay * cos A /\ Rabs (E - A) <= 2 / 1000000000000 / (1 - e).
Proof.
  intros ax ay U E e (j & J1 & -> & J3 & J4) He H. assert (H' : ax * ax + ay * ay = e * e) by lra.
  assert (He1 : 0 <= e < 1) by lra.
  destruct (kep_root ax ay U e He1 H') as (r & R1 & R2).
  destruct (tenth_small ax ay U e He H' r R1 R2) as (_ & S).
  assert (SM : large (corr ax ay U j) = false).
  { destruct J4 as [->|J4]; [exact S|unfold large; rops; now apply Rle_bool_iff_f]. }
  pose proof (small_residual ax ay U e He1 H' (guess ax ay U j) SM) as Q.
  pose proof (dkep_bounds ax ay e He1 H' (guess ax ay U j)) as B.
  pose proof (kep_expands ax ay e He1 H' (guess ax ay U j) r) as K. rewrite R1 in K.
  unfold dkep in Q, B. rewrite (Rmult_comm (cos _) ax), (Rmult_comm (sin _) ay) in Q, B.
  split.
  - unfold kep in Q. lra.
  - exists r. split; [unfold kep in R1; lra|].
    assert (K2 : (1 - e) * Rabs (guess ax ay U j - r) <= 2 / 1000000000000).
    { rewrite Rabs_minus_sym. eapply Rle_trans; [exact K|]. eapply Rle_trans; [exact Q|]. lra. }
    apply Rmult_le_reg_l with (1 - e); [lra|]. replace ((1 - e) * (2 / 1000000000000 / (1 - e))) with (2 / 1000000000000) by (field; lra).
    exact K2.
Qed.
Print Assumptions C50_kepler_angle.

(** Non-vacuity: a drag-free circular equatorial satellite 5000 km up, whatever its phase, node and perigee, is
    initialised and propagates successfully to every time. *)
Definition co (w M nd : R) : SGP4InitOptions R :=
  MkSGP4InitOptions OpsI nil 0 0 0 w 0 M (Str3.ke * (27 / 64)) nd.
Section Co.
Variables w M nd : R.
Notation el := (elements (co w M nd)).
Lemma co_kozai a : Str3.kozai el a = 3 * Str3.k2 / a ^ 2.
Proof.
  unfold Str3.kozai, Str3.theta, Str3.beta0. cbn [elements co Str3.e0 Str3.i0 in_xecco in_xinclo].
  rewrite cos_0. replace (1 - 0 ^ 2) with 1 by ring. rewrite sqrt_1. unfold Rdiv. rewrite !pow1, Rinv_1. generalize (/ a ^ 2). intros z. field.
Qed.
Lemma pow23_ge x : 64 / 27 <= x -> 16 / 9 <= Str3.two_thirds x.
Proof.
  intros H. apply Rle_trans with (Str3.two_thirds (64 / 27)).
  - unfold Str3.two_thirds. replace (64 / 27) with ((4 / 3) ^ 3) by field. rewrite <- Rpower_pow by lra. rewrite Rpower_mult.
    replace (INR 3 * (2 / 3)) with (INR 2) by (simpl; field). rewrite Rpower_pow by lra. lra.
  - apply Rle_Rpower_l; lra.
Qed.
Lemma co_a1 : Str3.a1 el = 16 / 9.
Proof.
  unfold Str3.a1. cbn [elements co Str3.n0 in_xno].
  replace (Str3.ke / (Str3.ke * (27 / 64))) with ((4 / 3) ^ 3) by (field; pose proof ke_pos; lra).
  unfold Str3.two_thirds. rewrite <- Rpower_pow by lra. rewrite Rpower_mult.
  replace (INR 3 * (2 / 3)) with (INR 2) by (simpl; field). rewrite Rpower_pow by lra. lra.
Qed.
Lemma co_d0 : 0 <= Str3.d0 el <= 2 / 1000.
Proof.
  unfold Str3.d0. rewrite co_kozai. unfold Str3.a0, Str3.d1. rewrite co_kozai, co_a1. unfold Str3.k2, Str3.J2. lra.
Qed.
Lemma co_n : Str3.n el = Str3.ke * (27 / 64) / (1 + Str3.d0 el).
Proof. reflexivity. Qed.
Lemma co_n_b : Str3.ke * (42 / 100) <= Str3.n el <= Str3.ke * (27 / 64).
Proof.
  rewrite co_n. pose proof co_d0 as D. pose proof ke_pos as K. set (d := Str3.d0 el) in *. clearbody d.
  assert (I : 998 / 1000 <= / (1 + d) <= 1).
  { split.
    - apply Rmult_le_reg_r with (1 + d); [lra|]. rewrite Rinv_l by lra. lra.
    - rewrite <- Rinv_1. apply Rinv_le_contravar; lra. }
  unfold Rdiv at 2 4. nra.
Qed.
Lemma PI_up : PI <= 335 / 100.
Proof. pose proof (PI_ineq 2) as [_ H]. unfold tg_alt, PI_tg in H. simpl in H. lra. Qed.
Lemma co_orbital : orbital el /\ period el < 225.
Proof.
  pose proof co_n_b as N. pose proof ke_pos as K. split.
  - split; [cbn; lra|]. split; [cbn; lra|]. lra.
  - unfold period. pose proof PI_up. assert (Str3.ke = 7436685316871385 / 100000000000000000) as KE by reflexivity. rewrite KE in N.
    apply Rmult_lt_reg_r with (Str3.n el); [lra|]. unfold Rdiv. rewrite Rmult_assoc, Rinv_l by lra. lra.
Qed.
Lemma co_a : 16 / 9 <= Str3.a el.
Proof.
  unfold Str3.a. apply pow23_ge. pose proof co_n_b as N. pose proof ke_pos as K.
  apply Rmult_le_reg_r with (Str3.n el); [lra|]. unfold Rdiv at 2. rewrite Rmult_assoc, Rinv_l by lra. lra.
Qed.
Lemma co_C1 : Str3.C1 el = 0.
Proof. unfold Str3.C1. cbn [elements co Str3.Bstar in_xbstar]. ring. Qed.
Lemma co_e full t : Str3.e_unclamped el full t 0 = 0.
Proof. unfold Str3.e_unclamped, Str3.if_full. cbn [elements co Str3.Bstar Str3.e0 in_xbstar in_xecco]. destruct full; ring. Qed.
Lemma co_e2 full t : Str3.e el full t 0 = 1 / 1000000.
Proof. unfold Str3.e. rewrite co_e. apply Rmax_right. lra. Qed.
Lemma co_at full t : Str3.at_ el full t = Str3.a el.
Proof. unfold Str3.at_, Str3.if_full, Str3.D2, Str3.D3, Str3.D4. rewrite co_C1. destruct full; ring. Qed.
Lemma co_eL full t : Str3.eL2 el full t 0 0 = (1 / 1000000) ^ 2.
Proof.
  unfold Str3.eL2, Str3.axN, Str3.ayN. rewrite co_e2, sin_0. pose proof (sin2_cos2 (Str3.w el full t)) as Q. unfold Rsqr in Q.
  unfold Rdiv. rewrite Rmult_0_r, Rmult_0_l, Rplus_0_r. nra.
Qed.
Lemma co_pL full t : 17 / 10 <= Str3.pL el full t 0 0.
Proof. unfold Str3.pL. rewrite co_eL, co_at. pose proof co_a. lra. Qed.
Lemma co_rk full t E u : 1 <= Str3.rk el full t 0 0 E u.
Proof.
  unfold Str3.rk. rewrite co_eL, cos_0.
  pose proof (co_pL full t) as P. set (p := Str3.pL el full t 0 0) in *. clearbody p.
  assert (R : 17 / 10 <= Str3.r el full t 0 0 E).
  { unfold Str3.r. rewrite co_at. pose proof co_a as A.
    assert (C : Str3.e_cosE el full t 0 0 E <= 2 / 1000000).
    { unfold Str3.e_cosE. pose proof (co_eL full t) as Q. unfold Str3.eL2 in Q.
      set (x := Str3.axN el full t 0) in *. set (y := Str3.ayN el full t 0 0) in *. clearbody x y.
      pose proof (sin2_cos2 E) as S. unfold Rsqr in S. pose proof (pow2_ge_0 (x * sin E - y * cos E)).
      assert ((x * cos E + y * sin E) ^ 2 <= (x ^ 2 + y ^ 2) * (cos E * cos E + sin E * sin E)) by nra.
      replace (cos E * cos E + sin E * sin E) with 1 in * by lra. nra. }
    nra. }
  set (r := Str3.r el full t 0 0 E) in *. clearbody r.
  assert (B : 0 <= sqrt (1 - (1 / 1000000) ^ 2) <= 1).
  { split; [apply sqrt_pos|]. replace 1 with (sqrt 1) at 3 by apply sqrt_1. apply sqrt_le_1_alt; lra. }
  set (b := sqrt _) in *. clearbody b.
  assert (Q : / p ^ 2 <= 1).
  { rewrite <- Rinv_1. apply Rinv_le_contravar; [lra|]. nra. }
  assert (Q0 : 0 < / p ^ 2) by (apply Rinv_0_lt_compat; nra).
  replace (1 - 1 ^ 2) with 0 by ring. rewrite Rmult_0_r, Rmult_0_l, Rplus_0_r.
  replace (3 / 2 * Str3.k2 * b / p ^ 2 * (3 * 1 ^ 2 - 1)) with (3 / 2 * Str3.k2 * b * / p ^ 2 * (3 * 1 ^ 2 - 1)) by reflexivity.
  set (q := / p ^ 2) in *. clearbody q.
  assert (0 <= 3 / 2 * Str3.k2 * b * q * (3 * 1 ^ 2 - 1) <= 2 / 1000).
  { assert (0 <= b * q <= 1) by nra. unfold Str3.k2, Str3.J2. lra. }
  nra.
Qed.
End Co.
Example C50_example :
  forall w M nd t, exists s r, sgp4init 0 satrec_zero (co w M nd) = Done (s, r) /\
    exists s' v, sgp4 0 s t = Done (s', Ok v).
Proof.
  intros w M nd t. destruct (co_orbital w M nd) as [HO HP].
  assert (X : exists s r, sgp4init 0 satrec_zero (co w M nd) = Done (s, r)).
  { unfold sgp4init.
    assert (D : deep (sgp4init_elements (co w M nd) satrec_zero) = false).
    { unfold deep. destruct (elements_coefs (co w M nd) satrec_zero HO) as (_ & _ & _ & _ & ->).
      change (2 * PI / Str3.n (elements (co w M nd))) with (period (elements (co w M nd))).
      now rewrite Rle_bool_false by exact HP. }
    destruct (near_done R ROps 0 _ 0 D) as (s1 & r1 & H). change (@L R ROps 0 0) with 0. rewrite H. cbn [bindO].
    destruct r1; eauto. }
  destruct X as (s & r & H). exists s, r. split; [exact H|].
  assert (D : deep s = false).
  { unfold deep. destruct (sgp4init_coefs _ _ _ _ _ H HO) as (_ & _ & _ & _ & ->).
      change (2 * PI / Str3.n (elements (co w M nd))) with (period (elements (co w M nd))).
      now rewrite Rle_bool_false by exact HP. }
  destruct (near_done R ROps 0 _ t D) as (s2 & res & K).
  destruct (C50_near_earth_state _ _ _ _ _ nil s _ t _ _ H eq_refl K HO HP) as (_ & _ & C).
  cbv zeta in C. rewrite co_e in C. specialize (C ltac:(unfold ecc_ok; lra)).
  change (Str3.i0 (elements (co w M nd))) with 0 in C.
  pose proof (co_pL w M nd (Rle_bool 220 (Str3.perigee_height (elements (co w M nd)))) t) as P.
  destruct (C ltac:(lra)) as (E & u & _ & _ & _ & _ & OK). specialize (OK (co_rk _ _ _ _ _ _ _)).
  exists s2. rewrite OK in K. eauto.
Qed.

(** Non-vacuity in deep space: a drag-free circular satellite at 4 earth radii, at any inclination, epoch, phase,
    node and perigee, is initialised and propagates successfully to every time. *)
Example C50_deep_example :
  forall ep i w M nd t, exists s r, sgp4init 0 satrec_zero (dso ep 0 i w M nd) = Done (s, r) /\
    225 <= period (elements (dso ep 0 i w M nd)) /\
    exists s' v, sgp4 0 s t = Done (s', Ok v).
Proof.
  intros ep i w M nd t. destruct (dso_orbital ep 0 i w M nd zle) as [HO HP].
  destruct (dso_done 0 satrec_zero ep 0 i w M nd zle) as (s & r & H & Z).
  exists s, r. split; [exact H|]. split; [exact HP|].
  destruct (unresonant_done 0 s t Z) as (s2 & res & K).
  destruct (C50_deep_space_state _ _ _ _ _ nil s _ t _ _ H eq_refl K HO HP) as (_ & _ & _ & C). cbv zeta in C.
  destruct (C51.C51_lagrange_equations _ _ _ _ _ H HO HP) as (_ & _ & _ & _ & _ & E0 & _).
  destruct (E0 eq_refl) as (E1 & E2 & E3 & E4 & E5).
  destruct (C51.C51_epoch_phases _ _ _ _ _ H HO HP) as (_ & _ & _ & _ & E6 & _).
  rewrite E1, Rmult_0_l, ci_e, ci_e2 in C. specialize (C ltac:(unfold ecc_ok; lra)).
  assert (D : d_ecc s t = 0).
  { unfold d_ecc, wave. rewrite E2, E3, E4, E5, E6. field. }
  rewrite D in C. specialize (C ltac:(lra)).
  set (it := Rabs _) in C. pose proof (ci_pL ep i w M nd t it) as P.
  destruct (C ltac:(lra)) as (E & u & _ & _ & _ & _ & OK). specialize (OK (ci_rk _ _ _ _ _ _ _ _ _)).
  exists s2. rewrite OK in K. eauto.
Qed.
