(** * C52: resonance with the rotation of the Earth *)
From Coq Require Import ZArith List Bool Reals Lra Psatz Lia.
Import ListNotations.
From Flocq Require Import Core.Raux.
From Verif.Model Require Import Float Str Satrec Constants Vec3 Dscom Dsinit Dspace Sgp4 Sgp4init.
From Verif.Inst Require Import RInst RTac B64Rem.
From Verif.Proofs Require Import InitFrame InitKind InitElems DeepInit InitTotal Str3Init ThirdBodyFacts ResonanceFacts.
From Verif.Spec Require Import Str3Api Resonance.
From Verif.Spec Require Str3.
From Verif.Golden Require Import RDeep RRes.
Local Open Scope R_scope.

(** Kaula's inclination functions are what they are meant to be: along a circular path of inclination i, at
    argument of latitude u, with the ascending node at longitude L, each harmonic used is the sum over p of F_lmp times
    a cosine or sine of (l - 2p) u + m L. *)
Theorem C52_inclination_functions :
  forall l m : nat, In (l, m) [(2, 2); (3, 1); (3, 2); (3, 3); (4, 4); (5, 2); (5, 4)]%nat -> forall u i L,
    let x := cos u * cos L - sin u * cos i * sin L in
    let y := cos u * sin L + sin u * cos i * cos L in
    let z := sin u * sin i in
    let along p := IZR (Z.of_nat l - 2 * Z.of_nat p) * u + INR m * L in
    harmonic_cos l m x y z = sum_f_R0 (fun p => inclination_function l m p i * (if Nat.even (l - m) then cos (along p) else sin (along p))) l /\
    harmonic_sin l m x y z = sum_f_R0 (fun p => inclination_function l m p i * (if Nat.even (l - m) then sin (along p) else - cos (along p))) l.
Proof. exact harmonics_T. Qed.
Print Assumptions C52_inclination_functions.

(** What initialisation hands on to the integrator. *)
Record source (s : Satrec R) (o : SGP4InitOptions R) (q : DsinitOptions R) : Prop := MkSource {
  sc_rez : rez_of s = rez_r (dsinit q);
  sc_cos : no_cosim q = cos (Str3.i0 (elements o));
  sc_sin : no_sinim q = sin (Str3.i0 (elements o));
  sc_e : no_ecco q = Str3.e0 (elements o);
  sc_em : no_em q = Str3.e0 (elements o);
  sc_esq : no_eccsq q = Str3.e0 (elements o) * Str3.e0 (elements o);
  sc_emsq : no_emsq q = Str3.e0 (elements o) * Str3.e0 (elements o);
  sc_nm : no_nm q = Str3.n (elements o);
  sc_no : no_no q = Str3.n (elements o);
  sc_M : no_mo q = Str3.M0 (elements o);
  sc_w : no_argpo q = Str3.w0 (elements o);
  sc_node : no_nodeo q = Str3.node0 (elements o);
  sc_g : no_gsto q = sr_gsto s;
  sc_tc : no_tc q = 0;
  sc_mdot : no_mdot q = sr_mdot s;
  sc_ndot : no_nodedot q = sr_nodedot s;
  sc_pi : no_xpidot q = sr_argpdot s + sr_nodedot s;
  sc_zero : no_d2201 q = 0 /\ no_d2211 q = 0 /\ no_d3210 q = 0 /\ no_d3222 q = 0 /\ no_d4410 q = 0 /\ no_d4422 q = 0 /\ no_d5220 q = 0 /\
    no_d5232 q = 0 /\ no_d5421 q = 0 /\ no_d5433 q = 0 /\ no_del1 q = 0 /\ no_del2 q = 0 /\ no_del3 q = 0 /\ no_xfact q = 0;
  sc_sno : sr_no s = Str3.n (elements o);
  sc_sargpo : sr_argpo s = Str3.w0 (elements o) }.
Lemma the_source fuel s0 o s r : sgp4init fuel s0 o = Done (s, r) -> orbital (elements o) -> 225 <= period (elements o) ->
  exists q, source s o q.
Proof.
  intros H HO HP.
  destruct (sgp4init_coefs _ _ _ _ _ H HO) as (_ & _ & _ & _ & M).
  change (2 * PI / Str3.n (elements o)) with (period (elements o)) in M. rewrite Rle_bool_true in M by exact HP.
  destruct (sgp4init_deep_fields _ _ _ _ _ H M) as (u & (UE & UD & UZ & UT) & _ & Z).
  assert (NN : brouwer_no o = Str3.n (elements o)) by (apply initl_no_T, HO).
  destruct (sgp4init_elems _ _ _ _ _ H) as [SE _].
  set (q := deep_options o (deep_dscom o) (drift_of s) u) in *. exists q.
  assert (C1 : no_cosim q = cos (Str3.i0 (elements o))) by reflexivity.
  assert (C2 : no_sinim q = sin (Str3.i0 (elements o))) by reflexivity.
  assert (C3 : no_em q = Str3.e0 (elements o)) by reflexivity.
  assert (C4 : no_emsq q = Str3.e0 (elements o) * Str3.e0 (elements o)).
  { change (no_emsq q) with (@fpowi R ROps (in_xecco o) 2). change (in_xecco o * (in_xecco o * 1) = in_xecco o * in_xecco o). ring. }
  assert (C5 : no_nm q = Str3.n (elements o)) by exact NN.
  constructor; try assumption.
  - exact (f_equal el_ecco UE).
  - reflexivity.
  - exact (eq_trans (f_equal el_no UE) NN).
  - exact (f_equal el_mo UE).
  - exact (f_equal el_argpo UE).
  - exact (f_equal el_nodeo UE).
  - exact (eq_trans (f_equal el_gsto UE) (eq_sym (f_equal el_gsto SE))).
  - change (no_tc q) with (@L R ROps 0 0). rlit. lra.
  - exact (f_equal q_mdot UD).
  - exact (f_equal q_nodedot UD).
  - reflexivity.
  - assert (Z0 : @L R ROps 0 0 = 0) by (rlit; lra). rewrite <- Z0.
    repeat split; [exact (f_equal z_d2201 UZ)|exact (f_equal z_d2211 UZ)|exact (f_equal z_d3210 UZ)|exact (f_equal z_d3222 UZ)|exact (f_equal z_d4410 UZ)
     |exact (f_equal z_d4422 UZ)|exact (f_equal z_d5220 UZ)|exact (f_equal z_d5232 UZ)|exact (f_equal z_d5421 UZ)|exact (f_equal z_d5433 UZ)
     |exact (f_equal z_del1 UZ)|exact (f_equal z_del2 UZ)|exact (f_equal z_del3 UZ)|exact (f_equal z_xfact UZ)].
  - exact (eq_trans (f_equal el_no SE) NN).
  - exact (f_equal el_argpo SE).
Qed.
Lemma the_class s o q : source s o q -> sr_irez s = dsinit_irez (no_nm q) (no_em q).
Proof. intros S. rewrite <- dsinit_irez_eq. exact (f_equal z_irez (sc_rez _ _ _ S)). Qed.
Lemma theta0_T s o q : source s o q -> exists k : Z, theta0 q = sr_gsto s + 2 * PI * IZR k.
Proof.
  intros S. unfold theta0. rewrite (sc_g _ _ _ S), (sc_tc _ _ _ S), Rmult_0_l, Rplus_0_r. apply rem_turns.
Qed.

(** A deep-space orbit is one-day resonant when its period is between 1200 and 1800 minutes (both excluded), half-day
    resonant when it is between 680 and 760.7 minutes with eccentricity at least 0.5, and otherwise not resonant: then
    every resonance coefficient is zero. *)
Theorem C52_classes :
  forall (fuel : nat) (s0 s : Satrec R) (o : SGP4InitOptions R) r,
    sgp4init fuel s0 o = Done (s, r) ->
    let el := elements o in
    orbital el -> 225 <= period el ->
    let n := Str3.n el in let e := Str3.e0 el in
    let day := 0.0034906585 < n < 0.0052359877 in
    let half := 0.00826 <= n <= 0.00924 /\ 0.5 <= e in
    (day -> sr_irez s = 1) /\ (half -> sr_irez s = 2) /\
    (~ day -> ~ half -> sr_irez s = 0 /\ sr_del1 s = 0 /\ sr_del2 s = 0 /\ sr_del3 s = 0 /\ sr_xfact s = 0 /\
      sr_d2201 s = 0 /\ sr_d2211 s = 0 /\ sr_d3210 s = 0 /\ sr_d3222 s = 0 /\ sr_d4410 s = 0 /\ sr_d4422 s = 0 /\
      sr_d5220 s = 0 /\ sr_d5232 s = 0 /\ sr_d5421 s = 0 /\ sr_d5433 s = 0).
Proof.
  intros fuel s0 s o r H el HO HP n e day half.
  destruct (the_source _ _ _ _ _ H HO HP) as [q S]. pose proof (the_class _ _ _ S) as I.
  pose proof (sc_rez _ _ _ S) as Z. pose proof (sc_zero _ _ _ S) as W.
  pose proof (class0 q) as C0. rewrite (sc_nm _ _ _ S), (sc_em _ _ _ S) in I, C0. fold el n e in I, C0. rewrite irez_R in I, C0.
  unfold day, half. clear day half. split; [|split].
  - intros D. rewrite I. revert D. dec. intros D.
    destruct (Rle_dec _ _) as [X|X]; [exfalso; revert X; dec; lra|].
    destruct (Rlt_dec _ _) as [Y|Y]; [|exfalso; revert Y; dec; lra].
    destruct (Rlt_dec _ _) as [T|T]; [reflexivity|exfalso; revert T; dec; lra].
  - intros [[D1 D2] D3]. rewrite I. destruct (Rle_dec 0.00826 n); [|contradiction]. destruct (Rle_dec n 0.00924); [|contradiction].
    destruct (Rle_dec 0.5 e); [reflexivity|contradiction].
  - intros D1 D2.
    assert (I0 : (if Rle_dec 0.00826 n then if Rle_dec n 0.00924 then if Rle_dec 0.5 e then 2 else 0 else 0
      else if Rlt_dec 0.0034906585 n then if Rlt_dec n 0.0052359877 then 1 else 0 else 0) = 0).
    { destruct (Rle_dec 0.00826 n), (Rle_dec n 0.00924), (Rle_dec 0.5 e), (Rlt_dec 0.0034906585 n), (Rlt_dec n 0.0052359877); try reflexivity; tauto. }
    specialize (C0 I0). cbv zeta in C0. rewrite I0 in I. split; [exact I|].
    destruct W as (W1 & W2 & W3 & W4 & W5 & W6 & W7 & W8 & W9 & W10 & W11 & W12 & W13 & W14).
    destruct C0 as (X1 & X2 & X3 & X4 & X5 & X6 & X7 & X8 & X9 & X10 & X11 & X12 & X13 & X14).
    repeat split; [rewrite <- W11, <- X11|rewrite <- W12, <- X12|rewrite <- W13, <- X13|rewrite <- W14, <- X14|rewrite <- W1, <- X1
      |rewrite <- W2, <- X2|rewrite <- W3, <- X3|rewrite <- W4, <- X4|rewrite <- W5, <- X5|rewrite <- W6, <- X6|rewrite <- W7, <- X7
      |rewrite <- W8, <- X8|rewrite <- W9, <- X9|rewrite <- W10, <- X10];
     [exact (f_equal z_del1 Z)|exact (f_equal z_del2 Z)|exact (f_equal z_del3 Z)|exact (f_equal z_xfact Z)|exact (f_equal z_d2201 Z)|exact (f_equal z_d2211 Z)
     |exact (f_equal z_d3210 Z)|exact (f_equal z_d3222 Z)|exact (f_equal z_d4410 Z)|exact (f_equal z_d4422 Z)|exact (f_equal z_d5220 Z)|exact (f_equal z_d5232 Z)
     |exact (f_equal z_d5421 Z)|exact (f_equal z_d5433 Z)].
Qed.
Print Assumptions C52_classes.

(** One-day resonance.  f is the acceleration of the mean motion, - 3 n^2 times the derivative of the resonant
    potential by mean anomaly, as a function of the resonance angle M + w + node (node counted from Greenwich), and fl is
    its derivative.  The record keeps the angle at epoch and its drift, and the integrator called at any time t carries
    (angle, mean motion) from epoch to t with second-order steps and returns the resulting mean motion and mean anomaly. *)
Theorem C52_one_day :
  forall (fuel0 : nat) (s0 s : Satrec R) (o : SGP4InitOptions R) r0,
    sgp4init fuel0 s0 o = Done (s, r0) ->
    let el := elements o in
    orbital el -> 225 <= period el ->
    let n := Str3.n el in let a := Str3.a el in let e := Str3.e0 el in let i := Str3.i0 el in
    0.0034906585 < n < 0.0052359877 ->
    exists f fl : R -> R,
      (forall M w node, derivable_pt_lim (fun y => potential one_day inclination_function G_one_day a e i y w node) M
                          (- (f (M + w + node) / (3 * n ^ 2)))) /\
      (forall lam, derivable_pt_lim f lam (fl lam)) /\
      (exists k : Z, sr_xlamo s = Str3.M0 el + Str3.w0 el + Str3.node0 el - sr_gsto s + 2 * PI * IZR k) /\
      sr_xli s = sr_xlamo s /\ sr_xni s = n /\ sr_atime s = 0 /\
      n + sr_xfact s = (sr_mdot s + sr_dmdt s) + (sr_argpdot s + sr_domdt s) + (sr_nodedot s + sr_dnodt s) - 0.00437526908801129966 /\
      forall fuel t c nm em inclm r, dspace fuel (sgp4_dspace_options (set_t t s) c nm em inclm) = Done r ->
        exists y, integrated (fun _ => f) (fun _ => fl) (sr_xfact s) t (sr_xlamo s, n) y /\ sx_nm r = snd y /\
          exists k : Z, sx_mm r + sx_argpm r + sx_nodem r - (sr_gsto s + t * 0.00437526908801129966) = fst y + 2 * PI * IZR k.
Proof.
  intros fuel0 s0 s o r0 H el HO HP n a e i HC.
  destruct (C52_classes _ _ _ _ _ H HO HP) as (C1 & _ & _). specialize (C1 HC).
  destruct (the_source _ _ _ _ _ H HO HP) as [q S]. pose proof (the_class _ _ _ S) as I. rewrite C1 in I.
  pose proof (class1 q (eq_sym I)) as K. cbv zeta in K. destruct K as (K1 & K2 & K3 & K4 & K5 & K6 & K7 & K8).
  assert (Pn : 0 < n) by apply HO.
  assert (A : inv_a q = / a) by (apply (inv_a_T q n); [exact (sc_nm _ _ _ S)|exact Pn]).
  assert (Na : a <> 0) by (unfold a, Str3.a, Str3.two_thirds; pose proof (exp_pos (2 / 3 * ln (Str3.ke / Str3.n el))); unfold Rpower; lra).
  pose proof (sync_T q e i (sc_cos _ _ _ S) (sc_sin _ _ _ S) (sc_emsq _ _ _ S) (rt_dmdt (dsinit_rates q)) (rt_dnodt (dsinit_rates q)) (rt_domdt (dsinit_rates q)) (no_nm q) (theta0 q) a Na) as T.
  pose proof (sync_phase q (rt_dmdt (dsinit_rates q)) (rt_dnodt (dsinit_rates q)) (rt_domdt (dsinit_rates q)) (no_nm q) (theta0 q) (/ a)) as P.
  cbv zeta in T, P. rewrite A in *. destruct T as (T1 & T2 & T3), P as (P1 & P2).
  rewrite <- K1 in T1. rewrite <- K2 in T2. rewrite <- K3 in T3. rewrite <- K4 in P1, K6. rewrite <- K5 in P2. clear K1 K2 K3 K4 K5.
  rewrite (sc_nm _ _ _ S) in T1, T2, T3. fold el n in T1, T2, T3.
  pose proof (sc_rez _ _ _ S) as Z.
  destruct (dsinit_rates_eq q) as (_ & _ & Q3 & Q4 & Q5).
  rewrite <- Q3, <- Q4, <- Q5 in P2.
  assert (Z1 : sr_del1 s = nr_del1 (dsinit q)) by exact (f_equal z_del1 Z).
  assert (Z2 : sr_del2 s = nr_del2 (dsinit q)) by exact (f_equal z_del2 Z).
  assert (Z3 : sr_del3 s = nr_del3 (dsinit q)) by exact (f_equal z_del3 Z).
  assert (Z4 : sr_xlamo s = nr_xlamo (dsinit q)) by exact (f_equal z_xlamo Z).
  assert (Z5 : sr_xfact s = nr_xfact (dsinit q)) by exact (f_equal z_xfact Z).
  assert (Z6 : sr_xli s = nr_xli (dsinit q)) by exact (f_equal z_xli Z).
  assert (Z7 : sr_xni s = nr_xni (dsinit q)) by exact (f_equal z_xni Z).
  assert (Z8 : sr_atime s = nr_atime (dsinit q)) by exact (f_equal z_atime Z).
  assert (Z9 : sr_dmdt s = nr_dmdt (dsinit q)) by exact (f_equal z_dmdt Z).
  assert (Z10 : sr_dnodt s = nr_dnodt (dsinit q)) by exact (f_equal z_dnodt Z).
  assert (Z11 : sr_domdt s = nr_domdt (dsinit q)) by exact (f_equal z_domdt Z).
  rewrite <- Z1 in T1. rewrite <- Z2 in T2. rewrite <- Z3 in T3. rewrite <- Z4 in P1, K6. rewrite <- Z5, <- Z9, <- Z10, <- Z11 in P2.
  rewrite <- Z6 in K6. rewrite <- Z7 in K7. rewrite <- Z8 in K8. clear Z Z1 Z2 Z3 Z4 Z5 Z6 Z7 Z8 Z9 Z10 Z11 Q3 Q4 Q5.
  set (d0 := sgp4_dspace_options s (MkSecular 0 0 0 0 0 0) 0 0 0).
  exists (f_sync d0), (fl_sync d0).
  split. { intros M w node. eapply dl_val; [apply (potential_dM _ _ n); exact Pn|]. rewrite (f_sync_T d0); [reflexivity|exact T1|exact T2|exact T3]. }
  split; [apply f_sync_d|]. split.
  { rewrite P1. destruct (theta0_T _ _ _ S) as [k0 ->]. destruct (rem_turns (no_mo q + no_nodeo q + no_argpo q - (sr_gsto s + 2 * PI * IZR k0))) as [k1 ->].
    exists (k1 - k0)%Z. rewrite (sc_M _ _ _ S), (sc_w _ _ _ S), (sc_node _ _ _ S), minus_IZR. unfold el. ring. }
  split; [exact K6|]. split; [rewrite K7; exact (sc_no _ _ _ S)|]. split; [exact K8|]. split.
  { rewrite P2, (sc_mdot _ _ _ S), (sc_pi _ _ _ S), (sc_no _ _ _ S). fold el n. ring. }
  intros fuel t c nm em inclm r HD. set (d := sgp4_dspace_options (set_t t s) c nm em inclm) in *.
  assert (DD : forall t lam x, dspace_dots d t lam x = MkDots (f_sync d0 lam) (x + so_xfact d) (fl_sync d0 lam * (x + so_xfact d))).
  { intros t' lam x. unfold dspace_dots. change (so_irez d) with (sr_irez s). rewrite C1.
    assert (X : @feq R ROps 1 (L 2 0) = false) by (rops; apply Req_bool_false; lra). rewrite X. cbn [negb].
    rewrite dots_sync. reflexivity. }
  destruct (dspace_T d (fun _ => f_sync d0) (fun _ => fl_sync d0) DD fuel r) as (y & Y1 & Y2 & k & Y3); [change (so_irez d) with (sr_irez s); lra|exact K8|exact HD|].
  change (so_irez d) with (sr_irez s) in Y3. rewrite C1, Req_bool_true in Y3 by reflexivity.
  assert (SN : so_no d = n) by exact (sc_sno _ _ _ S). rewrite SN in Y1.
  exists y. split; [exact Y1|]. split; [exact Y2|]. exists k. cbv zeta in Y3. rewrite Y3.
  change (so_gsto d) with (sr_gsto s). change (so_tc d) with t. ring.
Qed.
Print Assumptions C52_one_day.

(** Half-day resonance, angle M + 2 node.  The potential here also turns with the perigee w = w0 + wdot t.  The
    inclination functions of degree 5 and order 2 are rounded (by less than 2e-6); the others are exact.  The second
    derivative of the mean motion used in each step lacks the factor 2 of three of the terms whose argument holds
    twice the angle: g, the derivative used, is the true one minus those three terms counted once. *)
Theorem C52_half_day :
  forall (fuel0 : nat) (s0 s : Satrec R) (o : SGP4InitOptions R) r0,
    sgp4init fuel0 s0 o = Done (s, r0) ->
    let el := elements o in
    orbital el -> 225 <= period el ->
    let n := Str3.n el in let a := Str3.a el in let e := Str3.e0 el in let i := Str3.i0 el in
    0.00826 <= n <= 0.00924 -> 0.5 <= e ->
    let w t := Str3.w0 el + sr_argpdot s * t in
    exists (F : nat -> nat -> nat -> R -> R) (f fl g : R -> R -> R),
      (forall l m p x, (l, m) <> (5, 2)%nat -> F l m p x = inclination_function l m p x) /\
      (forall p x, Rabs (F 5%nat 2%nat p x - inclination_function 5 2 p x) <= 2e-6) /\
      (forall t M node, derivable_pt_lim (fun y => potential half_day F G_half_day a e i y (w t) node) M
                          (- (f t (M + 2 * node) / (3 * n ^ 2)))) /\
      (forall t lam, derivable_pt_lim (f t) lam (fl t lam)) /\
      (forall t M node, fl t (M + 2 * node) - g t (M + 2 * node) =
         fold_right Rplus 0 (map (fun x => pull F G_half_day n a e i x * cos (angle x M (w t) node))
           [MkTerm H44 2 2; MkTerm H54 2 1; MkTerm H54 3 3])) /\
      (exists k : Z, sr_xlamo s = Str3.M0 el + 2 * (Str3.node0 el - sr_gsto s) + 2 * PI * IZR k) /\
      sr_xli s = sr_xlamo s /\ sr_xni s = n /\ sr_atime s = 0 /\
      n + sr_xfact s = (sr_mdot s + sr_dmdt s) + 2 * (sr_nodedot s + sr_dnodt s - 0.00437526908801129966) /\
      forall fuel t c nm em inclm r, dspace fuel (sgp4_dspace_options (set_t t s) c nm em inclm) = Done r ->
        exists y, integrated f g (sr_xfact s) t (sr_xlamo s, n) y /\ sx_nm r = snd y /\
          exists k : Z, sx_mm r + 2 * (sx_nodem r - (sr_gsto s + t * 0.00437526908801129966)) = fst y + 2 * PI * IZR k.
Proof.
  intros fuel0 s0 s o r0 H el HO HP n a e i HC HE w.
  destruct (C52_classes _ _ _ _ _ H HO HP) as (_ & C2 & _). specialize (C2 (conj HC HE)).
  destruct (the_source _ _ _ _ _ H HO HP) as [q S]. pose proof (the_class _ _ _ S) as I. rewrite C2 in I.
  pose proof (class2 q (eq_sym I)) as K. cbv zeta in K. destruct K as ((K1 & K2 & K3 & K4 & K5 & K6 & K7 & K8 & K9 & K10) & K11 & K12 & K13 & K14 & K15).
  assert (Pn : 0 < n) by apply HO.
  assert (A : inv_a q = / a) by (apply (inv_a_T q n); [exact (sc_nm _ _ _ S)|exact Pn]).
  assert (Na : a <> 0) by (unfold a, Str3.a, Str3.two_thirds; pose proof (exp_pos (2 / 3 * ln (Str3.ke / Str3.n el))); unfold Rpower; lra).
  pose proof (half_T q e i (sc_cos _ _ _ S) (sc_sin _ _ _ S) (sc_e _ _ _ S) (sc_esq _ _ _ S) (rt_dmdt (dsinit_rates q)) (rt_dnodt (dsinit_rates q)) (no_nm q) (theta0 q) a Na) as T.
  pose proof (half_phase q (rt_dmdt (dsinit_rates q)) (rt_dnodt (dsinit_rates q)) (no_nm q) (theta0 q) (/ a)) as P.
  cbv zeta in T, P. rewrite A in *. destruct T as (T1 & T2 & T3 & T4 & T5 & T6 & T7 & T8 & T9 & T10), P as (P1 & P2).
  pose proof (sc_rez _ _ _ S) as Z.
  rewrite <- K1 in T1. rewrite <- K2 in T2. rewrite <- K3 in T3. rewrite <- K4 in T4. rewrite <- K5 in T5. rewrite <- K6 in T6. rewrite <- K7 in T7.
  rewrite <- K8 in T8. rewrite <- K9 in T9. rewrite <- K10 in T10. rewrite <- K11 in P1, K13. rewrite <- K12 in P2. clear K1 K2 K3 K4 K5 K6 K7 K8 K9 K10 K11 K12.
  rewrite (sc_nm _ _ _ S) in T1, T2, T3, T4, T5, T6, T7, T8, T9, T10. fold el n in T1, T2, T3, T4, T5, T6, T7, T8, T9, T10.
  destruct (dsinit_rates_eq q) as (_ & _ & Q3 & Q4 & _). rewrite <- Q3, <- Q4 in P2.
  assert (Z1 : sr_d2201 s = nr_d2201 (dsinit q)) by exact (f_equal z_d2201 Z).
  assert (Z2 : sr_d2211 s = nr_d2211 (dsinit q)) by exact (f_equal z_d2211 Z).
  assert (Z3 : sr_d3210 s = nr_d3210 (dsinit q)) by exact (f_equal z_d3210 Z).
  assert (Z4 : sr_d3222 s = nr_d3222 (dsinit q)) by exact (f_equal z_d3222 Z).
  assert (Z5 : sr_d4410 s = nr_d4410 (dsinit q)) by exact (f_equal z_d4410 Z).
  assert (Z6 : sr_d4422 s = nr_d4422 (dsinit q)) by exact (f_equal z_d4422 Z).
  assert (Z7 : sr_d5220 s = nr_d5220 (dsinit q)) by exact (f_equal z_d5220 Z).
  assert (Z8 : sr_d5232 s = nr_d5232 (dsinit q)) by exact (f_equal z_d5232 Z).
  assert (Z9 : sr_d5421 s = nr_d5421 (dsinit q)) by exact (f_equal z_d5421 Z).
  assert (Z10 : sr_d5433 s = nr_d5433 (dsinit q)) by exact (f_equal z_d5433 Z).
  assert (Z11 : sr_xlamo s = nr_xlamo (dsinit q)) by exact (f_equal z_xlamo Z).
  assert (Z12 : sr_xfact s = nr_xfact (dsinit q)) by exact (f_equal z_xfact Z).
  assert (Z13 : sr_xli s = nr_xli (dsinit q)) by exact (f_equal z_xli Z).
  assert (Z14 : sr_xni s = nr_xni (dsinit q)) by exact (f_equal z_xni Z).
  assert (Z15 : sr_atime s = nr_atime (dsinit q)) by exact (f_equal z_atime Z).
  assert (Z16 : sr_dmdt s = nr_dmdt (dsinit q)) by exact (f_equal z_dmdt Z).
  assert (Z17 : sr_dnodt s = nr_dnodt (dsinit q)) by exact (f_equal z_dnodt Z).
  rewrite <- Z1 in T1. rewrite <- Z2 in T2. rewrite <- Z3 in T3. rewrite <- Z4 in T4. rewrite <- Z5 in T5. rewrite <- Z6 in T6. rewrite <- Z7 in T7.
  rewrite <- Z8 in T8. rewrite <- Z9 in T9. rewrite <- Z10 in T10. rewrite <- Z11 in P1, K13. rewrite <- Z12, <- Z16, <- Z17 in P2.
  rewrite <- Z13 in K13. rewrite <- Z14 in K14. rewrite <- Z15 in K15.
  clear Z Z1 Z2 Z3 Z4 Z5 Z6 Z7 Z8 Z9 Z10 Z11 Z12 Z13 Z14 Z15 Z16 Z17 Q3 Q4.
  set (d0 := sgp4_dspace_options s (MkSecular 0 0 0 0 0 0) 0 0 0).
  assert (W : forall t, w_at d0 t = w t).
  { intros t. unfold w_at, w. change (so_argpo d0) with (sr_argpo s). change (so_argpdot d0) with (sr_argpdot s). rewrite (sc_sargpo _ _ _ S). reflexivity. }
  exists F_code, (f_half d0), (fl_half d0), (fun t lam => fl_half d0 t lam - omitted d0 t lam).
  split; [intros; now apply F_code_same|]. split; [apply F_code_close|].
  split. { intros t M node. eapply dl_val; [apply (potential_dM _ _ n); exact Pn|]. rewrite <- W. rewrite (f_half_T d0); [reflexivity|exact T1|exact T2|exact T3|exact T4|exact T5|exact T6|exact T7|exact T8|exact T9|exact T10]. }
  split; [apply f_half_d|]. split.
  { intros t M node. replace (fl_half d0 t (M + 2 * node) - (fl_half d0 t (M + 2 * node) - omitted d0 t (M + 2 * node))) with (omitted d0 t (M + 2 * node)) by ring.
    unfold omitted. rewrite W. cbv zeta. cbn [map fold_right]. rewrite <- T6, <- T9, <- T10. change (so_d4422 d0) with (sr_d4422 s). change (so_d5421 d0) with (sr_d5421 s).
    change (so_d5433 d0) with (sr_d5433 s). unfold angle, of_anomaly, of_perigee. cbn [t_h t_p t_q h_l h_m h_phase H44 H54].
    cbn [Z.of_nat Pos.of_succ_nat Pos.succ Z.sub Z.mul Pos.mul Z.add Z.opp Z.pos_sub Pos.pred_double Z.double Z.succ_double Z.pred_double Pos.add INR].
    rewrite Rplus_0_r, <- !Rplus_assoc. generalize (w t). intros v.
    repeat match goal with |- _ + _ = _ + _ => apply f_equal2 | |- ?a * cos ?x = ?a * cos ?y => apply f_equal; apply f_equal; dec; field end. }
  split.
  { rewrite P1. destruct (theta0_T _ _ _ S) as [k0 ->].
    match goal with |- context [Rrem ?x (2 * PI)] => destruct (rem_turns x) as [k1 ->] end.
    exists (k1 - 2 * k0)%Z. rewrite (sc_M _ _ _ S), (sc_node _ _ _ S), minus_IZR, mult_IZR. unfold el. ring. }
  split; [exact K13|]. split; [rewrite K14; exact (sc_no _ _ _ S)|]. split; [exact K15|]. split.
  { rewrite P2, (sc_mdot _ _ _ S), (sc_ndot _ _ _ S), (sc_no _ _ _ S). fold el n. ring. }
  intros fuel t c nm em inclm r HD. set (d := sgp4_dspace_options (set_t t s) c nm em inclm) in *.
  set (g := fun t lam => fl_half d0 t lam - omitted d0 t lam).
  assert (DD : forall t lam x, dspace_dots d t lam x = MkDots (f_half d0 t lam) (x + so_xfact d) (g t lam * (x + so_xfact d))).
  { intros t' lam x. unfold dspace_dots. change (so_irez d) with (sr_irez s). rewrite C2.
    assert (X : @feq R ROps 2 (L 2 0) = true) by (rops; apply Req_bool_true; lra). rewrite X. cbn [negb].
    rewrite dots_half. reflexivity. }
  destruct (dspace_T d (f_half d0) g DD fuel r) as (y & Y1 & Y2 & k & Y3); [change (so_irez d) with (sr_irez s); lra|exact K15|exact HD|].
  change (so_irez d) with (sr_irez s) in Y3. rewrite C2, Req_bool_false in Y3 by lra.
  assert (SN : so_no d = n) by exact (sc_sno _ _ _ S). rewrite SN in Y1.
  exists y. split; [exact Y1|]. split; [exact Y2|]. exists (2 * k)%Z. cbv zeta in Y3. rewrite Y3, mult_IZR.
  change (so_gsto d) with (sr_gsto s). change (so_tc d) with t. ring.
Qed.
Print Assumptions C52_half_day.

(** Non-vacuity: semi-major axis 6.76 earth radii (period about 1485 minutes), any eccentricity up to 0.8, is one-day
    resonant; 4.1616 earth radii with eccentricity 0.5 to 0.8 is half-day resonant; both initialise, at any inclination,
    epoch and angles. *)
Example C52_example_one_day : forall ep e i w M nd, 0 <= e <= 4 / 5 ->
  let o := rso 2.6 ep e i w M nd in
  (exists s r, sgp4init 0 satrec_zero o = Done (s, r)) /\ orbital (elements o) /\ 225 <= period (elements o) /\
  0.0034906585 < Str3.n (elements o) < 0.0052359877.
Proof.
  intros ep e i w M nd He o. split; [apply (sgp4init_total zero_sane_R)|].
  assert (Hc : 2 <= 2.6 <= 3) by (dec; lra).
  destruct (rso_orbital 2.6 ep e i w M nd Hc He) as [A B]. split; [exact A|]. split; [exact B|].
  pose proof (rso_n_b 2.6 ep e i w M nd Hc He) as N. fold o in N. assert (KE : Str3.ke = 7436685316871385 / 100000000000000000) by reflexivity.
  rewrite KE in N. set (n := Str3.n (elements o)) in *. clearbody n. revert N. dec. lra.
Qed.
Example C52_example_half_day : forall ep e i w M nd, 1 / 2 <= e <= 4 / 5 ->
  let o := rso 2.04 ep e i w M nd in
  (exists s r, sgp4init 0 satrec_zero o = Done (s, r)) /\ orbital (elements o) /\ 225 <= period (elements o) /\
  0.00826 <= Str3.n (elements o) <= 0.00924 /\ 0.5 <= Str3.e0 (elements o).
Proof.
  intros ep e i w M nd He o. split; [apply (sgp4init_total zero_sane_R)|].
  assert (Hc : 2 <= 2.04 <= 3) by (dec; lra). assert (He' : 0 <= e <= 4 / 5) by lra.
  destruct (rso_orbital 2.04 ep e i w M nd Hc He') as [A B]. split; [exact A|]. split; [exact B|].
  pose proof (rso_n_b 2.04 ep e i w M nd Hc He') as N. fold o in N. assert (KE : Str3.ke = 7436685316871385 / 100000000000000000) by reflexivity.
  rewrite KE in N. set (n := Str3.n (elements o)) in *. clearbody n. split; [revert N; dec; lra|].
  change (Str3.e0 (elements o)) with e. dec. lra.
Qed.
