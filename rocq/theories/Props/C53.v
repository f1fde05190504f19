(** * C53: symmetries of propagation *)
From Coq Require Import ZArith List Bool Reals Lra Lia.
From Flocq Require Import Core.Raux.
From Verif.Model Require Import Float Str Satrec Constants Vec3 Dscom Dpper Dsinit Sgp4 Sgp4init.
From Verif.Inst Require Import RInst RTac.
From Verif.Proofs Require Import InitElems DeepInit Str3Init ThirdBodyFacts SymmetryFacts.
From Verif.Spec Require Import KeplerSpec Sgp4Spec PeriodicSpec Str3Api Symmetry Outcome.
From Verif.Spec Require Str3.
From Verif.Golden Require RDeep.
From Verif.Props Require C50 C51.
Local Open Scope R_scope.

(** the corrected semi-latus rectum is exactly 0 (the code then divides by it) *)
Definition degenerate (o : SGP4InitOptions R) (t : R) : Prop :=
  Str3.pL (elements o) (Rle_bool 220 (Str3.perigee_height (elements o))) t 0 (in_xinclo o) = 0.

Lemma near_outcome0 fuel (s0 s : Satrec R) o r calls s1 fuel' t s' res :
  sgp4init fuel s0 o = Done (s, r) -> after_calls s calls = Done s1 -> sgp4 fuel' s1 t = Done (s', res) ->
  orbital (elements o) -> period (elements o) < 225 ->
  outcome_of (elements o) (Rle_bool 220 (Str3.perigee_height (elements o))) t 0 (in_xinclo o) True res.
Proof.
  intros H A P HO HP. destruct (C50.C50_near_earth_state _ _ _ _ _ _ _ _ _ _ _ H A P HO HP) as (X & Y & Z).
  split; [exact X|]. split; [tauto|]. split; [intros Q _; exact (Y Q)|intros Q _; exact (Z Q)].
Qed.

Lemma moved_elements o dM dw dn o' : moved o dM dw dn o' ->
  elements o' = Str3.MkElements (in_xno o) (in_xecco o) (in_xinclo o) (in_xmo o + dM) (in_xargpo o + dw) (in_xnodeo o + dn) (in_xbstar o).
Proof. intros (A & B & C & D & E & F & G). unfold elements. now rewrite A, B, C, D, E, F, G. Qed.

(** Near the Earth.  Two records are initialised from the same shape, inclination and drag term; the node of the
    second is [d] further east, and its mean anomaly and perigee may be given in other turns.  Names, epochs and
    modes may differ, and so may the calls made in between.  At the same time since epoch the second satellite's
    position and velocity are the first's turned by [d] about the Earth's axis, and it fails exactly when the
    first does, with the same error. *)
Theorem C53_near_earth :
  forall fuel (s0 s : Satrec R) o r calls s1 fuel1 t s2 res
         fuel' (s0' s' : Satrec R) o' r' calls' s1' fuel1' s2' res' (a b : Z) (d : R),
    sgp4init fuel s0 o = Done (s, r) -> after_calls s calls = Done s1 -> sgp4 fuel1 s1 t = Done (s2, res) ->
    sgp4init fuel' s0' o' = Done (s', r') -> after_calls s' calls' = Done s1' -> sgp4 fuel1' s1' t = Done (s2', res') ->
    moved o (turns a) (turns b) d o' ->
    orbital (elements o) -> period (elements o) < 225 -> ~ degenerate o t ->
    res' = turned_result d res.
Proof.
  intros fuel s0 s o r calls s1 fuel1 t s2 res fuel' s0' s' o' r' calls' s1' fuel1' s2' res' a b d H A P H' A' P' MV HO HP HD.
  assert (EL : elements o' = el_moved (elements o) a b d) by (rewrite (moved_elements _ _ _ _ _ MV); reflexivity).
  assert (I : in_xinclo o' = in_xinclo o) by apply MV.
  pose proof (near_outcome0 _ _ _ _ _ _ _ _ _ _ _ H A P HO HP) as Q.
  pose proof (near_outcome0 _ _ _ _ _ _ _ _ _ _ _ H' A' P') as Q'. rewrite EL, I in Q'.
  specialize (Q' HO HP). change (Str3.perigee_height (el_moved (elements o) a b d)) with (Str3.perigee_height (elements o)) in Q'.
  set (full := Rle_bool _ _) in *.
  refine (two_outcome (elements o) (el_moved (elements o) a b d) full t t 0 (in_xinclo o) d (a + b) _ _ _ _ _ _ True True res res' _ _ Q Q' (fun _ _ => HD)).
  - apply mv_at.
  - apply mv_e.
  - rewrite mv_w. apply cos_turns.
  - rewrite mv_w. apply sin_turns.
  - apply mv_node.
  - apply mv_L.
  - tauto.
  - tauto.
Qed.
Print Assumptions C53_near_earth.

Lemma turned_turns c v : turned (turns c) v = v.
Proof.
  unfold turned. rewrite <- (Rplus_0_l (turns c)), sin_turns, cos_turns, sin_0, cos_0. destruct v as [x y z]. cbn. f_equal; ring.
Qed.
Lemma turned_result_turns c res : turned_result (turns c) res = res.
Proof. destruct res as [[p v]|]; [|reflexivity]. cbn. now rewrite !turned_turns. Qed.

Lemma dscom_turns e ep w tc i nd np b c :
  dscom (MkDscomOptions e ep (w + turns b) tc i (nd + turns c) np) = dscom (MkDscomOptions e ep w tc i nd np).
Proof.
  unfold dscom. cbn [co_argpp co_nodep co_epoch co_ep co_tc co_inclp co_np].
  change (dscom_lunar (MkDscomOptions e ep (w + turns b) tc i (nd + turns c) np)) with (dscom_lunar (MkDscomOptions e ep w tc i nd np)).
  rops. rewrite !sin_turns, !cos_turns. reflexivity.
Qed.

Definition degenerate_deep (s : Satrec R) (o : SGP4InitOptions R) (t : R) : Prop :=
  Str3.pL (elements o) false t (sr_dedt s * t) (Rabs (in_xinclo o + d_incl s t)) = 0.

Lemma deep_fields_turns fuel (s0 s : Satrec R) o r fuel' (s0' s' : Satrec R) o' r' (a b c : Z) :
  sgp4init fuel s0 o = Done (s, r) -> sgp4init fuel' s0' o' = Done (s', r') ->
  moved o (turns a) (turns b) (turns c) o' -> in_epoch o' = in_epoch o ->
  orbital (elements o) -> 225 <= period (elements o) ->
  third_of s' = third_of s /\ sr_dedt s' = sr_dedt s.
Proof.
  intros H H' MV EP HO HP.
  assert (EL : elements o' = el_moved (elements o) a b (turns c)) by (rewrite (moved_elements _ _ _ _ _ MV); reflexivity).
  assert (HO' : orbital (elements o')) by (rewrite EL; exact HO).
  assert (HP' : 225 <= period (elements o')) by (rewrite EL; exact HP).
  destruct (sgp4init_coefs _ _ _ _ _ H HO) as (_ & _ & _ & _ & M).
  change (2 * PI / Str3.n (elements o)) with (period (elements o)) in M. rewrite Rle_bool_true in M by exact HP.
  destruct (sgp4init_coefs _ _ _ _ _ H' HO') as (_ & _ & _ & _ & M').
  change (2 * PI / Str3.n (elements o')) with (period (elements o')) in M'. rewrite Rle_bool_true in M' by exact HP'.
  destruct (sgp4init_deep_fields _ _ _ _ _ H M) as (u & _ & T & Z).
  destruct (sgp4init_deep_fields _ _ _ _ _ H' M') as (u' & _ & T' & Z').
  assert (NN : brouwer_no o' = brouwer_no o).
  { transitivity (Str3.n (elements o')); [apply initl_no_T, HO'|]. rewrite EL. symmetry. apply initl_no_T, HO. }
  assert (D : deep_dscom o' = deep_dscom o).
  { unfold deep_dscom. destruct MV as (V1 & V2 & V3 & V4 & V5 & V6 & V7). rewrite V2, V3, V6, V7, EP, NN. apply dscom_turns. }
  rewrite D in T', Z'. split; [congruence|].
  set (q := deep_options o (deep_dscom o) (drift_of s) u) in *.
  set (q' := deep_options o' (deep_dscom o) (drift_of s') u') in *.
  destruct (dsinit_rates_eq q) as (Q1 & _). destruct (dsinit_rates_eq q') as (Q1' & _).
  transitivity (rt_dedt (dsinit_rates q')); [rewrite <- Q1'; exact (f_equal z_dedt Z')|].
  transitivity (rt_dedt (dsinit_rates q)); [reflexivity|rewrite <- Q1; symmetry; exact (f_equal z_dedt Z)].
Qed.

Lemma d_incl_eq (s s' : Satrec R) t : third_of s' = third_of s -> d_incl s' t = d_incl s t.
Proof.
  intros T. pose proof (f_equal k_si2 T) as T1. pose proof (f_equal k_si3 T) as T2. pose proof (f_equal k_xi2 T) as T3.
  pose proof (f_equal k_xi3 T) as T4. pose proof (f_equal k_pinco T) as T5. pose proof (f_equal k_zmos T) as T6. pose proof (f_equal k_zmol T) as T7.
  cbn [third_of k_si2 k_si3 k_xi2 k_xi3 k_pinco k_zmos k_zmol] in *.
  unfold d_incl, sun_at, moon_at. now rewrite T1, T2, T3, T4, T5, T6, T7.
Qed.
Lemma d_ecc_eq (s s' : Satrec R) t : third_of s' = third_of s -> d_ecc s' t = d_ecc s t.
Proof.
  intros T. pose proof (f_equal k_se2 T) as T1. pose proof (f_equal k_se3 T) as T2. pose proof (f_equal k_ee2 T) as T3.
  pose proof (f_equal k_e3 T) as T4. pose proof (f_equal k_peo T) as T5. pose proof (f_equal k_zmos T) as T6. pose proof (f_equal k_zmol T) as T7.
  cbn [third_of k_se2 k_se3 k_ee2 k_e3 k_peo k_zmos k_zmol] in *.
  unfold d_ecc, sun_at, moon_at. now rewrite T1, T2, T3, T4, T5, T6, T7.
Qed.

(** In deep space the Moon and the Sun break the rotational symmetry, but giving an angle in another turn still
    changes nothing (same epoch; names and modes may differ). *)
Theorem C53_deep_space :
  forall fuel (s0 s : Satrec R) o r calls s1 fuel1 t s2 res
         fuel' (s0' s' : Satrec R) o' r' calls' s1' fuel1' s2' res' (a b c : Z),
    sgp4init fuel s0 o = Done (s, r) -> after_calls s calls = Done s1 -> sgp4 fuel1 s1 t = Done (s2, res) ->
    sgp4init fuel' s0' o' = Done (s', r') -> after_calls s' calls' = Done s1' -> sgp4 fuel1' s1' t = Done (s2', res') ->
    moved o (turns a) (turns b) (turns c) o' -> in_epoch o' = in_epoch o ->
    orbital (elements o) -> 225 <= period (elements o) -> ~ degenerate_deep s o t ->
    res' = res.
Proof.
  intros fuel s0 s o r calls s1 fuel1 t s2 res fuel' s0' s' o' r' calls' s1' fuel1' s2' res' a b c H A P H' A' P' MV EP HO HP HD.
  destruct (deep_fields_turns _ _ _ _ _ _ _ _ _ _ _ _ _ H H' MV EP HO HP) as [T3 TE].
  assert (EL : elements o' = el_moved (elements o) a b (turns c)) by (rewrite (moved_elements _ _ _ _ _ MV); reflexivity).
  assert (I : in_xinclo o' = in_xinclo o) by apply MV.
  destruct (C50.C50_deep_space_state _ _ _ _ _ _ _ _ _ _ _ H A P HO HP) as (X1 & X2 & X3 & X4).
  pose proof (C50.C50_deep_space_state _ _ _ _ _ _ _ _ _ _ _ H' A' P') as Q. cbv zeta in Q. rewrite EL in Q.
  destruct (Q HO HP) as (Y1 & Y2 & Y3 & Y4). clear Q.
  rewrite TE in Y1, Y2, Y3, Y4. rewrite (d_ecc_eq s s' t T3) in Y2, Y3, Y4. rewrite (d_incl_eq s s' t T3) in Y3, Y4.
  change (Str3.i0 (el_moved (elements o) a b (turns c))) with (in_xinclo o) in Y1, Y2, Y3, Y4.
  change (Str3.i0 (elements o)) with (in_xinclo o) in X1, X2, X3, X4.
  unfold degenerate_deep in HD. set (de := sr_dedt s * t) in *. set (i := Rabs (in_xinclo o + d_incl s t)) in *.
  assert (EE : Str3.e (el_moved (elements o) a b (turns c)) false t de = Str3.e (elements o) false t de).
  { unfold Str3.e. now rewrite mv_e. }
  rewrite <- (turned_result_turns c res).
  set (ok := 0 <= Str3.e (elements o) false t de + d_ecc s t <= 1).
  refine (two_outcome (elements o) (el_moved (elements o) a b (turns c)) false t t de i (turns c) (a + b) _ _ _ _ _ _ ok ok res res' _ _ _ _ (fun _ _ => HD)).
  - apply mv_at.
  - apply mv_e.
  - rewrite mv_w. apply cos_turns.
  - rewrite mv_w. apply sin_turns.
  - apply mv_node.
  - apply mv_L.
  - tauto.
  - unfold ok. destruct (Rle_dec 0 (Str3.e (elements o) false t de + d_ecc s t)); destruct (Rle_dec (Str3.e (elements o) false t de + d_ecc s t) 1); tauto.
  - exact (conj X1 (conj X2 (conj X3 X4))).
  - rewrite EE in Y2, Y3, Y4. exact (conj Y1 (conj Y2 (conj Y3 Y4))).
Qed.
Print Assumptions C53_deep_space.

(** Without drag near the Earth, time is a flow: advance mean anomaly, perigee and node by their secular rates for
    [tau] minutes and propagate by [t]: the result is that of the original elements at tau + t. *)
Theorem C53_flow :
  forall fuel (s0 s : Satrec R) o r calls s1 fuel1 tau t s2 res
         fuel' (s0' s' : Satrec R) o' r' calls' s1' fuel1' s2' res',
    sgp4init fuel s0 o = Done (s, r) -> after_calls s calls = Done s1 -> sgp4 fuel1 s1 (tau + t) = Done (s2, res) ->
    sgp4init fuel' s0' o' = Done (s', r') -> after_calls s' calls' = Done s1' -> sgp4 fuel1' s1' t = Done (s2', res') ->
    moved o (Str3.Mdot (elements o) * tau) (Str3.wdot (elements o) * tau) (Str3.nodedot (elements o) * tau) o' ->
    in_xbstar o = 0 ->
    orbital (elements o) -> period (elements o) < 225 -> ~ degenerate o (tau + t) ->
    res' = res.
Proof.
  intros fuel s0 s o r calls s1 fuel1 tau t s2 res fuel' s0' s' o' r' calls' s1' fuel1' s2' res' H A P H' A' P' MV HB HO HP HD.
  assert (EL : elements o' = el_later (elements o) tau) by (rewrite (moved_elements _ _ _ _ _ MV); reflexivity).
  assert (I : in_xinclo o' = in_xinclo o) by apply MV.
  pose proof (near_outcome0 _ _ _ _ _ _ _ _ _ _ _ H A P HO HP) as Q.
  pose proof (near_outcome0 _ _ _ _ _ _ _ _ _ _ _ H' A' P') as Q'. rewrite EL, I in Q'.
  specialize (Q' HO HP). change (Str3.perigee_height (el_later (elements o) tau)) with (Str3.perigee_height (elements o)) in Q'.
  set (full := Rle_bool _ _) in *.
  assert (B : Str3.Bstar (elements o) = 0) by exact HB.
  assert (B' : Str3.Bstar (el_later (elements o) tau) = 0) by exact HB.
  set (el := elements o) in *.
  assert (WW : Str3.w (el_later el tau) full t = Str3.w el full (tau + t)).
  { rewrite (nb_w _ B'), (nb_w _ B). change (Str3.wdot (el_later el tau)) with (Str3.wdot el). cbn [el_later Str3.w0]. ring. }
  assert (MM : Str3.Mp (el_later el tau) full t = Str3.Mp el full (tau + t)).
  { rewrite (nb_Mp _ B'), (nb_Mp _ B). change (Str3.Mdot (el_later el tau)) with (Str3.Mdot el). cbn [el_later Str3.M0]. ring. }
  assert (NN : Str3.node (el_later el tau) t = Str3.node el (tau + t)).
  { rewrite (nb_node _ B'), (nb_node _ B). change (Str3.nodedot (el_later el tau)) with (Str3.nodedot el). cbn [el_later Str3.node0]. ring. }
  rewrite <- (turned_result_turns 0 res).
  refine (two_outcome el (el_later el tau) full (tau + t) t 0 (in_xinclo o) (turns 0) 0 _ _ _ _ _ _ True True res res' _ _ Q Q' (fun _ _ => HD)).
  - rewrite (nb_at _ B'), (nb_at _ B). reflexivity.
  - rewrite (nb_e _ B'), (nb_e _ B). reflexivity.
  - now rewrite WW.
  - now rewrite WW.
  - rewrite NN. unfold turns. ring.
  - rewrite (nb_L _ B'), (nb_L _ B), WW, MM, NN. unfold turns. ring.
  - tauto.
  - tauto.
Qed.
Print Assumptions C53_flow.

(** Non-vacuity.  Near the Earth: two drag-free circular satellites whose nodes differ by [d]; both are
    initialised, both propagate successfully to every time, so the theorem's turn applies to real states. *)
Lemma co_degenerate w M nd t : ~ degenerate (C50.co w M nd) t.
Proof.
  unfold degenerate. change (in_xinclo (C50.co w M nd)) with 0.
  pose proof (C50.co_pL w M nd (Rle_bool 220 (Str3.perigee_height (elements (C50.co w M nd)))) t). lra.
Qed.
Example C53_near_example :
  forall w M nd d t, exists s r s' r' s1 s1' v v',
    sgp4init 0 satrec_zero (C50.co w M nd) = Done (s, r) /\ sgp4 0 s t = Done (s1, Ok v) /\
    sgp4init 0 satrec_zero (C50.co (w + turns 3) (M + turns (-2)) (nd + d)) = Done (s', r') /\ sgp4 0 s' t = Done (s1', Ok v') /\
    g4_position v' = turned d (g4_position v).
Proof.
  intros w M nd d t. destruct (C50.C50_example w M nd t) as (s & r & H & s1 & v & P).
  destruct (C50.C50_example (w + turns 3) (M + turns (-2)) (nd + d) t) as (s' & r' & H' & s1' & v' & P').
  exists s, r, s', r', s1, s1', v, v'. destruct (C50.co_orbital w M nd) as [HO HP].
  pose proof (C53_near_earth _ _ _ _ _ nil s _ _ _ _ _ _ _ _ _ nil s' _ _ _ (-2)%Z 3%Z d H eq_refl P H' eq_refl P'
    ltac:(unfold moved; cbn; repeat split; reflexivity) HO HP (co_degenerate _ _ _ _)) as E.
  destruct v as [p q], v' as [p' q']. cbn [turned_result] in E. injection E as -> ->. repeat split; assumption.
Qed.
Example C53_flow_example :
  forall w M nd tau t, exists M' w' nd' s r s' r' s1 s1' v,
    sgp4init 0 satrec_zero (C50.co w M nd) = Done (s, r) /\ sgp4 0 s (tau + t) = Done (s1, Ok v) /\
    sgp4init 0 satrec_zero (C50.co w' M' nd') = Done (s', r') /\ sgp4 0 s' t = Done (s1', Ok v).
Proof.
  intros w M nd tau t. destruct (C50.C50_example w M nd (tau + t)) as (s & r & H & s1 & v & P).
  set (el := elements (C50.co w M nd)).
  destruct (C50.C50_example (w + Str3.wdot el * tau) (M + Str3.Mdot el * tau) (nd + Str3.nodedot el * tau) t) as (s' & r' & H' & s1' & v' & P').
  exists (M + Str3.Mdot el * tau), (w + Str3.wdot el * tau), (nd + Str3.nodedot el * tau), s, r, s', r', s1, s1', v.
  destruct (C50.co_orbital w M nd) as [HO HP].
  pose proof (C53_flow _ _ _ _ _ nil s _ _ _ _ _ _ _ _ _ _ nil s' _ _ _ H eq_refl P H' eq_refl P'
    ltac:(unfold moved; cbn; repeat split; reflexivity) eq_refl HO HP (co_degenerate _ _ _ _)) as E.
  injection E as ->. repeat split; assumption.
Qed.
Example C53_deep_example :
  forall ep i w M nd t, exists s r s' r' s1 s1' v,
    sgp4init 0 satrec_zero (RDeep.dso ep 0 i w M nd) = Done (s, r) /\ sgp4 0 s t = Done (s1, Ok v) /\
    sgp4init 0 satrec_zero (RDeep.dso ep 0 i (w + turns 1) (M + turns (-4)) (nd + turns 2)) = Done (s', r') /\ sgp4 0 s' t = Done (s1', Ok v).
Proof.
  intros ep i w M nd t. destruct (C50.C50_deep_example ep i w M nd t) as (s & r & H & HP & s1 & v & P).
  destruct (C50.C50_deep_example ep i (w + turns 1) (M + turns (-4)) (nd + turns 2) t) as (s' & r' & H' & _ & s1' & v' & P').
  exists s, r, s', r', s1, s1', v. destruct (RDeep.dso_orbital ep 0 i w M nd RDeep.zle) as [HO _].
  assert (D : ~ degenerate_deep s (RDeep.dso ep 0 i w M nd) t).
  { unfold degenerate_deep. destruct (C51.C51_lagrange_equations _ _ _ _ _ H HO HP) as (_ & _ & _ & _ & _ & E0 & _).
    destruct (E0 eq_refl) as (E1 & _). rewrite E1, Rmult_0_l.
    pose proof (RDeep.ci_pL ep i w M nd t (Rabs (in_xinclo (RDeep.dso ep 0 i w M nd) + d_incl s t))). lra. }
  pose proof (C53_deep_space _ _ _ _ _ nil s _ _ _ _ _ _ _ _ _ nil s' _ _ _ (-4)%Z 1%Z 2%Z H eq_refl P H' eq_refl P'
    ltac:(unfold moved; cbn; repeat split; reflexivity) eq_refl HO HP D) as E.
  injection E as ->. repeat split; assumption.
Qed.
