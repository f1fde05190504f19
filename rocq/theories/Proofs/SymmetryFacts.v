(** * Two instants of the theory that differ by whole turns and a rotation about the axis *)
From Coq Require Import ZArith Reals Lra Lia.
From Verif.Model Require Import Float Satrec Vec3 Sgp4 Sgp4init.
From Verif.Inst Require Import RInst RTac.
From Verif.Spec Require Import KeplerSpec Str3Api Vectors3 Symmetry Outcome.
From Verif.Spec Require Str3.
Local Open Scope R_scope.

Lemma sin_turns x k : sin (x + turns k) = sin x.
Proof.
  unfold turns. destruct (Z_le_gt_dec 0 k) as [H|H].
  - rewrite <- (Z2Nat.id k H), <- INR_IZR_INZ. rewrite <- (sin_period x (Z.to_nat k)). f_equal. ring.
  - rewrite <- (sin_period (x + 2 * PI * IZR k) (Z.to_nat (- k))). f_equal. rewrite INR_IZR_INZ, Z2Nat.id by lia.
    rewrite opp_IZR. ring.
Qed.
Lemma cos_turns x k : cos (x + turns k) = cos x.
Proof.
  unfold turns. destruct (Z_le_gt_dec 0 k) as [H|H].
  - rewrite <- (Z2Nat.id k H), <- INR_IZR_INZ. rewrite <- (cos_period x (Z.to_nat k)). f_equal. ring.
  - rewrite <- (cos_period (x + 2 * PI * IZR k) (Z.to_nat (- k))). f_equal. rewrite INR_IZR_INZ, Z2Nat.id by lia.
    rewrite opp_IZR. ring.
Qed.

(** ** The Kepler solver started a few turns further *)
Section Kepler.
Variables ax ay U : R.
Variable k : Z.
Lemma guess_turns j : guess ax ay (U + turns k) j = guess ax ay U j + turns k.
Proof.
  induction j as [|j IH]; cbn [guess]; [reflexivity|]. rewrite IH. rops. rewrite Rplus_assoc, (Rplus_comm (turns k)), <- Rplus_assoc.
  do 2 f_equal. unfold newton. rops. rewrite sin_turns, cos_turns. f_equal. f_equal. ring.
Qed.
Lemma corr_turns j : corr ax ay (U + turns k) j = corr ax ay U j.
Proof.
  unfold corr. rewrite guess_turns. f_equal. unfold newton. rops. rewrite sin_turns, cos_turns. f_equal. ring.
Qed.
Lemma kepler_angle_turns E E' : kepler_angle ax ay U E -> kepler_angle ax ay (U + turns k) E' -> E' = E + turns k.
Proof.
  intros (j & J1 & -> & J2 & J3) (j' & K1 & -> & K2 & K3). rewrite guess_turns.
  assert (j' = j); [|now subst].
  setoid_rewrite corr_turns in K2. rewrite corr_turns in K3.
  destruct (Nat.lt_trichotomy j' j) as [Q|[Q|Q]]; [|exact Q|].
  - specialize (J2 _ Q). destruct K3 as [K3|K3]; [lia|lra].
  - specialize (K2 _ Q). destruct J3 as [J3|J3]; [lia|lra].
Qed.
End Kepler.

Lemma kepler_angle_turns_eq ax ay U k E E' U' :
  U' = U + turns k -> kepler_angle ax ay U E -> kepler_angle ax ay U' E' -> E' = E + turns k.
Proof. intros ->. apply kepler_angle_turns. Qed.

(** angles with the same sine and cosine *)
Lemma sin_2_eq u v : sin u = sin v -> cos u = cos v -> sin (2 * u) = sin (2 * v) /\ cos (2 * u) = cos (2 * v).
Proof. intros S C. rewrite !sin_2a, !cos_2a, S, C. split; reflexivity. Qed.

(** ** Two instants *)
Section Two.
Variables (el el' : Str3.Elements) (full : bool) (t t' de i d : R) (k : Z).
Hypothesis HA : Str3.at_ el' full t' = Str3.at_ el full t.
Hypothesis HEu : Str3.e_unclamped el' full t' de = Str3.e_unclamped el full t de.
Hypothesis HCW : cos (Str3.w el' full t') = cos (Str3.w el full t).
Hypothesis HSW : sin (Str3.w el' full t') = sin (Str3.w el full t).
Hypothesis HN : Str3.node el' t' = Str3.node el t + d.
Hypothesis HL : Str3.Lt el' full t' - Str3.node el' t' = Str3.Lt el full t - Str3.node el t + turns k.

Lemma HE : Str3.e el' full t' de = Str3.e el full t de.
Proof. unfold Str3.e. now rewrite HEu. Qed.
Lemma two_ax : Str3.axN el' full t' de = Str3.axN el full t de.
Proof. unfold Str3.axN. now rewrite HE, HCW. Qed.
Lemma two_ay : Str3.ayN el' full t' de i = Str3.ayN el full t de i.
Proof. unfold Str3.ayN. now rewrite HE, HSW, HA. Qed.
Lemma two_U : Str3.U el' full t' de i = Str3.U el full t de i + turns k.
Proof.
  unfold Str3.U. replace (Str3.L_L el' full t' de i) with (Str3.L_L el full t de i) by (unfold Str3.L_L; now rewrite HE, HCW, HA).
  lra.
Qed.
Lemma two_eL2 : Str3.eL2 el' full t' de i = Str3.eL2 el full t de i.
Proof. unfold Str3.eL2. now rewrite two_ax, two_ay. Qed.
Lemma two_pL : Str3.pL el' full t' de i = Str3.pL el full t de i.
Proof. unfold Str3.pL. now rewrite two_eL2, HA. Qed.

Section Angles.
Variables E u u' : R.
Notation E' := (E + turns k).
Lemma two_ecosE : Str3.e_cosE el' full t' de i E' = Str3.e_cosE el full t de i E.
Proof. unfold Str3.e_cosE. now rewrite sin_turns, cos_turns, two_ax, two_ay. Qed.
Lemma two_esinE : Str3.e_sinE el' full t' de i E' = Str3.e_sinE el full t de i E.
Proof. unfold Str3.e_sinE. now rewrite sin_turns, cos_turns, two_ax, two_ay. Qed.
Lemma two_r : Str3.r el' full t' de i E' = Str3.r el full t de i E.
Proof. unfold Str3.r. now rewrite HA, two_ecosE. Qed.
Lemma two_sin_u : Str3.sin_u el' full t' de i E' = Str3.sin_u el full t de i E.
Proof. unfold Str3.sin_u. now rewrite HA, two_r, two_esinE, two_ax, two_ay, two_eL2, sin_turns. Qed.
Lemma two_cos_u : Str3.cos_u el' full t' de i E' = Str3.cos_u el full t de i E.
Proof. unfold Str3.cos_u. now rewrite HA, two_r, two_esinE, two_ax, two_ay, two_eL2, cos_turns. Qed.
Lemma two_rdot : Str3.rdot el' full t' de i E' = Str3.rdot el full t de i E.
Proof. unfold Str3.rdot. now rewrite HA, two_r, two_esinE. Qed.
Lemma two_rfdot : Str3.rfdot el' full t' de i E' = Str3.rfdot el full t de i E.
Proof. unfold Str3.rfdot. now rewrite two_pL, two_r. Qed.
Lemma two_nt : Str3.nt el' full t' = Str3.nt el full t.
Proof. unfold Str3.nt. now rewrite HA. Qed.
Hypothesis SU : sin u' = sin u.
Hypothesis CU : cos u' = cos u.
Lemma two_rk : Str3.rk el' full t' de i E' u' = Str3.rk el full t de i E u.
Proof. destruct (sin_2_eq _ _ SU CU) as [S2 C2]. unfold Str3.rk. now rewrite C2, two_r, two_pL, two_eL2. Qed.
Lemma two_rdotk : Str3.rdotk el' full t' de i E' u' = Str3.rdotk el full t de i E u.
Proof. destruct (sin_2_eq _ _ SU CU) as [S2 C2]. unfold Str3.rdotk. now rewrite S2, two_rdot, two_pL, two_nt. Qed.
Lemma two_rfdotk : Str3.rfdotk el' full t' de i E' u' = Str3.rfdotk el full t de i E u.
Proof. destruct (sin_2_eq _ _ SU CU) as [S2 C2]. unfold Str3.rfdotk. now rewrite C2, two_rfdot, two_pL, two_nt. Qed.
Lemma two_ik : Str3.ik el' full t' de i u' = Str3.ik el full t de i u.
Proof. destruct (sin_2_eq _ _ SU CU) as [S2 C2]. unfold Str3.ik. now rewrite C2, two_pL. Qed.
Lemma two_nodek : Str3.nodek el' full t' de i u' = Str3.nodek el full t de i u + d.
Proof. destruct (sin_2_eq _ _ SU CU) as [S2 C2]. unfold Str3.nodek. rewrite S2, two_pL, HN. ring. Qed.
Lemma two_uk : sin (Str3.uk el' full t' de i u') = sin (Str3.uk el full t de i u) /\
               cos (Str3.uk el' full t' de i u') = cos (Str3.uk el full t de i u).
Proof.
  destruct (sin_2_eq _ _ SU CU) as [S2 C2]. unfold Str3.uk. rewrite S2, two_pL, !sin_minus, !cos_minus, SU, CU. split; reflexivity.
Qed.
Lemma turned_plus x y : turned d (plus x y) = plus (turned d x) (turned d y).
Proof. unfold turned, plus. cbn. f_equal; ring. Qed.
Lemma turned_scale c x : turned d (scale c x) = scale c (turned d x).
Proof. unfold turned, scale. cbn. f_equal; ring. Qed.
Lemma two_Mvec : Str3.Mvec el' full t' de i u' = turned d (Str3.Mvec el full t de i u).
Proof. unfold Str3.Mvec, turned. cbn. rewrite two_nodek, two_ik, sin_plus, cos_plus. f_equal; ring. Qed.
Lemma two_Nvec : Str3.Nvec el' full t' de i u' = turned d (Str3.Nvec el full t de i u).
Proof. unfold Str3.Nvec, turned. cbn. rewrite two_nodek, sin_plus, cos_plus. f_equal; ring. Qed.
Lemma two_Uvec : Str3.Uvec el' full t' de i u' = turned d (Str3.Uvec el full t de i u).
Proof. destruct two_uk as [S C]. unfold Str3.Uvec. rewrite turned_plus, !turned_scale, <- two_Mvec, <- two_Nvec. now rewrite S, C. Qed.
Lemma two_Vvec : Str3.Vvec el' full t' de i u' = turned d (Str3.Vvec el full t de i u).
Proof. destruct two_uk as [S C]. unfold Str3.Vvec. rewrite turned_plus, !turned_scale, <- two_Mvec, <- two_Nvec. now rewrite S, C. Qed.
Lemma two_position : Str3.position el' full t' de i E' u' = turned d (Str3.position el full t de i E u).
Proof. unfold Str3.position. now rewrite turned_scale, <- two_Uvec, two_rk. Qed.
Lemma two_velocity : Str3.velocity el' full t' de i E' u' = turned d (Str3.velocity el full t de i E u).
Proof. unfold Str3.velocity. now rewrite turned_plus, !turned_scale, <- two_Uvec, <- two_Vvec, two_rdotk, two_rfdotk. Qed.
End Angles.

Variables (ep_ok ep_ok' : Prop) (res res' : result (SGP4Result R) SGP4Error).
Hypothesis HEP : ep_ok' <-> ep_ok.
Hypothesis DEP : ep_ok \/ ~ ep_ok.
Hypothesis O : outcome_of el full t de i ep_ok res.
Hypothesis O' : outcome_of el' full t' de i ep_ok' res'.
Lemma two_outcome : (ecc_ok (Str3.e_unclamped el full t de) -> ep_ok -> Str3.pL el full t de i <> 0) -> res' = turned_result d res.
Proof.
  intros HP. destruct O as (A1 & A2 & A3 & A4). destruct O' as (B1 & B2 & B3 & B4). clear O O'.
  rewrite HEu in B1, B2, B3, B4. rewrite two_pL in B3, B4.
  assert (D1 : ecc_ok (Str3.e_unclamped el full t de) \/ ~ ecc_ok (Str3.e_unclamped el full t de)).
  { unfold ecc_ok. destruct (Rle_dec (- (1 / 1000)) (Str3.e_unclamped el full t de)); destruct (Rlt_dec (Str3.e_unclamped el full t de) 1); tauto. }
  destruct D1 as [D1|D1]; [|now rewrite (A1 D1), (B1 D1)].
  destruct DEP as [D2|D2]; [|rewrite (A2 D1 D2), (B2 D1); [reflexivity|tauto]].
  assert (D2' : ep_ok') by tauto. specialize (HP D1 D2).
  destruct (Rtotal_order (Str3.pL el full t de i) 0) as [D3|[D3|D3]]; [|contradiction|].
  - now rewrite (A3 D1 D2 D3), (B3 D1 D2' D3).
  - destruct (A4 D1 D2 D3) as (E & u & K & S & C & X & Y). destruct (B4 D1 D2' D3) as (E' & u' & K' & S' & C' & X' & Y').
    rewrite two_ax, two_ay in K'. pose proof (kepler_angle_turns_eq _ _ _ _ _ _ _ two_U K K') as Q. subst E'.
    rewrite two_sin_u, <- S in S'. rewrite two_cos_u, <- C in C'.
    rewrite (two_rk E u u' S' C') in X', Y'. rewrite (two_position E u u' S' C'), (two_velocity E u u' S' C') in Y'.
    destruct (Rlt_le_dec (Str3.rk el full t de i E u) 1) as [D4|D4].
    + now rewrite (X D4), (X' D4).
    + now rewrite (Y D4), (Y' D4).
Qed.
End Two.

(** ** Whole turns of the mean anomaly and the perigee, any turn of the node *)
Section Moved.
Variables (el : Str3.Elements) (a b : Z) (d : R).
Definition el_moved : Str3.Elements :=
  Str3.MkElements (Str3.n0 el) (Str3.e0 el) (Str3.i0 el) (Str3.M0 el + turns a) (Str3.w0 el + turns b) (Str3.node0 el + d) (Str3.Bstar el).
Notation el' := el_moved.
Variables (full : bool) (t de : R).
Lemma mv_C4 : Str3.C4 el' = Str3.C4 el.
Proof.
  unfold Str3.C4. cbn [el_moved Str3.w0 Str3.e0]. replace (2 * (Str3.w0 el + turns b)) with (2 * Str3.w0 el + turns (2 * b)).
  - rewrite cos_turns. reflexivity.
  - unfold turns. rewrite mult_IZR. ring.
Qed.
Lemma mv_M_DF : Str3.M_DF el' t = Str3.M_DF el t + turns a.
Proof. unfold Str3.M_DF. change (Str3.Mdot el') with (Str3.Mdot el). cbn [el_moved Str3.M0]. ring. Qed.
Lemma mv_delta_w : Str3.delta_w el' t = Str3.delta_w el t.
Proof. unfold Str3.delta_w. cbn [el_moved Str3.w0 Str3.Bstar]. rewrite cos_turns. reflexivity. Qed.
Lemma mv_delta_M : Str3.delta_M el' t = Str3.delta_M el t.
Proof.
  unfold Str3.delta_M. rewrite mv_M_DF, cos_turns. cbn [el_moved Str3.M0]. rewrite cos_turns. reflexivity.
Qed.
Lemma mv_Mp : Str3.Mp el' full t = Str3.Mp el full t + turns a.
Proof. unfold Str3.Mp. rewrite mv_delta_w, mv_delta_M, mv_M_DF. destruct full; cbn [Str3.if_full]; ring. Qed.
Lemma mv_w : Str3.w el' full t = Str3.w el full t + turns b.
Proof.
  unfold Str3.w. rewrite mv_delta_w, mv_delta_M. unfold Str3.w_DF. change (Str3.wdot el') with (Str3.wdot el). cbn [el_moved Str3.w0].
  destruct full; cbn [Str3.if_full]; ring.
Qed.
Lemma mv_node : Str3.node el' t = Str3.node el t + d.
Proof.
  unfold Str3.node, Str3.node_DF. cbn [el_moved Str3.node0]. change (Str3.nodedot el') with (Str3.nodedot el).
  change (Str3.C1 el') with (Str3.C1 el). change (Str3.theta el') with (Str3.theta el). change (Str3.beta0 el') with (Str3.beta0 el).
  change (Str3.n el') with (Str3.n el). change (Str3.a el') with (Str3.a el). ring.
Qed.
Lemma mv_e : Str3.e_unclamped el' full t de = Str3.e_unclamped el full t de.
Proof.
  unfold Str3.e_unclamped. rewrite mv_C4, mv_Mp, sin_turns. cbn [el_moved Str3.M0]. rewrite sin_turns. reflexivity.
Qed.
Lemma mv_at : Str3.at_ el' full t = Str3.at_ el full t. Proof. reflexivity. Qed.
Lemma mv_L : Str3.Lt el' full t - Str3.node el' t = Str3.Lt el full t - Str3.node el t + turns (a + b).
Proof.
  unfold Str3.Lt. rewrite mv_Mp, mv_w, mv_node. change (Str3.n el') with (Str3.n el). change (Str3.C1 el') with (Str3.C1 el).
  change (Str3.D2 el') with (Str3.D2 el). change (Str3.D3 el') with (Str3.D3 el). change (Str3.D4 el') with (Str3.D4 el).
  unfold turns. rewrite plus_IZR. ring.
Qed.
End Moved.

(** ** Advancing the angles of a drag-free orbit by their rates for [tau] minutes *)
Section Flow.
Variables (el : Str3.Elements) (tau : R).
Hypothesis HB : Str3.Bstar el = 0.
Definition el_later : Str3.Elements :=
  Str3.MkElements (Str3.n0 el) (Str3.e0 el) (Str3.i0 el) (Str3.M0 el + Str3.Mdot el * tau) (Str3.w0 el + Str3.wdot el * tau)
    (Str3.node0 el + Str3.nodedot el * tau) (Str3.Bstar el).
Notation el' := el_later.
Variables (full : bool) (t : R).
Lemma nb_C1 : Str3.C1 el = 0. Proof. unfold Str3.C1. rewrite HB. ring. Qed.
Lemma nb_D2 : Str3.D2 el = 0. Proof. unfold Str3.D2. rewrite nb_C1. ring. Qed.
Lemma nb_D3 : Str3.D3 el = 0. Proof. unfold Str3.D3. rewrite nb_C1. ring. Qed.
Lemma nb_D4 : Str3.D4 el = 0. Proof. unfold Str3.D4. rewrite nb_C1. ring. Qed.
Lemma nb_delta_w x : Str3.delta_w el x = 0. Proof. unfold Str3.delta_w. rewrite HB. ring. Qed.
Lemma nb_delta_M x : Str3.delta_M el x = 0.
Proof. unfold Str3.delta_M, Str3.eccentric. rewrite HB. destruct (Rlt_dec _ _); [|reflexivity]. unfold Rdiv. ring. Qed.
Lemma nb_Mp x : Str3.Mp el full x = Str3.M0 el + Str3.Mdot el * x.
Proof. unfold Str3.Mp, Str3.M_DF. rewrite nb_delta_w, nb_delta_M. destruct full; cbn [Str3.if_full]; ring. Qed.
Lemma nb_w x : Str3.w el full x = Str3.w0 el + Str3.wdot el * x.
Proof. unfold Str3.w, Str3.w_DF. rewrite nb_delta_w, nb_delta_M. destruct full; cbn [Str3.if_full]; ring. Qed.
Lemma nb_node x : Str3.node el x = Str3.node0 el + Str3.nodedot el * x.
Proof. unfold Str3.node, Str3.node_DF. rewrite nb_C1. ring. Qed.
Lemma nb_e de x : Str3.e_unclamped el full x de = Str3.e0 el + de.
Proof. unfold Str3.e_unclamped. rewrite HB. destruct full; cbn [Str3.if_full]; ring. Qed.
Lemma nb_at x : Str3.at_ el full x = Str3.a el.
Proof. unfold Str3.at_. rewrite nb_C1, nb_D2, nb_D3, nb_D4. destruct full; cbn [Str3.if_full]; ring. Qed.
Lemma nb_L x : Str3.Lt el full x = Str3.Mp el full x + Str3.w el full x + Str3.node el x.
Proof. unfold Str3.Lt. rewrite nb_C1, nb_D2, nb_D3, nb_D4. destruct full; cbn [Str3.if_full]; ring. Qed.
End Flow.
