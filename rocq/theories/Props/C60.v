(** * C60: long-term behaviour: drag-free orbits last for ever, all others end in an error *)
From Coq Require Import ZArith List Bool Reals Lra Lia Psatz.
From Flocq Require Import Core.Raux.
From Verif.Model Require Import Float Str Satrec Constants Vec3 Sgp4 Sgp4init.
From Verif.Inst Require Import RInst RTac.
From Verif.Proofs Require Import Sgp4Frame InitElems KeplerFacts Sgp4Errors Str3Init Str3State CalcFun.
From Verif.Spec Require Import Vectors3 KeplerSpec Sgp4Spec Str3Api.
From Verif.Spec Require Str3.
From Verif.Golden Require RDeep.
From Verif.Proofs Require AccEnd DeepInit InitKind.
From Verif.Model Require Dsinit.
From Verif.Props Require C01 C50 C51 C57.
Local Open Scope R_scope.

Section Shell.
Context (el : Str3.Elements) (full : bool) (t : R).
Context (HO : orbital el) (HP : period el < 225) (HB : Str3.Bstar el = 0) (HH : 50 <= Str3.perigee_height el).
Let a := Str3.a el. Let i := Str3.i0 el.
Lemma a_bounds : 0 < a <= 2.
Proof.
  unfold a, Str3.a, Str3.two_thirds. split; [apply exp_pos|]. destruct HO as (_ & _ & N). unfold period in HP. pose proof pi_num as P.
  assert (NB : 2791 / 100000 <= Str3.n el).
  { apply Rnot_lt_le. intros K. assert (2 * PI < 225 * Str3.n el); [|lra]. apply (Rmult_lt_compat_r (Str3.n el)) in HP; [|exact N]. unfold Rdiv in HP. rewrite Rmult_assoc, Rinv_l in HP by lra. lra. }
  assert (X : 0 < Str3.ke / Str3.n el <= 27 / 10).
  { unfold Str3.ke. split; [apply Rdiv_lt_0_compat; lra|]. apply (Rmult_le_reg_r (Str3.n el)); [exact N|]. unfold Rdiv at 1. rewrite Rmult_assoc, Rinv_l by lra. lra. }
  set (x := Str3.ke / Str3.n el) in *. clearbody x.
  apply Rle_trans with (Rpower (Rpower 2 (3 / 2)) (2 / 3)).
  - apply Rle_Rpower_l; [lra|]. split; [lra|]. replace (3 / 2) with (INR 1 + / INR 2) by (cbn; lra). rewrite Rpower_plus, Rpower_pow by lra. cbn [INR]. replace (1 + 1) with 2 by ring. rewrite Rpower_sqrt by lra.
    assert (135 / 100 <= sqrt 2) by (rewrite <- (sqrt_square (135 / 100)) by lra; apply sqrt_le_1_alt; lra). lra.
  - rewrite Rpower_mult. replace (3 / 2 * (2 / 3)) with 1 by lra. rewrite Rpower_1; lra.
Qed.
Lemma C1_0 : Str3.C1 el = 0. Proof. unfold Str3.C1. rewrite HB. ring. Qed.
Lemma at_const : Str3.at_ el full t = a.
Proof. unfold Str3.at_, Str3.if_full, Str3.D2, Str3.D3, Str3.D4. rewrite C1_0. fold a. destruct full; ring. Qed.
Lemma e_const : Str3.e_unclamped el full t 0 = Str3.e0 el.
Proof. unfold Str3.e_unclamped, Str3.if_full. rewrite HB. destruct full; ring. Qed.
Let ee := Str3.e el full t 0.
Lemma ee_bounds : 0 <= ee /\ Str3.e0 el <= ee <= Str3.e0 el + 1 / 1000000 /\ ee <= 497 / 1000 /\ 10078 / 10000 <= a * (1 - Str3.e0 el).
Proof.
  destruct HO as (_ & E & _). pose proof a_bounds as A. unfold Str3.perigee_height in HH. fold a in HH. unfold Str3.aE in HH.
  assert (PR : 10078 / 10000 <= a * (1 - Str3.e0 el)) by lra. assert (EU : Str3.e0 el <= 4962 / 10000) by nra.
  assert (EE : ee = Rmax (Str3.e0 el) (1 / 1000000)) by (unfold ee, Str3.e; now rewrite e_const). rewrite EE. unfold Rmax. destruct (Rle_dec (Str3.e0 el) (1 / 1000000)); lra.
Qed.
Let D := Str3.A30 * sin i / (4 * Str3.k2 * a * (1 - ee ^ 2)).
Lemma D_bound : a * Rabs D <= 156 / 100000 /\ Rabs D <= 2 / 1000.
Proof.
  pose proof a_bounds as A. pose proof ee_bounds as (E0 & _ & E & PR). assert (Q : 752 / 1000 <= 1 - ee ^ 2) by nra.
  assert (AL : 1 <= a) by (destruct HO as (_ & (X & _) & _); nra).
  assert (M : a * Rabs D <= 156 / 100000).
  { rewrite <- (Rabs_pos_eq a) by lra. rewrite <- Rabs_mult. replace (a * D) with (sin i * (Str3.A30 / (4 * Str3.k2) * / (1 - ee ^ 2))).
    2:{ unfold D. field. assert (0 < Str3.k2) by (unfold Str3.k2, Str3.J2; lra). repeat split; lra. }
    rewrite Rabs_mult. pose proof (SIN_bound i) as S. assert (Rabs (sin i) <= 1) by (apply Rabs_le; lra).
    assert (IQ : 0 < / (1 - ee ^ 2) <= 133 / 100). { split; [apply Rinv_0_lt_compat; lra|]. apply Rle_trans with (/ (752 / 1000)); [apply Rinv_le_contravar; lra|lra]. }
    assert (K : Str3.A30 / (4 * Str3.k2) <= 117 / 100000 /\ 0 <= Str3.A30 / (4 * Str3.k2)) by (unfold Str3.A30, Str3.J3, Str3.k2, Str3.J2; lra).
    set (v := / (1 - ee ^ 2)) in *. set (k := Str3.A30 / (4 * Str3.k2)) in *. rewrite (Rabs_pos_eq (k * v)) by nra. pose proof (Rabs_pos (sin i)).
    apply Rle_trans with (1 * (k * v)); [apply Rmult_le_compat_r; nra|]. nra. }
  split; [exact M|]. pose proof (Rabs_pos D). nra.
Qed.
Let ax := Str3.axN el full t 0. Let ay := Str3.ayN el full t 0 i.
Let m := ee + Rabs D.
Lemma eL2_le : Str3.eL2 el full t 0 i <= m * m /\ 0 <= Str3.eL2 el full t 0 i.
Proof.
  unfold Str3.eL2. split; [|nra]. unfold Str3.axN, Str3.ayN. fold ee. rewrite at_const. fold D. set (w := Str3.w el full t).
  pose proof (sin2_cos2 w) as S. unfold Rsqr in S. pose proof (SIN_bound w) as SB. pose proof ee_bounds as (E0 & _).
  replace ((ee * cos w) ^ 2 + (ee * sin w + D) ^ 2) with (ee * ee * (sin w * sin w + cos w * cos w) + 2 * ee * (D * sin w) + D * D) by ring. rewrite S.
  assert (DD : D * D = Rabs D * Rabs D) by (rewrite <- Rabs_mult; symmetry; apply Rabs_pos_eq; nra).
  assert (DS : D * sin w <= Rabs D). { apply Rle_trans with (Rabs (D * sin w)); [apply Rle_abs|]. rewrite Rabs_mult. assert (Rabs (sin w) <= 1) by (apply Rabs_le; lra). pose proof (Rabs_pos D). nra. }
  rewrite DD. unfold m. nra.
Qed.
Lemma ecos_le E : Rabs (Str3.e_cosE el full t 0 i E) <= m.
Proof.
  pose proof eL2_le as [H _]. unfold Str3.eL2 in H. fold ax ay in H. unfold Str3.e_cosE. fold ax ay. pose proof (sin2_cos2 E) as S. unfold Rsqr in S.
  assert (0 <= m) by (unfold m; pose proof ee_bounds as (X & _); pose proof (Rabs_pos D); lra).
  assert (Q : (ax * cos E + ay * sin E) * (ax * cos E + ay * sin E) <= m * m).
  { apply Rle_trans with (ax ^ 2 + ay ^ 2); [|exact H]. replace (ax ^ 2 + ay ^ 2) with ((ax ^ 2 + ay ^ 2) * (sin E * sin E + cos E * cos E)) by (rewrite S; ring). apply Rminus_le. replace ((ax * cos E + ay * sin E) * (ax * cos E + ay * sin E) - (ax ^ 2 + ay ^ 2) * (sin E * sin E + cos E * cos E)) with (- Rsqr (ax * sin E - ay * cos E)) by (unfold Rsqr; ring). pose proof (Rle_0_sqr (ax * sin E - ay * cos E)). lra. }
  apply Rabs_le. split; nra.
Qed.
Lemma m_bounds : 0 <= m <= 499 / 1000 /\ 1006 / 1000 <= a * (1 - m) /\ a * (1 - Str3.e0 el) - 157 / 100000 <= a * (1 - m) /\ a * (1 + m) <= a * (1 + Str3.e0 el) + 157 / 100000.
Proof.
  pose proof a_bounds as A. pose proof ee_bounds as (E0 & E1 & E2 & PR). pose proof D_bound as [D1 D2]. pose proof (Rabs_pos D). unfold m.
  assert (a * ee <= a * Str3.e0 el + 2 / 1000000) by nra. repeat split; nra.
Qed.
Lemma pL_pos : 1006 / 1000 <= Str3.pL el full t 0 i /\ a * (1 - m) * (1 + m) <= Str3.pL el full t 0 i.
Proof.
  unfold Str3.pL. rewrite at_const. pose proof a_bounds as A. pose proof eL2_le as [E _]. pose proof m_bounds as (M & P & _).
  assert (a * (1 - m) * (1 + m) <= a * (1 - Str3.eL2 el full t 0 i)) by nra. split; [|assumption]. nra.
Qed.
Lemma rk_bounds E u : a * (1 - Str3.e0 el) - 62 / 10000 <= Str3.rk el full t 0 i E u <= a * (1 + Str3.e0 el) + 62 / 10000.
Proof.
  unfold Str3.rk, Str3.r. rewrite at_const. pose proof a_bounds as A. pose proof eL2_le as [E1 E2]. pose proof m_bounds as (M & P & L1 & L2). pose proof pL_pos as [Q1 Q2].
  pose proof (ecos_le E) as EC. apply Rabs_le_inv in EC. set (ec := Str3.e_cosE el full t 0 i E) in *. set (pl := Str3.pL el full t 0 i) in *.
  set (sq := sqrt (1 - Str3.eL2 el full t 0 i)). assert (SQ : 0 <= sq <= 1) by (split; [apply sqrt_pos|]; rewrite <- sqrt_1; apply sqrt_le_1_alt; lra). clearbody sq ec pl.
  pose proof (COS_bound i) as CB. assert (C2 : 0 <= cos i ^ 2 <= 1) by nra. set (c2 := cos i ^ 2) in *. clearbody c2.
  assert (R1 : a * (1 - m) <= a * (1 - ec) <= a * (1 + m)) by nra. set (r := a * (1 - ec)) in *. clearbody r.
  assert (K : Str3.k2 <= 54132 / 100000000 /\ 0 < Str3.k2) by (unfold Str3.k2, Str3.J2; lra). set (k2 := Str3.k2) in *. clearbody k2.
  assert (F1 : Rabs (r * (3 / 2 * k2 * sq / pl ^ 2 * (3 * c2 - 1))) <= 33 / 10000).
  { replace (r * (3 / 2 * k2 * sq / pl ^ 2 * (3 * c2 - 1))) with ((r / pl ^ 2) * (3 / 2 * k2 * (sq * (3 * c2 - 1)))) by (field; lra).
    assert (RP : 0 <= r / pl ^ 2 <= 2). { split; [apply Rmult_le_pos; [nra|apply Rlt_le, Rinv_0_lt_compat; nra]|]. apply (Rmult_le_reg_r (pl ^ 2)); [nra|]. unfold Rdiv. rewrite Rmult_assoc, Rinv_l by nra.
      apply Rle_trans with (a * (1 + m)); [lra|]. assert (a * (1 + m) <= 2 * (a * (1 - m) * (1 + m))) by nra. nra. }
    rewrite Rabs_mult, (Rabs_pos_eq (r / pl ^ 2)) by lra. assert (X : Rabs (3 / 2 * k2 * (sq * (3 * c2 - 1))) <= 1625 / 1000000) by (assert (-1 <= sq * (3 * c2 - 1) <= 2) by nra; apply Rabs_le; nra).
    pose proof (Rabs_pos (3 / 2 * k2 * (sq * (3 * c2 - 1)))). nra. }
  assert (F2 : Rabs (k2 / (2 * pl) * (1 - c2) * cos (2 * u)) <= 28 / 100000).
  { pose proof (COS_bound (2 * u)) as CU. assert (0 <= k2 / (2 * pl) <= 28 / 100000). { split; [apply Rmult_le_pos; [lra|apply Rlt_le, Rinv_0_lt_compat; lra]|]. apply (Rmult_le_reg_r (2 * pl)); [lra|]. unfold Rdiv at 1. rewrite Rmult_assoc, Rinv_l by lra. lra. }
    set (k := k2 / (2 * pl)) in *. set (c := cos (2 * u)) in *. rewrite !Rabs_mult. rewrite (Rabs_pos_eq k), (Rabs_pos_eq (1 - c2)) by lra. assert (Rabs c <= 1) by (apply Rabs_le; lra). pose proof (Rabs_pos c). assert (0 <= k * (1 - c2) <= 28 / 100000) by nra. nra. }
  replace (r * (1 - 3 / 2 * k2 * sq / pl ^ 2 * (3 * c2 - 1))) with (r - r * (3 / 2 * k2 * sq / pl ^ 2 * (3 * c2 - 1))) by ring.
  apply Rabs_le_inv in F1, F2. lra.
Qed.
End Shell.

Lemma norm_position el full t de i E u : norm (Str3.position el full t de i E u) = Str3.aE * Rabs (Str3.rk el full t de i E u).
Proof.
  unfold Str3.position. set (U := Str3.Uvec el full t de i u). assert (UU : dot U U = 1).
  { unfold U, Str3.Uvec, Str3.Mvec, Str3.Nvec, dot, plus, scale. cbn [v_x v_y v_z]. set (x := Str3.uk _ _ _ _ _ _). set (y := Str3.nodek _ _ _ _ _ _). set (z := Str3.ik _ _ _ _ _ _).
    pose proof (sin2_cos2 x) as S1. pose proof (sin2_cos2 y) as S2. pose proof (sin2_cos2 z) as S3. unfold Rsqr in *.
    replace ((sin x * (- sin y * cos z) + cos x * cos y) * (sin x * (- sin y * cos z) + cos x * cos y) + (sin x * (cos y * cos z) + cos x * sin y) * (sin x * (cos y * cos z) + cos x * sin y) + (sin x * sin z + cos x * 0) * (sin x * sin z + cos x * 0))
      with (sin x * sin x * ((sin y * sin y + cos y * cos y) * (cos z * cos z) + sin z * sin z) + cos x * cos x * (sin y * sin y + cos y * cos y)) by ring.
    rewrite S2. replace (1 * (cos z * cos z) + sin z * sin z) with (sin z * sin z + cos z * cos z) by ring. rewrite S3. lra. }
  unfold norm. replace (dot (scale (Str3.aE * Str3.rk el full t de i E u) U) (scale (Str3.aE * Str3.rk el full t de i E u) U)) with (Rsqr (Str3.aE * Str3.rk el full t de i E u) * dot U U) by (unfold dot, scale, Rsqr; cbn [v_x v_y v_z]; ring).
  rewrite UU, Rmult_1_r, sqrt_Rsqr_abs, Rabs_mult, (Rabs_pos_eq Str3.aE) by (unfold Str3.aE; lra). reflexivity.
Qed.

(** distances (km) from the Earth's centre at the perigee and apogee of the mean ellipse *)
Definition perigee_radius (el : Str3.Elements) : R := Str3.aE * (Str3.a el * (1 - Str3.e0 el)).
Definition apogee_radius (el : Str3.Elements) : R := Str3.aE * (Str3.a el * (1 + Str3.e0 el)).

(** Near the Earth, without drag, perigee at least 50 km up: initialisation succeeds, and whatever calls were
    made before, propagation succeeds at every time, however far from the epoch, and the distance from the
    Earth's centre stays between the perigee and the apogee, give or take 40 km. *)
Theorem C60_drag_free_forever :
  forall (fuel : nat) (s0 : Satrec R) (o : SGP4InitOptions R),
    let el := elements o in
    orbital el -> period el < 225 -> Str3.Bstar el = 0 -> 50 <= Str3.perigee_height el ->
    exists s v0, sgp4init fuel s0 o = Done (s, Ok v0) /\
      forall calls fuel' (t : R), exists s1 s' v,
        after_calls s calls = Done s1 /\ sgp4 fuel' s1 t = Done (s', Ok v) /\
        perigee_radius el - 40 <= norm (g4_position v) <= apogee_radius el + 40.
Proof.
  intros fuel s0 o el HO HP HB HH.
  pose proof (elements_coefs o s0 HO) as (_ & _ & _ & _ & M). fold el in M. change (2 * PI / Str3.n el) with (period el) in M. rewrite Rle_bool_false in M by exact HP.
  destruct (C57.always fuel s0 o M) as (s & r & H & K).
  assert (G : forall calls s1 fuel' t s' res, after_calls s calls = Done s1 -> sgp4 fuel' s1 t = Done (s', res) ->
     exists v, res = Ok v /\ perigee_radius el - 40 <= norm (g4_position v) <= apogee_radius el + 40).
  { intros calls s1 fuel' t s' res A P. pose proof (C50.C50_near_earth_state fuel s0 s o r calls s1 fuel' t s' res H A P HO HP) as T. cbv zeta in T. fold el in T.
    set (full := Rle_bool 220 (Str3.perigee_height el)) in *. destruct T as (_ & _ & T). destruct T as (E & u & _ & _ & _ & _ & T).
    - rewrite e_const by assumption. destruct HO as (_ & ? & _). unfold ecc_ok. lra.
    - destruct (pL_pos el full t HO HP HB HH) as [Q _]. lra.
    - pose proof (rk_bounds el full t HO HP HB HH E u) as RB. assert (PH : 10078 / 10000 <= Str3.a el * (1 - Str3.e0 el)) by (unfold Str3.perigee_height, Str3.aE in HH; lra).
      eexists. split; [apply T; lra|]. cbn [g4_position]. rewrite norm_position, Rabs_pos_eq by lra. unfold perigee_radius, apogee_radius, Str3.aE. lra. }
  assert (I : exists v0, r = Ok v0).
  { pose proof H as H'. unfold sgp4init in H'. cbv zeta in H'. destruct (sgp4 fuel (sgp4init_elements o s0) (L 0 0)) as [[a res]| |] eqn:P; cbn [bindO] in H'; try discriminate H'.
    destruct res as [v|e]; [injection H' as _ <-; eauto|]. exfalso. injection H' as <- <-.
    destruct (K nil fuel (L 0 0)) as (s1 & s' & res & A1 & P1). cbn [after_calls] in A1. injection A1 as <-.
    destruct (G nil a fuel (L 0 0) s' res eq_refl P1) as (v & -> & _).
    assert (A2 : after_calls (sgp4init_elements o s0) ((fuel, L 0 0) :: nil) = Done a) by (cbn [after_calls]; rewrite P; reflexivity).
    pose proof (C01.C01_history_independence _ _ _ _ _ fuel (L 0 0) A2) as X. rewrite P, P1 in X. discriminate X. }
  destruct I as [v0 ->]. exists s, v0. split; [exact H|]. intros calls fuel' t. destruct (K calls fuel' t) as (s1 & s' & res & A & P).
  destruct (G calls s1 fuel' t s' res A P) as (v & -> & B). exists s1, s', v. split; [exact A|]. split; [exact P|exact B].
Qed.
Print Assumptions C60_drag_free_forever.

(** With drag, near the Earth: the mean eccentricity drifts linearly at the rate -B* C4, so from some time on,
    and before some time, every call reports an eccentricity error. *)
Definition lifetime (el : Str3.Elements) : R :=
  (2 + 2 * Rabs (Str3.Bstar el * Str3.C5 el)) / Rabs (Str3.Bstar el * Str3.C4 el).
Theorem C60_drag_ends :
  forall (fuel : nat) (s0 s : Satrec R) (o : SGP4InitOptions R) r calls s1 fuel' (t : R) s' res,
    sgp4init fuel s0 o = Done (s, r) -> after_calls s calls = Done s1 -> sgp4 fuel' s1 t = Done (s', res) ->
    let el := elements o in
    orbital el -> period el < 225 -> Str3.Bstar el * Str3.C4 el <> 0 -> lifetime el <= Rabs t ->
    res = Err Eccentricty.
Proof.
  intros fuel s0 s o r calls s1 fuel' t s' res H A P el HO HP HB HT.
  pose proof (C50.C50_near_earth_state fuel s0 s o r calls s1 fuel' t s' res H A P HO HP) as T. cbv zeta in T. fold el in T. destruct T as (T & _).
  apply T. clear T. set (full := Rle_bool _ _). unfold Str3.e_unclamped. destruct HO as (_ & HE & _).
  set (x := Str3.Bstar el * Str3.C4 el) in *. assert (XP : 0 < Rabs x) by now apply Rabs_pos_lt.
  set (y := Str3.Bstar el * Str3.C5 el). assert (Y : forall v, Rabs (y * (sin v - sin (Str3.M0 el))) <= 2 * Rabs y).
  { intros v. rewrite Rabs_mult. pose proof (SIN_bound v). pose proof (SIN_bound (Str3.M0 el)). assert (Rabs (sin v - sin (Str3.M0 el)) <= 2) by (apply Rabs_le; lra). pose proof (Rabs_pos y). nra. }
  assert (W : exists w, Str3.if_full full (y * (sin (Str3.Mp el full t) - sin (Str3.M0 el))) 0 = w /\ Rabs w <= 2 * Rabs y).
  { eexists. split; [reflexivity|]. unfold Str3.if_full. destruct full; [apply Y|]. rewrite Rabs_R0. pose proof (Rabs_pos y). lra. }
  destruct W as (w & -> & W). unfold lifetime in HT. fold x y in HT.
  assert (XT : 2 + 2 * Rabs y <= Rabs (x * t)).
  { rewrite Rabs_mult. apply (Rmult_le_compat_l (Rabs x)) in HT; [|lra]. replace (Rabs x * ((2 + 2 * Rabs y) / Rabs x)) with (2 + 2 * Rabs y) in HT by (field; lra). exact HT. }
  intros [L1 L2]. apply Rabs_le_inv in W. destruct (Rle_dec 0 (x * t)) as [S|S]; [rewrite (Rabs_pos_eq _ S) in XT|rewrite (Rabs_left _ (Rnot_le_lt _ _ S)) in XT]; lra.
Qed.
Print Assumptions C60_drag_ends.

(** Deep space: the eccentricity also drifts under the Moon and the Sun, at the rate the record holds; unless
    the two drifts cancel exactly the same happens, drag or no drag. *)
Theorem C60_deep_space_ends :
  forall (fuel : nat) (s0 s : Satrec R) (o : SGP4InitOptions R) r calls s1 fuel' (t : R) s' res,
    sgp4init fuel s0 o = Done (s, r) -> after_calls s calls = Done s1 -> sgp4 fuel' s1 t = Done (s', res) ->
    let el := elements o in
    orbital el -> 225 <= period el ->
    let drift := sr_dedt s - Str3.Bstar el * Str3.C4 el in
    drift <> 0 -> 2 / Rabs drift <= Rabs t ->
    res = Err Eccentricty.
Proof.
  intros fuel s0 s o r calls s1 fuel' t s' res H A P el HO HP drift HB HT.
  pose proof (C50.C50_deep_space_state fuel s0 s o r calls s1 fuel' t s' res H A P HO HP) as T. cbv zeta in T. fold el in T. destruct T as (T & _).
  apply T. clear T. unfold Str3.e_unclamped, Str3.if_full. destruct HO as (_ & HE & _).
  assert (XP : 0 < Rabs drift) by now apply Rabs_pos_lt.
  assert (XT : 2 <= Rabs (drift * t)).
  { rewrite Rabs_mult. apply (Rmult_le_compat_l (Rabs drift)) in HT; [|lra]. replace (Rabs drift * (2 / Rabs drift)) with 2 in HT by (field; lra). exact HT. }
  replace (Str3.e0 el + sr_dedt s * t - Str3.Bstar el * Str3.C4 el * t - 0) with (Str3.e0 el + drift * t) by (unfold drift; ring).
  intros [L1 L2]. destruct (Rle_dec 0 (drift * t)) as [S|S]; [rewrite (Rabs_pos_eq _ S) in XT|rewrite (Rabs_left _ (Rnot_le_lt _ _ S)) in XT]; lra.
Qed.
Print Assumptions C60_deep_space_ends.

(** Non-vacuity: 7.16 revolutions a day, eccentricity 0.1, inclination 1 rad, no drag; the same circular and
    equatorial with drag; eight-times slower, with drag. *)
Definition low (e i b : R) : SGP4InitOptions R := MkSGP4InitOptions OpsI nil 0 b e 0 i 0 (1 / 32) 0.
Lemma low_orbital e i b : 0 <= e <= 1 / 10 -> orbital (elements (low e i b)) /\ period (elements (low e i b)) < 225 /\ 16 / 9 <= Str3.a (elements (low e i b)).
Proof.
  intros He. set (el := elements (low e i b)). assert (N0 : Str3.n0 el = 1 / 32) by reflexivity. assert (E0 : Str3.e0 el = e) by reflexivity.
  pose proof (AccEnd.d0_small el ltac:(lra) ltac:(lra)) as D. apply Rabs_le_inv in D. pose proof pi_num as P.
  assert (N : 30 / 1000 <= Str3.n el). { unfold Str3.n. rewrite N0. apply (Rmult_le_reg_r (1 + Str3.d0 el)); [lra|]. unfold Rdiv at 2. rewrite Rmult_assoc, Rinv_l by lra. lra. }
  split; [|split].
  - unfold orbital. rewrite N0, E0. repeat split; lra.
  - unfold period. apply (Rmult_lt_reg_r (Str3.n el)); [lra|]. unfold Rdiv. rewrite Rmult_assoc, Rinv_l by lra. lra.
  - apply C57.high_a; lra.
Qed.
Lemma circular_C4 el : Str3.e0 el = 0 -> Str3.i0 el = 0 -> 16 / 9 <= Str3.a el -> 0 < Str3.n el -> 0 < Str3.C4 el.
Proof.
  intros E I A N. assert (PH : 156 <= Str3.perigee_height el) by (unfold Str3.perigee_height, Str3.aE; rewrite E; lra).
  assert (S : Str3.s el = 78 / Str3.aE + 1) by (unfold Str3.s; destruct (Rlt_dec _ 98); [lra|]; destruct (Rlt_dec _ 156); [lra|reflexivity]).
  assert (X : 0 < Str3.xi el) by (unfold Str3.xi; rewrite S; apply Rinv_0_lt_compat; unfold Str3.aE; lra).
  assert (ET : Str3.eta el = 0) by (unfold Str3.eta; rewrite E; ring). assert (P2 : Str3.psi2 el = 1) by (unfold Str3.psi2; rewrite ET; replace (1 - 0 ^ 2) with 1 by ring; apply Rabs_R1).
  assert (B0 : Str3.beta0 el = 1) by (unfold Str3.beta0; rewrite E; replace (1 - 0 ^ 2) with 1 by ring; apply sqrt_1).
  assert (TH : Str3.theta el = 1) by (unfold Str3.theta; rewrite I; apply cos_0).
  unfold Str3.C4, Str3.Q, Str3.psi7. rewrite ET, P2, B0, TH, E, sqrt_1, S.
  assert (K : 0 < Str3.k2) by (unfold Str3.k2, Str3.J2; lra).
  assert (QS : 0 < Str3.q0 - (78 / Str3.aE + 1)) by (unfold Str3.q0, Str3.aE; lra).
  replace (2 * Str3.n el * ((Str3.q0 - (78 / Str3.aE + 1)) ^ 4 * Str3.xi el ^ 4) / 1 ^ 7 * Str3.a el * 1 ^ 2 *
    (2 * 0 * (1 + 0 * 0) + 1 / 2 * 0 + 1 / 2 * 0 ^ 3 - 2 * Str3.k2 * Str3.xi el / (Str3.a el * 1) *
     (3 * (1 - 3 * 1 ^ 2) * (1 + 3 / 2 * 0 ^ 2 - 2 * 0 * 0 - 1 / 2 * 0 * 0 ^ 3) + 3 / 4 * (1 - 1 ^ 2) * (2 * 0 ^ 2 - 0 * 0 - 0 * 0 ^ 3) * cos (2 * Str3.w0 el))))
    with (24 * Str3.n el * (Str3.q0 - (78 / Str3.aE + 1)) ^ 4 * Str3.xi el ^ 5 * Str3.k2) by (field; unfold Str3.aE; lra).
  generalize dependent (Str3.n el). intros n N. repeat apply Rmult_lt_0_compat; try lra; apply pow_lt; assumption.
Qed.
Example C60_example :
  (let el := elements (low (1 / 10) 1 0) in orbital el /\ period el < 225 /\ Str3.Bstar el = 0 /\ 50 <= Str3.perigee_height el) /\
  (let el := elements (low 0 0 (1 / 1000)) in orbital el /\ period el < 225 /\ Str3.Bstar el * Str3.C4 el <> 0).
Proof.
  split; intros el.
  - destruct (low_orbital (1 / 10) 1 0 ltac:(lra)) as (O & P & A). fold el in O, P, A. repeat split; try apply O; try exact P. unfold Str3.perigee_height, Str3.aE. change (Str3.e0 el) with (1 / 10). lra.
  - destruct (low_orbital 0 0 (1 / 1000) ltac:(lra)) as (O & P & A). fold el in O, P, A. split; [exact O|]. split; [exact P|].
    pose proof (circular_C4 el eq_refl eq_refl A (proj2 (proj2 O))) as C. change (Str3.Bstar el) with (1 / 1000). apply Rgt_not_eq. nra.
Qed.
Definition slow : SGP4InitOptions R := MkSGP4InitOptions OpsI nil 0 1 0 0 0 0 (Str3.ke / 8) 0.
Example C60_deep_example :
  orbital (elements slow) /\ 225 <= period (elements slow) /\
  exists s r, sgp4init 0 satrec_zero slow = Done (s, r) /\ sr_dedt s - Str3.Bstar (elements slow) * Str3.C4 (elements slow) <> 0 /\
    forall t, exists s' res, sgp4 0 s t = Done (s', res).
Proof.
  assert (O : orbital (elements slow) /\ 225 <= period (elements slow)) by exact (RDeep.dso_orbital 0 0 0 0 0 0 RDeep.zle). destruct O as [HO HP].
  split; [exact HO|]. split; [exact HP|].
  assert (D : sr_method (sgp4init_elements slow satrec_zero) = MethodD).
  { destruct (elements_coefs slow satrec_zero HO) as (_ & _ & _ & _ & ->). change (2 * PI / Str3.n (elements slow)) with (period (elements slow)). now rewrite Rle_bool_true by exact HP. }
  assert (Z : sr_irez (sgp4init_elements slow satrec_zero) = 0).
  { destruct (DeepInit.elements_deep slow satrec_zero _ eq_refl D) as (u & _ & _ & Z). set (q := DeepInit.deep_options _ _ _ u) in Z.
    assert (NM : Dsinit.no_nm q = Str3.n (elements slow)) by (apply initl_no_T, HO). assert (EM : Dsinit.no_em q = 0) by reflexivity.
    clearbody q. pose proof (f_equal DeepInit.z_irez Z) as ZI. cbn [DeepInit.rez_of DeepInit.rez_r DeepInit.z_irez] in ZI. rewrite ZI, InitKind.dsinit_irez_eq, NM, EM. unfold Dsinit.dsinit_irez. cbv zeta. rops.
    pose proof (RDeep.dso_n_b 0 0 0 0 0 0 RDeep.zle) as N. change (Str3.n (elements (RDeep.dso 0 0 0 0 0 0))) with (Str3.n (elements slow)) in N.
    assert (KE : Str3.ke = 7436685316871385 / 100000000000000000) by reflexivity. rewrite KE in N.
    rewrite (Rlt_bool_false (Str3.n (elements slow)) (52359877 / 10000000000)) by lra. rewrite (Rle_bool_false (5 / 10) 0) by lra. rewrite !andb_false_r. reflexivity. }
  destruct (RDeep.unresonant_done 0%nat _ 0 Z) as (s1 & r1 & H).
  assert (X : exists s r, sgp4init 0 satrec_zero slow = Done (s, r)). { unfold sgp4init. change (@L R ROps 0 0) with 0. rewrite H. cbn [bindO]. destruct r1; eauto. }
  destruct X as (s & r & X). exists s, r. split; [exact X|].
  destruct (C51.C51_lagrange_equations _ _ _ _ _ X HO HP) as (g & _ & np & _ & _ & E0 & _). destruct (E0 eq_refl) as (-> & _).
  split.
  - pose proof (RDeep.dso_a 0 0 0 0 0 0 RDeep.zle) as A. change (Str3.a (elements (RDeep.dso 0 0 0 0 0 0))) with (Str3.a (elements slow)) in A.
    pose proof (circular_C4 (elements slow) eq_refl eq_refl ltac:(lra) (proj2 (proj2 HO))) as C. change (Str3.Bstar (elements slow)) with 1. lra.
  - intros t. apply RDeep.unresonant_done. apply InitKind.sgp4init_kind in X. pose proof (f_equal InitKind.kd_irez X) as I. cbn [InitKind.kind_of InitKind.kd_irez] in I. now rewrite I.
Qed.
