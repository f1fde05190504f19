(** * C51: lunar-solar coefficients of a deep-space record *)
From Coq Require Import ZArith List Bool Reals Lra Psatz.
From Flocq Require Import Core.Raux.
From Verif.Model Require Import Float Str Satrec Constants Vec3 Dscom Dpper Dsinit Sgp4 Sgp4init.
From Verif.Inst Require Import RInst RTac B64Rem.
From Verif.Proofs Require Import InitElems DeepInit Str3Init ThirdBodyFacts.
From Verif.Spec Require Import Vectors3 PeriodicSpec Str3Api ThirdBody.
From Verif.Spec Require Str3.
From Verif.Golden Require Import RDeep.
Local Open Scope R_scope.

(** days from 1900 January 0.5 to the epoch (given in days since 1950 January 0.0) *)
Definition day (o : SGP4InitOptions R) : R := in_epoch o + 18261.5.

(** In deep space (period 225 minutes or more), the secular rate of each element plus the rate of its periodic
    term, with the Sun at any anomaly [fs] and the Moon at any anomaly [fm], is what Lagrange's planetary
    equations give for the disturbing potential of the two bodies averaged over the orbit:
    d(e^2)/2 = - beta U_w, sin i di = (cos i U_w - U_node)/beta, dM = - (4 U + 2 beta^2 U_(e^2)),
    dw + cos i dnode = 2 beta U_(e^2), sin i dnode = U_i/beta.  Within 3 degrees of the equator the node's
    secular rate is dropped; a circular orbit stays circular. *)
Theorem C51_lagrange_equations :
  forall (fuel : nat) (s0 s : Satrec R) (o : SGP4InitOptions R) r,
    sgp4init fuel s0 o = Done (s, r) ->
    let el := elements o in
    orbital el -> 225 <= period el ->
    let n := Str3.n el in let e := Str3.e0 el in let beta := Str3.beta0 el in
    let i := Str3.i0 el in let w := Str3.w0 el in let om := Str3.node0 el in
    exists g, lunar_perigee (day o) g /\ exists node_part,
      (0.052359877 <= i <= PI - 0.052359877 -> sin i * sr_dnodt s = node_part) /\
      (~ 0.052359877 <= i <= PI - 0.052359877 -> sr_dnodt s = 0) /\
      (e = 0 -> sr_dedt s = 0 /\ sr_se2 s = 0 /\ sr_se3 s = 0 /\ sr_ee2 s = 0 /\ sr_e3 s = 0) /\
      forall fs fm, let U := disturbing n sun (moon (day o) g) fs fm in
        let total c0 s2 s3 s4 m2 m3 m4 := c0 + n_sun * wave_rate s2 s3 s4 fs + n_moon * wave_rate m2 m3 m4 fm in
        exists Uw Uo Ui Ue,
          derivable_pt_lim (fun x => U (e ^ 2) i x om) w Uw /\ derivable_pt_lim (fun x => U (e ^ 2) i w x) om Uo /\
          derivable_pt_lim (fun x => U (e ^ 2) x w om) i Ui /\ derivable_pt_lim (fun x => U x i w om) (e ^ 2) Ue /\
          e * total (sr_dedt s) (sr_se2 s) (sr_se3 s) 0 (sr_ee2 s) (sr_e3 s) 0 = - beta * Uw /\
          sin i * total (sr_didt s) (sr_si2 s) (sr_si3 s) 0 (sr_xi2 s) (sr_xi3 s) 0 = (cos i * Uw - Uo) / beta /\
          total (sr_dmdt s) (sr_sl2 s) (sr_sl3 s) (sr_sl4 s) (sr_xl2 s) (sr_xl3 s) (sr_xl4 s) =
            - (4 * U (e ^ 2) i w om + 2 * beta ^ 2 * Ue) /\
          total (sr_domdt s + cos i * sr_dnodt s) (sr_sgh2 s) (sr_sgh3 s) (sr_sgh4 s) (sr_xgh2 s) (sr_xgh3 s) (sr_xgh4 s) =
            2 * beta * Ue /\
          total node_part (sr_sh2 s) (sr_sh3 s) 0 (sr_xh2 s) (sr_xh3 s) 0 = Ui / beta.
Proof.
  intros fuel s0 s o r H el HO HP n e beta i w om.
  destruct (sgp4init_coefs _ _ _ _ _ H HO) as (_ & _ & _ & _ & M). fold el in M.
  change (2 * PI / Str3.n el) with (period el) in M. rewrite Rle_bool_true in M by exact HP.
  destruct (sgp4init_deep_fields _ _ _ _ _ H M) as (u & _ & T & Z).
  assert (NN : brouwer_no o = n) by (apply initl_no_T, HO). unfold deep_dscom in T, Z. rewrite NN in T, Z.
  destruct HO as (_ & He & Hn). fold e in He. fold n in Hn.
  pose proof (third_body (in_epoch o) e w i om n He Hn o (drift_of s) u eq_refl) as (g & LG & Hs & A & B & C).
  change (in_xecco o) with e in T, Z. change (in_xargpo o) with w in T, Z. change (in_xinclo o) with i in T, Z.
  change (in_xnodeo o) with om in T, Z.
  set (D := dscom _) in *. set (q := deep_options o D (drift_of s) u) in *.
  destruct (dsinit_rates_eq q) as (Q1 & Q2 & Q3 & Q4 & Q5).
  assert (Y1 : sr_dedt s = rt_dedt (dsinit_rates q)) by (rewrite <- Q1; exact (f_equal z_dedt Z)).
  assert (Y2 : sr_didt s = rt_didt (dsinit_rates q)) by (rewrite <- Q2; exact (f_equal z_didt Z)).
  assert (Y3 : sr_dmdt s = rt_dmdt (dsinit_rates q)) by (rewrite <- Q3; exact (f_equal z_dmdt Z)).
  assert (Y4 : sr_dnodt s = rt_dnodt (dsinit_rates q)) by (rewrite <- Q4; exact (f_equal z_dnodt Z)).
  assert (Y5 : sr_domdt s = rt_domdt (dsinit_rates q)) by (rewrite <- Q5; exact (f_equal z_domdt Z)).
  clear Q1 Q2 Q3 Q4 Q5 Z.
  pose proof (f_equal k_se2 T) as T1. pose proof (f_equal k_se3 T) as T2. pose proof (f_equal k_ee2 T) as T3. pose proof (f_equal k_e3 T) as T4.
  pose proof (f_equal k_si2 T) as T5. pose proof (f_equal k_si3 T) as T6. pose proof (f_equal k_xi2 T) as T7. pose proof (f_equal k_xi3 T) as T8.
  pose proof (f_equal k_sl2 T) as T9. pose proof (f_equal k_sl3 T) as T10. pose proof (f_equal k_sl4 T) as T11.
  pose proof (f_equal k_xl2 T) as T12. pose proof (f_equal k_xl3 T) as T13. pose proof (f_equal k_xl4 T) as T14.
  pose proof (f_equal k_sgh2 T) as T15. pose proof (f_equal k_sgh3 T) as T16. pose proof (f_equal k_sgh4 T) as T17.
  pose proof (f_equal k_xgh2 T) as T18. pose proof (f_equal k_xgh3 T) as T19. pose proof (f_equal k_xgh4 T) as T20.
  pose proof (f_equal k_sh2 T) as T21. pose proof (f_equal k_sh3 T) as T22. pose proof (f_equal k_xh2 T) as T23. pose proof (f_equal k_xh3 T) as T24.
  clear T.
  cbn [third_of third_d k_se2 k_se3 k_ee2 k_e3 k_si2 k_si3 k_xi2 k_xi3 k_sl2 k_sl3 k_sl4 k_xl2 k_xl3 k_xl4 k_sgh2 k_sgh3 k_sgh4 k_xgh2 k_xgh3 k_xgh4 k_sh2 k_sh3 k_xh2 k_xh3] in *.
  clearbody D q.
  exists g. split; [exact LG|]. exists Hs.
  rewrite Y1, Y2, Y3, Y4, Y5, T1, T2, T3, T4, T5, T6, T7, T8, T9, T10, T11, T12, T13, T14, T15, T16, T17, T18, T19, T20, T21, T22, T23, T24.
  split; [exact A|]. split; [exact B|]. split.
  - destruct (C 0 0) as (a1 & a2 & a3 & a4 & _ & _ & _ & _ & _ & C1 & _). exact C1.
  - intros fs fm. cbv zeta. destruct (C fs fm) as (a1 & a2 & a3 & a4 & D1 & D2 & D3 & D4 & D5 & _ & D6 & D7 & D8 & D9).
    exists a1, a2, a3, a4. repeat split; assumption.
Qed.
Print Assumptions C51_lagrange_equations.

(** [potential] is the average over one revolution, by mean anomaly, of the quadrupole (3 (r.d)^2 - rho r^2)/2:
    an antiderivative of the integrand (in the eccentric anomaly) grows by 2 pi times it in one revolution. *)
Theorem C51_potential_is_orbit_average :
  forall (rho : R) (d : Vec3 R) (e i w om : R), 0 <= e < 1 ->
    exists F : R -> R,
      (forall E, derivable_pt_lim F E
        ((3 * dot (orbit_position e i w om E) d ^ 2
          - rho * dot (orbit_position e i w om E) (orbit_position e i w om E)) / 2 * dM_dE e E)) /\
      F (2 * PI) - F 0 = 2 * PI * potential rho d (e ^ 2) i w om.
Proof.
  intros rho d e i w om He.
  set (X := dot (perigee_dir i w om) d). set (Y := dot (ahead_dir i w om) d). set (b := sqrt (1 - e ^ 2)).
  assert (B2 : b ^ 2 = 1 - e ^ 2) by (unfold b; rewrite pow2_sqrt; [reflexivity|nra]).
  set (A0 := (3 * X ^ 2 * e ^ 2 + 3 * Y ^ 2 * b ^ 2 - rho) / 2).
  set (A1 := (3 * X ^ 2 * (- 2 * e - e ^ 3) - 3 * Y ^ 2 * b ^ 2 * e + 3 * rho * e) / 2).
  set (A2 := (3 * X ^ 2 * (1 + 2 * e ^ 2) - 3 * Y ^ 2 * b ^ 2 - 3 * rho * e ^ 2) / 2).
  set (A3 := (- 3 * X ^ 2 * e + 3 * Y ^ 2 * b ^ 2 * e + rho * e ^ 3) / 2).
  set (B0 := - 3 * X * Y * b * e). set (B1 := 3 * X * Y * b * (1 + e ^ 2)).
  exists (fun E => A0 * E + A1 * sin E + A2 * (E + sin E * cos E) / 2 + A3 * (sin E - sin E * sin E * sin E / 3)
                   - B0 * cos E - B1 * (cos E * cos E) / 2 - B0 * (cos E * cos E * cos E) / 3).
  split.
  - intros E.
    assert (PX : dot (orbit_position e i w om E) d = (cos E - e) * X + b * sin E * Y).
    { unfold X, Y, orbit_position, dot, plus, scale. cbn [v_x v_y v_z]. fold b. ring. }
    assert (PP : dot (orbit_position e i w om E) (orbit_position e i w om E) = (1 - e * cos E) ^ 2).
    { pose proof (sc2 w) as Ew. pose proof (sc2 om) as Eo. pose proof (sc2 i) as Ei. pose proof (sc2 E) as EE.
      unfold orbit_position, perigee_dir, ahead_dir, node_dir, trans_dir, dot, plus, scale. cbn [v_x v_y v_z]. fold b.
      ring [Ew Eo Ei EE B2]. }
    rewrite PX, PP. clear PX PP.
    assert (DS : derivable_pt_lim sin E (cos E)) by apply derivable_pt_lim_sin.
    assert (DC : derivable_pt_lim cos E (- sin E)) by apply derivable_pt_lim_cos.
    eapply dl_ext; [|eapply dl_val].
    2:{ apply (derivable_pt_lim_plus (fun E => A0 * id E + A1 * sin E) (fun E => A2 / 2 * (id E + sin E * cos E) +
          (A3 * (sin E - 1 / 3 * (sin E * sin E * sin E)) + (- B0 * cos E + (- B1 / 2 * (cos E * cos E) + - B0 / 3 * (cos E * cos E * cos E)))))).
        - apply (dl_sum A0 A1 id sin); [apply derivable_pt_lim_id|exact DS].
        - apply (derivable_pt_lim_plus (fun E => A2 / 2 * (id E + sin E * cos E))).
          + apply (derivable_pt_lim_scal (fun E => id E + sin E * cos E)). apply (derivable_pt_lim_plus id (fun E => sin E * cos E)); [apply derivable_pt_lim_id|].
            apply (derivable_pt_lim_mult sin cos); [exact DS|exact DC].
          + apply (derivable_pt_lim_plus (fun E => A3 * (sin E - 1 / 3 * (sin E * sin E * sin E)))).
            * apply (derivable_pt_lim_scal (fun E => sin E - 1 / 3 * (sin E * sin E * sin E))).
              apply (derivable_pt_lim_minus sin (fun E => 1 / 3 * (sin E * sin E * sin E))); [exact DS|].
              apply (derivable_pt_lim_scal (fun E => sin E * sin E * sin E)).
              apply (derivable_pt_lim_mult (fun E => sin E * sin E) sin); [|exact DS].
              apply (derivable_pt_lim_mult sin sin); exact DS.
            * apply (derivable_pt_lim_plus (fun E => - B0 * cos E)); [apply derivable_pt_lim_scal, DC|].
              apply (derivable_pt_lim_plus (fun E => - B1 / 2 * (cos E * cos E))).
              -- apply (derivable_pt_lim_scal (fun E => cos E * cos E)). apply (derivable_pt_lim_mult cos cos); exact DC.
              -- apply (derivable_pt_lim_scal (fun E => cos E * cos E * cos E)).
                 apply (derivable_pt_lim_mult (fun E => cos E * cos E) cos); [|exact DC].
                 apply (derivable_pt_lim_mult cos cos); exact DC. }
    + intros y. unfold plus_fct, id. field.
    + pose proof (sc2 E) as EE. unfold dM_dE, A0, A1, A2, A3, B0, B1. field [EE].
  - replace (sin (2 * PI)) with 0 by (symmetry; apply sin_2PI). rewrite cos_2PI, sin_0, cos_0.
    unfold potential. fold X Y. unfold A0, A2. rewrite B2. field.
Qed.
Print Assumptions C51_potential_is_orbit_average.

(** The phases of the two bodies at epoch, and nothing is subtracted at epoch. *)
Theorem C51_epoch_phases :
  forall (fuel : nat) (s0 s : Satrec R) (o : SGP4InitOptions R) r,
    sgp4init fuel s0 o = Done (s, r) -> orbital (elements o) -> 225 <= period (elements o) ->
    (exists k : Z, sr_zmos s = 6.2565837 + 0.017201977 * day o + 2 * PI * IZR k) /\
    (exists k : Z, sr_zmol s = 4.7199672 + 0.22997150 * day o - perigee_long (day o) + 2 * PI * IZR k) /\
    Rabs (sr_zmos s) < 2 * PI /\ Rabs (sr_zmol s) < 2 * PI /\
    sr_peo s = 0 /\ sr_pinco s = 0 /\ sr_plo s = 0 /\ sr_pgho s = 0 /\ sr_pho s = 0.
Proof.
  intros fuel s0 s o r H HO HP.
  destruct (sgp4init_coefs _ _ _ _ _ H HO) as (_ & _ & _ & _ & M).
  change (2 * PI / Str3.n (elements o)) with (period (elements o)) in M. rewrite Rle_bool_true in M by exact HP.
  destruct (sgp4init_deep_fields _ _ _ _ _ H M) as (u & _ & T & _).
  pose proof (f_equal k_zmos T) as T1. pose proof (f_equal k_zmol T) as T2. pose proof (f_equal k_peo T) as T3. pose proof (f_equal k_pinco T) as T4.
  pose proof (f_equal k_plo T) as T5. pose proof (f_equal k_pgho T) as T6. pose proof (f_equal k_pho T) as T7. clear T.
  cbn [third_of third_d k_zmos k_zmol k_peo k_pinco k_plo k_pgho k_pho] in *. rewrite T1, T2, T3, T4, T5, T6, T7.
  destruct (lunar_T (in_epoch o) (in_xecco o) (in_xargpo o) (in_xinclo o) (in_xnodeo o) (brouwer_no o)) as (LD & LG & _).
  cbv zeta in LD, LG. fold (day o) in LD, LG.
  set (op := MkDscomOptions _ _ _ _ _ _ _) in *. unfold deep_dscom. fold op.
  assert (E1 : dr_zmos (dscom op) = Rrem (62565837 / 10000000 + 17201977 / 1000000000 * dl_day (dscom_lunar op)) (@kTWO_PI R ROps)) by reflexivity.
  assert (E2 : dr_zmol (dscom op) = Rrem (47199672 / 10000000 + (2299715 / 10000000 * dl_day (dscom_lunar op) - dl_gam (dscom_lunar op))) (@kTWO_PI R ROps)) by reflexivity.
  rewrite E1, E2, LD, LG, kTWO_PI_R.
  assert (PP : 0 < 2 * PI) by (pose proof PI_RGT_0; lra).
  assert (LT : forall x, Rabs (Rrem x (2 * PI)) < 2 * PI).
  { intros x. rewrite <- (Rabs_pos_eq (2 * PI)) at 2 by lra. apply B64Rem.Rrem_lt. lra. }
  split.
  { destruct (rem_turns (62565837 / 10000000 + 17201977 / 1000000000 * day o)) as [k ->]. exists k. dec. field. }
  split.
  { destruct (rem_turns (47199672 / 10000000 + (2299715 / 10000000 * day o - perigee_long (day o)))) as [k ->]. exists k. dec. field. }
  split; [apply LT|]. split; [apply LT|]. repeat split; reflexivity.
Qed.
Print Assumptions C51_epoch_phases.

(** Non-vacuity: a satellite at 4 earth radii, eccentricity up to 0.28, any inclination, epoch and angles, is
    initialised as a deep-space one. *)
Example C51_example :
  forall ep e i w M nd, 0 <= e <= 7 / 25 -> exists s r,
    sgp4init 0 satrec_zero (dso ep e i w M nd) = Done (s, r) /\
    orbital (elements (dso ep e i w M nd)) /\ 225 <= period (elements (dso ep e i w M nd)).
Proof.
  intros ep e i w M nd He. destruct (dso_done 0 satrec_zero ep e i w M nd He) as (s & r & H & _).
  exists s, r. split; [exact H|]. apply dso_orbital. exact He.
Qed.
