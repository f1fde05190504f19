(** * C49: initialisation computes the coefficients of the published theory *)
From Coq Require Import ZArith List Bool Reals Lra.
From Flocq Require Import Core.Raux.
From Verif.Model Require Import Float Str Satrec Constants Sgp4 Sgp4init.
From Verif.Inst Require Import RInst RTac.
From Verif.Proofs Require Import InitElems Str3Init.
From Verif.Spec Require Import Str3Api.
From Verif.Spec Require Str3.
From Verif.Props Require Import C13.
Local Open Scope R_scope.

(** The record keeps the elements handed in, with the mean motion replaced by the recovered one, and the
    secular rates and drag coefficients of the theory. *)
Theorem C49_secular_coefficients :
  forall (fuel : nat) (s0 s : Satrec R) (o : SGP4InitOptions R) r,
    sgp4init fuel s0 o = Done (s, r) ->
    let el := elements o in
    orbital el ->
    (sr_no s = Str3.n el /\ sr_ecco s = Str3.e0 el /\ sr_inclo s = Str3.i0 el /\ sr_mo s = Str3.M0 el /\
     sr_argpo s = Str3.w0 el /\ sr_nodeo s = Str3.node0 el /\ sr_bstar s = Str3.Bstar el) /\
    (sr_mdot s = Str3.Mdot el /\ sr_argpdot s = Str3.wdot el /\ sr_nodedot s = Str3.nodedot el) /\
    (sr_cc1 s = Str3.C1 el /\ sr_cc4 s = Str3.C4 el /\ sr_cc5 s = Str3.C5 el /\ sr_eta s = Str3.eta el /\
     sr_omgcof s = Str3.Bstar el * Str3.C3 el * cos (Str3.w0 el) /\
     sr_xmcof s = Str3.eccentric el (- (2 / 3) * Str3.Q el * Str3.Bstar el / (Str3.e0 el * Str3.eta el)) 0 /\
     sr_nodecf s = - (21 / 2) * (Str3.n el * Str3.k2 * Str3.theta el / (Str3.a el ^ 2 * Str3.beta0 el ^ 2)) * Str3.C1 el /\
     sr_t2cof s = 3 / 2 * Str3.C1 el /\
     sr_delmo s = (1 + Str3.eta el * cos (Str3.M0 el)) ^ 3 /\ sr_sinmao s = sin (Str3.M0 el)).
Proof.
  intros fuel s0 s o r H el HO. destruct (sgp4init_coefs _ _ _ _ _ H HO) as (C & _).
  destruct (sgp4init_elems _ _ _ _ _ H) as [E _]. unfold elems_of in E. injection E as E1 E2 E3 E4 E5 E6 E7 _ _ _.
  rewrite E1, E2, E3, E4, E5, E6, E7. unfold coefs_of, coefs_T in C. injection C as -> -> -> -> -> -> -> -> -> -> -> -> ->.
  split; [|repeat split]. split; [apply initl_no_T, HO|repeat split].
Qed.
Print Assumptions C49_secular_coefficients.

(** Period at least 225 minutes: deep space, simplified drag.  Otherwise near-earth, with the inclination and
    long-period constants of the theory; from 220 km perigee height on the full drag model, with its
    higher-order coefficients. *)
Theorem C49_near_earth_coefficients :
  forall (fuel : nat) (s0 s : Satrec R) (o : SGP4InitOptions R) r,
    sgp4init fuel s0 o = Done (s, r) ->
    let el := elements o in
    orbital el ->
    (225 <= period el -> sr_method s = MethodD /\ sr_isimp s = 1%Z) /\
    (period el < 225 ->
       sr_method s = MethodN /\
       (sr_con41 s = 3 * Str3.theta el ^ 2 - 1 /\ sr_x1mth2 s = 1 - Str3.theta el ^ 2 /\
        sr_x7thm1 s = 7 * Str3.theta el ^ 2 - 1 /\
        sr_aycof s = Str3.A30 / (4 * Str3.k2) * sin (Str3.i0 el) /\
        sr_xlcof s = Str3.A30 / (8 * Str3.k2) * sin (Str3.i0 el) *
          ((3 + 5 * Str3.theta el) / Str3.one_plus_theta (Str3.i0 el))) /\
       (Str3.perigee_height el < 220 -> sr_isimp s = 1%Z) /\
       (220 <= Str3.perigee_height el ->
          sr_isimp s = 0%Z /\ sr_d2 s = Str3.D2 el /\ sr_d3 s = Str3.D3 el /\ sr_d4 s = Str3.D4 el /\
          sr_t3cof s = Str3.D2 el + 2 * Str3.C1 el ^ 2 /\
          sr_t4cof s = 1 / 4 * (3 * Str3.D3 el + 12 * Str3.C1 el * Str3.D2 el + 10 * Str3.C1 el ^ 3) /\
          sr_t5cof s = 1 / 5 * (3 * Str3.D4 el + 12 * Str3.C1 el * Str3.D3 el + 6 * Str3.D2 el ^ 2
                                + 30 * Str3.C1 el ^ 2 * Str3.D2 el + 15 * Str3.C1 el ^ 4))).
Proof.
  intros fuel s0 s o r H el HO. destruct (sgp4init_coefs _ _ _ _ _ H HO) as (_ & I & G & SI & M). fold el in I, G, SI, M.
  change (2 * PI / Str3.n el) with (period el) in SI, M. split.
  - intros P. rewrite Rle_bool_true in M, SI by exact P. now split.
  - intros P. rewrite Rle_bool_false in M, SI by exact P. cbn [orb] in SI. split; [exact M|]. split.
    + specialize (I M). unfold incl_of, incl_T' in I. injection I as -> -> -> -> ->. repeat split.
    + split; intros Q.
      * rewrite Rlt_bool_true in SI by exact Q. exact SI.
      * rewrite Rlt_bool_false in SI by exact Q. split; [exact SI|]. rewrite SI in G. specialize (G ltac:(discriminate)).
        unfold high_of, high_T in G. injection G as -> -> -> -> -> ->. repeat split.
Qed.
Print Assumptions C49_near_earth_coefficients.

(** Non-vacuity: the elements of C13's example, with any drag term, meet the hypotheses. *)
Example C49_example :
  forall b, orbital (elements (ro b)) /\ period (elements (ro b)) < 225 /\
    exists s r, sgp4init 0 satrec_zero (ro b) = Done (s, r).
Proof.
  intros b. assert (P : 74 / 1000 < Str3.n (elements (ro b)) < 75 / 1000).
  { rewrite <- (initl_no_T (ro b)); [apply ro_no|].
    assert (0 < Str3.n0 (elements (ro b))) by (cbn [elements ro Str3.n0 in_xno]; rewrite kXKE_R; lra).
    assert (0 < 1 + Str3.d0 (elements (ro b))).
    2:{ split; [assumption|]. split; [cbn; lra|]. unfold Str3.n. now apply Rdiv_lt_0_compat. }
    assert (0 <= Str3.d0 (elements (ro b))); [|lra].
    unfold Str3.d0, Str3.kozai, Str3.theta, Str3.beta0, Str3.k2, Str3.J2. cbn [elements ro Str3.e0 Str3.i0 in_xecco in_xinclo].
    rewrite cos_0. replace (1 - 0 ^ 2) with 1 by ring. rewrite sqrt_1. rewrite !pow1.
    apply Rle_mult_inv_pos; [|lra]. apply Rmult_le_pos; [|lra].
    unfold Rdiv. apply Rmult_le_pos; [lra|]. destruct (Req_dec (Str3.a0 (elements (ro b)) ^ 2) 0) as [->|N].
    - rewrite Rinv_0. lra.
    - apply Rlt_le, Rinv_0_lt_compat. pose proof (pow2_ge_0 (Str3.a0 (elements (ro b)))). lra. }
  split; [|split].
  - split; [cbn [elements ro Str3.n0 in_xno]; rewrite kXKE_R; lra|]. split; [cbn; lra|lra].
  - unfold period. pose proof PI_4. pose proof PI_RGT_0. apply Rmult_lt_reg_r with (Str3.n (elements (ro b))); [lra|].
    unfold Rdiv. rewrite Rmult_assoc, Rinv_l by lra. lra.
  - apply ro_done.
Qed.
