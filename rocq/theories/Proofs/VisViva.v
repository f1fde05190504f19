(** * Energy and angular momentum of corrected Kepler motion (exact arithmetic) *)
From Coq Require Import Reals Lra Psatz.
From Flocq Require Import Core.Raux.
Local Open Scope R_scope.

(** Scale-free core.  [b] is sqrt (1 - e^2), [C] and [S] are e cos E and e sin E, [rho] = 1 - C; [x] is the size of
    the corrections, [s] the squared sine of the inclination, [cu], [su] cosine and sine of twice the latitude. *)
Section Core.
Variables b C S rho x s cu su : R.
Hypothesis Hb : 0 < b <= 1.
Hypothesis HCS : C * C + S * S = 1 - b * b.
Hypothesis Hrho : rho = 1 - C.
Hypothesis Hx : 0 <= x <= 1 / 1000.
Hypothesis Hs : 0 <= s <= 1.
Hypothesis Hcs : cu * cu + su * su = 1.
Let k := s * cu - 3 / 2 * (1 - 3 * (1 - s)).
Let delta := x * (- (3 / 2) * b * (3 * (1 - s) - 1) + b * b / (2 * rho) * s * cu).

Lemma core_C : -1 < C < 1.
Proof. nra. Qed.
Lemma core_rho : 0 < rho < 2.
Proof. pose proof core_C. lra. Qed.
Lemma core_b2 : b * b <= 2 * rho.
Proof. pose proof core_C. nra. Qed.
Lemma core_cu : -1 <= cu <= 1.
Proof. nra. Qed.
Lemma core_kk : s * su * (s * su) + k * k <= 9.
Proof.
  pose proof core_cu. unfold k. assert (E : s * su * (s * su) = s * s * (1 - cu * cu)) by (rewrite <- Hcs; ring). rewrite E.
  assert (Q : s * s * (1 - cu * cu) + (s * cu - 3 / 2 * (1 - 3 * (1 - s))) * (s * cu - 3 / 2 * (1 - 3 * (1 - s))) = s * s + 9 / 4 * (2 - 3 * s) * (2 - 3 * s) + 3 * s * (2 - 3 * s) * cu) by field. rewrite Q.
  destruct (Rle_dec 0 (2 - 3 * s)); nra.
Qed.
Lemma core_k : Rabs k <= 3.
Proof. pose proof core_kk. apply Rabs_le. assert (0 <= s * su * (s * su)) by nra. nra. Qed.
Lemma core_delta : Rabs delta <= 3 * x.
Proof.
  pose proof core_rho as P. pose proof core_b2 as Q. pose proof core_cu as W.
  assert (G : 0 <= b * b / (2 * rho) <= 1).
  { split; [apply Rmult_le_pos; [nra|left; apply Rinv_0_lt_compat; lra]|]. apply Rmult_le_reg_r with (2 * rho); [lra|]. unfold Rdiv. rewrite Rmult_assoc, Rinv_l by lra. lra. }
  unfold delta. rewrite Rabs_mult, (Rabs_pos_eq x) by lra. rewrite (Rmult_comm 3 x). apply Rmult_le_compat_l; [lra|].
  set (g := b * b / (2 * rho)) in *. clearbody g. apply Rabs_le.
  assert (A : - s <= g * s * cu <= s) by (assert (0 <= g * s <= s) by nra; nra).
  destruct (Rle_dec 0 (3 * (1 - s) - 1)); nra.
Qed.
Lemma core_cross : Rabs (- (s * su) * S + b * k) <= 3.
Proof.
  pose proof core_kk as K. apply Rabs_le.
  assert (Z : (- (s * su) * S + b * k) * (- (s * su) * S + b * k) <= 9).
  { assert (E : (- (s * su) * S + b * k) * (- (s * su) * S + b * k) + (s * su * b + k * S) * (s * su * b + k * S) = (s * su * (s * su) + k * k) * (S * S + b * b)) by ring.
    assert (S * S + b * b = 1 - C * C) by lra. assert (0 <= C * C) by nra. assert (0 <= s * su * (s * su) + k * k) by nra.
    assert ((s * su * (s * su) + k * k) * (S * S + b * b) <= 9 * 1) by (apply Rmult_le_compat; nra). pose proof (Rle_0_sqr (s * su * b + k * S)) as Q. unfold Rsqr in Q. lra. }
  nra.
Qed.

(** kinetic minus potential energy against that of the uncorrected ellipse *)
Lemma core_energy :
  let rd := S / rho - x * (b * b) * (s * su) in let rf := b / rho + x * (b * b) * k in let R := rho * (1 + delta) in
  0 < R /\ Rabs ((rd * rd + rf * rf) / 2 - 1 / R + 1 / 2) <= 602 / 100 * x * (1 / R).
Proof.
  intros rd rf R. pose proof core_rho as P. pose proof core_delta as D. apply Rabs_le_inv in D. pose proof core_cross as X. pose proof core_kk as K.
  assert (D1 : 0 < 1 + delta) by lra. assert (RP : 0 < R) by (unfold R; nra). split; [exact RP|].
  assert (I : 1 / R = / rho * / (1 + delta)) by (unfold R; field; lra).
  assert (E : (rd * rd + rf * rf) / 2 - 1 / R + 1 / 2 =
    x * (b * b) * / rho * (- (s * su) * S + b * k) + x * x * (b * b * (b * b)) / 2 * (s * su * (s * su) + k * k) + delta * (1 / R)).
  { rewrite I. unfold rd, rf. assert (C1 : S * S + b * b = (1 - C) * (1 + C)) by (ring_simplify; lra). rewrite <- Hrho in C1. assert (C2 : 1 + C = 2 - rho) by lra. rewrite C2 in C1.
    assert (L : (S / rho - x * (b * b) * (s * su)) * (S / rho - x * (b * b) * (s * su)) + (b / rho + x * (b * b) * k) * (b / rho + x * (b * b) * k) =
      (S * S + b * b) / (rho * rho) + 2 * (x * (b * b) * / rho * (- (s * su) * S + b * k)) + x * x * (b * b * (b * b)) * (s * su * (s * su) + k * k)) by (field; lra).
    rewrite L, C1. field. lra. }
  rewrite E. clear E. set (z := 1 / R) in *. assert (Z : 0 < z) by (unfold z; apply Rdiv_lt_0_compat; lra).
  assert (IR : / rho = z * (1 + delta)) by (rewrite I; field; lra).
  assert (B : 0 <= b * b <= 1) by nra.
  assert (T1 : Rabs (x * (b * b) * / rho * (- (s * su) * S + b * k)) <= 3009 / 1000 * x * z).
  { rewrite Rabs_mult. assert (0 <= x * (b * b) <= x) by nra. rewrite (Rabs_pos_eq (x * (b * b) * / rho)) by (rewrite IR; apply Rmult_le_pos; [lra|nra]).
    apply Rle_trans with (x * (b * b) * / rho * 3); [apply Rmult_le_compat_l; [rewrite IR; apply Rmult_le_pos; [lra|nra]|exact X]|]. rewrite IR.
    assert (x * (b * b) * (z * (1 + delta)) <= x * (z * (1003 / 1000))); [apply Rmult_le_compat; try nra|]. lra. }
  assert (T2 : 0 <= x * x * (b * b * (b * b)) / 2 * (s * su * (s * su) + k * k) <= 10 * x * x * z).
  { assert (0 <= b * b * (b * b) <= 1) by nra. assert (ZB : 1 <= 2 * (z * (1003 / 1000))).
    { assert (/ 2 <= / rho) by (apply Rinv_le; lra). assert (z * (1 + delta) <= z * (1003 / 1000)) by nra. lra. }
    assert (0 <= s * su * (s * su) + k * k) by nra. assert (0 <= x * x) by nra. split; [apply Rmult_le_pos; [|lra]; apply Rmult_le_pos; [|lra]; apply Rmult_le_pos; lra|].
    apply Rle_trans with (x * x * 1 / 2 * 9); [apply Rmult_le_compat; try lra; [apply Rmult_le_pos; [apply Rmult_le_pos; lra|lra]|nra]|]. nra. }
  assert (T3 : Rabs (delta * z) <= 3 * x * z) by (rewrite Rabs_mult, (Rabs_pos_eq z) by lra; apply Rmult_le_compat_r; [lra|apply Rabs_le; lra]).
  assert (XZ : 0 <= x * z) by nra. assert (T4 : x * (x * z) <= 1 / 1000 * (x * z)) by (apply Rmult_le_compat_r; lra).
  apply Rabs_le_inv in T1, T3. apply Rabs_le. split; lra.
Qed.

(** angular momentum against that of the uncorrected ellipse *)
Lemma core_momentum :
  let rf := b / rho + x * (b * b) * k in let R := rho * (1 + delta) in Rabs (R * rf - b) <= 7 * x * b.
Proof.
  intros rf R. pose proof core_rho as P. pose proof core_delta as D. pose proof core_k as K. pose proof core_C as HC.
  assert (G : 0 <= rho * b <= 13 / 10).
  { split; [nra|]. assert (rho * b * (rho * b) <= 169 / 100).
    { assert (BB : b * b <= 1 - C * C) by nra. apply Rle_trans with (rho * rho * (1 - C * C)); [nra|]. rewrite Hrho.
      assert (H : (1 - C) * (1 - C) * (1 - C * C) = 27 / 16 - (1 + 2 * C) * (1 + 2 * C) * ((C - 3 / 2) * (C - 3 / 2) + 1 / 2) / 4) by field.
      rewrite H. assert (0 <= (1 + 2 * C) * (1 + 2 * C) * ((C - 3 / 2) * (C - 3 / 2) + 1 / 2)); [pose proof (Rle_0_sqr (1 + 2 * C)) as Q1; pose proof (Rle_0_sqr (C - 3 / 2)) as Q2; unfold Rsqr in Q1, Q2; apply Rmult_le_pos; lra|lra]. }
    nra. }
  assert (E : R * rf - b = b * (delta + (1 + delta) * (x * (rho * b * k)))) by (unfold R, rf; field; lra).
  rewrite E, Rabs_mult, (Rabs_pos_eq b) by lra. rewrite (Rmult_comm (7 * x) b). apply Rmult_le_compat_l; [lra|].
  apply Rabs_le_inv in D, K. assert (M : Rabs (rho * b * k) <= 39 / 10) by (apply Rabs_le; split; nra). apply Rabs_le_inv in M. set (m := rho * b * k) in *. clearbody m.
  assert (N : Rabs (x * m) <= 39 / 10 * x) by (apply Rabs_le; split; nra). apply Rabs_le_inv in N. set (y := x * m) in *. clearbody y. set (d := delta) in *. clearbody d.
  assert (Y : Rabs (d * y) <= 12 / 1000 * x) by (rewrite Rabs_mult; apply Rle_trans with (3 / 1000 * (39 / 10 * x)); [apply Rmult_le_compat; try apply Rabs_pos; apply Rabs_le; lra|lra]). apply Rabs_le_inv in Y.
  apply Rabs_le. lra.
Qed.
End Core.

(** ** The theory's states *)
From Verif.Model Require Import Float Vec3.
From Verif.Inst Require Import RInst RTac.
From Verif.Spec Require Import Vectors3 Energy StateSpec.
From Verif.Spec Require Str3.
From Verif.Proofs Require Import FrameR.

Section States.
Variable el : Str3.Elements.
Variable full : bool.
Variables t de i E u : R.
Notation at_ := (Str3.at_ el full t).
Notation pL := (Str3.pL el full t de i).
Notation eL2 := (Str3.eL2 el full t de i).
Notation rk := (Str3.rk el full t de i E u).
Notation rdotk := (Str3.rdotk el full t de i E u).
Notation rfdotk := (Str3.rfdotk el full t de i E u).
Notation position := (Str3.position el full t de i E u).
Notation velocity := (Str3.velocity el full t de i E u).

Lemma Uvec_radial : Str3.Uvec el full t de i u = radial (Str3.uk el full t de i u) (Str3.nodek el full t de i u) (Str3.ik el full t de i u).
Proof. unfold Str3.Uvec, Str3.Mvec, Str3.Nvec, radial, plus, scale. cbn [v_x v_y v_z]. rops. f_equal; ring. Qed.
Lemma Vvec_transverse : Str3.Vvec el full t de i u = transverse (Str3.uk el full t de i u) (Str3.nodek el full t de i u) (Str3.ik el full t de i u).
Proof. unfold Str3.Vvec, Str3.Mvec, Str3.Nvec, transverse, plus, scale. cbn [v_x v_y v_z]. rops. f_equal; ring. Qed.

Lemma norm_position : 0 < rk -> norm position = Str3.aE * rk.
Proof.
  intros H. unfold Str3.position. rewrite Uvec_radial, norm_scale. unfold norm. rewrite frame_uu, sqrt_1, Rmult_1_r. apply Rabs_pos_eq.
  assert (0 < Str3.aE) by (unfold Str3.aE; lra). nra.
Qed.
Lemma norm_velocity2 : norm velocity ^ 2 = (Str3.aE / 60) ^ 2 * (rdotk * rdotk + rfdotk * rfdotk).
Proof.
  unfold norm. rewrite pow2_sqrt; [|unfold dot; nra]. unfold Str3.velocity. rewrite Uvec_radial, Vvec_transverse.
  set (U := radial _ _ _). set (V := transverse _ _ _). assert (UU : dot U U = 1) by apply frame_uu. assert (VV : dot V V = 1) by apply frame_vv. assert (UV : dot U V = 0) by apply frame_uv.
  rewrite dot_plus_l, !dot_plus_r, !dot_scale_l, !dot_scale_r, UU, VV, UV, (dot_comm V U), UV. ring.
Qed.
Lemma norm_cross : 0 < rk -> norm (cross position velocity) = Str3.aE ^ 2 / 60 * Rabs (rk * rfdotk).
Proof.
  intros H. unfold Str3.position, Str3.velocity. rewrite Uvec_radial, Vvec_transverse, cross_lin, frame_cross, norm_scale.
  unfold norm. rewrite frame_nn, sqrt_1, Rmult_1_r. replace (Str3.aE * rk * (Str3.aE / 60 * rfdotk)) with (Str3.aE ^ 2 / 60 * (rk * rfdotk)) by (unfold Rdiv; ring).
  rewrite Rabs_mult. f_equal. apply Rabs_pos_eq. unfold Str3.aE. lra.
Qed.

Hypothesis AP : 0 < Str3.a el.
Hypothesis PL : 737 / 1000 <= pL.

Lemma vv_at : 0 < at_ /\ 0 < 1 - eL2 <= 1.
Proof.
  assert (A0 : 0 <= at_). { unfold Str3.at_. apply Rmult_le_pos; [lra|]. apply pow2_ge_0. }
  assert (E0 : 0 <= eL2). { unfold Str3.eL2. pose proof (pow2_ge_0 (Str3.axN el full t de)). pose proof (pow2_ge_0 (Str3.ayN el full t de i)). lra. }
  pose proof PL as P. unfold Str3.pL in P. assert (0 < at_) by (destruct A0 as [A0|A0]; [exact A0|rewrite <- A0 in P; lra]).
  split; [assumption|]. split; [|lra]. destruct (Rlt_le_dec 0 (1 - eL2)) as [K|K]; [exact K|]. assert (at_ * (1 - eL2) <= 0) by nra. lra.
Qed.

Lemma k2_x : 0 <= Str3.k2 / pL ^ 2 <= 1 / 1000.
Proof.
  assert (0 < Str3.k2 <= 5414 / 10000000) by (unfold Str3.k2, Str3.J2; lra). assert (P2 : 543169 / 1000000 <= pL ^ 2) by nra.
  split; [apply Rmult_le_pos; [lra|left; apply Rinv_0_lt_compat; lra]|]. apply Rmult_le_reg_r with (pL ^ 2); [lra|]. unfold Rdiv. rewrite Rmult_assoc, Rinv_l by lra. lra.
Qed.

(** the core applied: energy and angular momentum in the theory's units *)
Lemma theory_energy :
  let x := Str3.k2 / pL ^ 2 in
  0 < rk /\ rk <= 21 / 10 * at_ /\ 997 / 1000 * Str3.r el full t de i E <= rk /\
  Rabs ((rdotk * rdotk + rfdotk * rfdotk) / (2 * Str3.ke ^ 2) - 1 / rk + 1 / (2 * at_)) <= 602 / 100 * x * (1 / rk) /\
  Rabs (rk * rfdotk / Str3.ke - sqrt pL) <= 7 * x * sqrt pL.
Proof.
  intros x. destruct vv_at as (A & B1). pose proof k2_x as HX. fold x in HX.
  set (q := sqrt at_). assert (Q : 0 < q) by (apply sqrt_lt_R0; exact A). assert (QQ : at_ = q * q) by (symmetry; apply sqrt_sqrt; lra).
  set (b := sqrt (1 - eL2)). assert (Hb : 0 < b <= 1) by (split; [apply sqrt_lt_R0; lra|rewrite <- sqrt_1; apply sqrt_le_1; lra]). assert (BB : 1 - eL2 = b * b) by (symmetry; apply sqrt_sqrt; lra).
  set (C := Str3.e_cosE el full t de i E). set (S := Str3.e_sinE el full t de i E).
  assert (HCS : C * C + S * S = 1 - b * b).
  { rewrite <- BB. unfold C, S, Str3.e_cosE, Str3.e_sinE, Str3.eL2. pose proof (sin2_cos2 E) as K. unfold Rsqr in K.
    set (ax := Str3.axN el full t de). set (ay := Str3.ayN el full t de i). replace ((ax * cos E + ay * sin E) * (ax * cos E + ay * sin E) + (ax * sin E - ay * cos E) * (ax * sin E - ay * cos E)) with ((ax ^ 2 + ay ^ 2) * (sin E * sin E + cos E * cos E)) by ring. rewrite K. ring. }
  set (rho := 1 - C). assert (Hs : 0 <= 1 - cos i ^ 2 <= 1). { pose proof (sin2_cos2 i) as K. unfold Rsqr in K. nra. }
  assert (Hcs : cos (2 * u) * cos (2 * u) + sin (2 * u) * sin (2 * u) = 1). { pose proof (sin2_cos2 (2 * u)) as K. unfold Rsqr in K. lra. }
  pose proof (core_rho b C S rho Hb HCS eq_refl) as RP.
  destruct (core_energy b C S rho x (1 - cos i ^ 2) (cos (2 * u)) (sin (2 * u)) Hb HCS eq_refl HX Hs Hcs) as (R0 & EN).
  pose proof (core_momentum b C S rho x (1 - cos i ^ 2) (cos (2 * u)) (sin (2 * u)) Hb HCS eq_refl HX Hs Hcs) as MO. cbv zeta in R0, EN, MO.
  pose proof (core_delta b C S rho x (1 - cos i ^ 2) (cos (2 * u)) (sin (2 * u)) Hb HCS eq_refl HX Hs Hcs) as DE. apply Rabs_le_inv in DE.
  set (d := x * (- (3 / 2) * b * (3 * (1 - (1 - cos i ^ 2)) - 1) + b * b / (2 * rho) * (1 - cos i ^ 2) * cos (2 * u))) in *.
  set (kk := (1 - cos i ^ 2) * cos (2 * u) - 3 / 2 * (1 - 3 * (1 - (1 - cos i ^ 2)))) in *.
  assert (PQ : pL = q * q * (b * b)) by (unfold Str3.pL; rewrite <- QQ, <- BB; reflexivity).
  assert (XQ : Str3.k2 = x * (q * q * (b * b)) ^ 2) by (unfold x; rewrite PQ; field; lra).
  assert (RR : Str3.r el full t de i E = q * q * rho) by (unfold Str3.r; fold C; rewrite QQ; reflexivity).
  assert (RK : rk = q * q * (rho * (1 + d))).
  { unfold Str3.rk. rewrite RR. fold b. rewrite PQ, XQ. unfold d. field. repeat split; lra. }
  assert (KE : 0 < Str3.ke) by (unfold Str3.ke; lra).
  assert (SP : sqrt pL = q * b) by (rewrite PQ; replace (q * q * (b * b)) with ((q * b) * (q * b)) by ring; apply sqrt_square; nra).
  assert (NT : Str3.nt el full t = Str3.ke / q ^ 3) by reflexivity.
  assert (RD : rdotk = Str3.ke / q * (S / rho - x * (b * b) * ((1 - cos i ^ 2) * sin (2 * u)))).
  { unfold Str3.rdotk, Str3.rdot. rewrite RR, NT. fold q S. rewrite PQ, XQ. field. repeat split; lra. }
  assert (RF : rfdotk = Str3.ke / q * (b / rho + x * (b * b) * kk)).
  { unfold Str3.rfdotk, Str3.rfdot. rewrite RR, NT, SP. rewrite PQ, XQ. unfold kk. field. repeat split; lra. }
  assert (Q2 : 0 < q * q) by nra.
  split; [rewrite RK; nra|]. split. { rewrite RK, QQ. assert (rho * (1 + d) <= 2 * (1003 / 1000)) by (apply Rmult_le_compat; lra). nra. }
  split. { rewrite RK, RR. assert (rho * (997 / 1000) <= rho * (1 + d)) by (apply Rmult_le_compat_l; lra). replace (997 / 1000 * (q * q * rho)) with (q * q * (rho * (997 / 1000))) by ring. apply Rmult_le_compat_l; lra. }
  set (rdc := S / rho - x * (b * b) * ((1 - cos i ^ 2) * sin (2 * u))) in *. set (rfc := b / rho + x * (b * b) * kk) in *. set (RRR := rho * (1 + d)) in *. clearbody rdc rfc RRR d kk C S rho x.
  split.
  - rewrite RK, RD, RF, QQ. replace ((Str3.ke / q * rdc * (Str3.ke / q * rdc) + Str3.ke / q * rfc * (Str3.ke / q * rfc)) / (2 * Str3.ke ^ 2) - 1 / (q * q * RRR) + 1 / (2 * (q * q)))
      with (/ (q * q) * ((rdc * rdc + rfc * rfc) / 2 - 1 / RRR + 1 / 2)) by (field; repeat split; lra).
    replace (602 / 100 * x * (1 / (q * q * RRR))) with (/ (q * q) * (602 / 100 * x * (1 / RRR))) by (field; repeat split; lra).
    assert (0 < / (q * q)) by (apply Rinv_0_lt_compat; exact Q2). rewrite Rabs_mult, (Rabs_pos_eq (/ (q * q))) by lra. apply Rmult_le_compat_l; [lra|exact EN].
  - rewrite RK, RF, SP. replace (q * q * RRR * (Str3.ke / q * rfc) / Str3.ke - q * b) with (q * (RRR * rfc - b)) by (field; repeat split; lra).
    replace (7 * x * (q * b)) with (q * (7 * x * b)) by ring. rewrite Rabs_mult, (Rabs_pos_eq q) by lra. apply Rmult_le_compat_l; [lra|exact MO].
Qed.

(** in kilometres and seconds *)
Definition mu0 : R := Str3.aE ^ 3 * Str3.ke ^ 2 / 3600.
Lemma mu0_mu : Rabs (mu0 / mu - 1) <= 11 / 100000000000000000.
Proof. unfold mu0, mu, Str3.aE, Str3.ke. apply Rabs_le. split; lra. Qed.

Lemma theory_vis_viva : vis_viva (1 / 10 ^ 15) (Str3.aE * at_) (Str3.aE * pL) position velocity /\ momentum (1 / 10 ^ 15) (Str3.aE * pL) position velocity.
Proof.
  destruct theory_energy as (R0 & RA & _ & EN & MO). destruct vv_at as (A & _). pose proof k2_x as HX. pose proof mu0_mu as G. cbv zeta in EN, MO.
  set (x := Str3.k2 / pL ^ 2) in *. set (g := mu0 / mu) in *. assert (AE : 0 < Str3.aE) by (unfold Str3.aE; lra). assert (KE : 0 < Str3.ke) by (unfold Str3.ke; lra). assert (MU : 0 < mu) by (unfold mu; lra).
  assert (GM : mu0 = g * mu) by (unfold g; field; lra). apply Rabs_le_inv in G.
  assert (X1 : 301 / 100 * J2 * (Re / (Str3.aE * pL)) ^ 2 = 602 / 100 * x).
  { unfold x, Str3.k2. change Re with Str3.aE. change J2 with Str3.J2. field. repeat split; lra. }
  assert (X2 : 35 / 10 * J2 * (Re / (Str3.aE * pL)) ^ 2 = 7 * x).
  { unfold x, Str3.k2. change Re with Str3.aE. change J2 with Str3.J2. field. repeat split; lra. }
  unfold vis_viva, momentum. rewrite X1, X2, norm_velocity2, norm_cross, norm_position by exact R0. split.
  - set (T := (rdotk * rdotk + rfdotk * rfdotk) / (2 * Str3.ke ^ 2)) in *. set (Z := 1 / rk) in *. set (Y := 1 / (2 * at_)) in *.
    assert (Z0 : 0 < Z) by (unfold Z; apply Rdiv_lt_0_compat; lra). assert (Y0 : 0 < Y) by (unfold Y; apply Rdiv_lt_0_compat; lra).
    assert (YZ : Y <= 105 / 100 * Z).
    { unfold Y, Z. apply Rmult_le_reg_r with (2 * at_ * rk); [nra|]. replace (1 / (2 * at_) * (2 * at_ * rk)) with rk by (field; lra). replace (105 / 100 * (1 / rk) * (2 * at_ * rk)) with (21 / 10 * at_) by (field; lra). exact RA. }
    replace ((Str3.aE / 60) ^ 2 * (rdotk * rdotk + rfdotk * rfdotk) / 2 - mu / (Str3.aE * rk) + mu / (2 * (Str3.aE * at_)))
      with (mu / Str3.aE * (g * (T - Z + Y) + (g - 1) * (Z - Y))).
    2: { replace (mu / Str3.aE * (g * (T - Z + Y) + (g - 1) * (Z - Y))) with (g * mu * T / Str3.aE - mu / Str3.aE * Z + mu / Str3.aE * Y) by (field; lra). rewrite <- GM. unfold mu0, T, Z, Y. field. repeat split; lra. }
    replace (mu / (Str3.aE * rk)) with (mu / Str3.aE * Z) by (unfold Z; field; lra). assert (MA : 0 < mu / Str3.aE) by (apply Rdiv_lt_0_compat; lra).
    rewrite Rabs_mult, (Rabs_pos_eq (mu / Str3.aE)) by lra. replace ((602 / 100 * x + 1 / 10 ^ 15) * (mu / Str3.aE * Z)) with (mu / Str3.aE * ((602 / 100 * x + 1 / 10 ^ 15) * Z)) by ring.
    apply Rmult_le_compat_l; [lra|]. clearbody T Z Y x g. clear GM X1 X2. set (D := T - Z + Y) in *. clearbody D.
    assert (P1 : Rabs (g * D) <= (1 + 11 / 100000000000000000) * (602 / 100 * x * Z)) by (rewrite Rabs_mult; apply Rmult_le_compat; try apply Rabs_pos; [apply Rabs_le; lra|exact EN]).
    assert (P2 : Rabs ((g - 1) * (Z - Y)) <= 11 / 100000000000000000 * (Z)) by (rewrite Rabs_mult; apply Rmult_le_compat; try apply Rabs_pos; apply Rabs_le; lra).
    eapply Rle_trans; [apply Rabs_triang|]. assert (x * Z <= 1 / 1000 * Z) by (apply Rmult_le_compat_r; lra). assert (0 <= x * Z) by (apply Rmult_le_pos; lra). lra.
  - set (H := rk * rfdotk / Str3.ke) in *. set (s := sqrt pL) in *. assert (S0 : 0 < s) by (apply sqrt_lt_R0; lra).
    set (h := sqrt g). assert (H0 : 0 <= h) by apply sqrt_pos. assert (HG : h * h = g) by (apply sqrt_sqrt; lra).
    assert (H1 : Rabs (h - 1) <= 11 / 100000000000000000) by (apply Rabs_le; split; nra).
    assert (SQ : Str3.aE ^ 2 / 60 * Str3.ke = h * sqrt (mu * Str3.aE)).
    { unfold h. rewrite <- sqrt_mult by (try lra; nra). symmetry. replace (g * (mu * Str3.aE)) with ((Str3.aE ^ 2 / 60 * Str3.ke) * (Str3.aE ^ 2 / 60 * Str3.ke)); [apply sqrt_square; unfold Str3.aE, Str3.ke; lra|].
      replace (g * (mu * Str3.aE)) with (g * mu * Str3.aE) by ring. rewrite <- GM. unfold mu0. field. }
    replace (mu * (Str3.aE * pL)) with (mu * Str3.aE * pL) by ring. rewrite sqrt_mult by (try lra; nra). fold s. set (m := sqrt (mu * Str3.aE)) in *. assert (M0 : 0 <= m) by apply sqrt_pos.
    assert (HP : 0 <= H) by (apply Rabs_le_inv in MO; nra).
    assert (CR : Str3.aE ^ 2 / 60 * Rabs (rk * rfdotk) = h * m * H).
    { rewrite <- SQ. replace (rk * rfdotk) with (Str3.ke * H) by (unfold H; field; lra). rewrite Rabs_pos_eq by nra. ring. }
    rewrite CR. replace (h * m * H - m * s) with (m * (h * (H - s) + (h - 1) * s)) by ring. rewrite Rabs_mult, (Rabs_pos_eq m) by exact M0.
    replace ((7 * x + 1 / 10 ^ 15) * (m * s)) with (m * ((7 * x + 1 / 10 ^ 15) * s)) by ring. apply Rmult_le_compat_l; [exact M0|].
    clearbody H s h m x. clear CR SQ GM X1 X2. apply Rabs_le_inv in H1.
    assert (P1 : Rabs (h * (H - s)) <= (1 + 11 / 100000000000000000) * (7 * x * s)) by (rewrite Rabs_mult; apply Rmult_le_compat; try apply Rabs_pos; [apply Rabs_le; lra|exact MO]).
    assert (P2 : Rabs ((h - 1) * s) <= 11 / 100000000000000000 * s) by (rewrite Rabs_mult; apply Rmult_le_compat; try apply Rabs_pos; apply Rabs_le; lra).
    eapply Rle_trans; [apply Rabs_triang|]. assert (x * s <= 1 / 1000 * s) by (apply Rmult_le_compat_r; lra). assert (0 <= x * s) by (apply Rmult_le_pos; lra). lra.
Qed.
End States.

(** ** Without drag, or at the epoch *)
Section Undisturbed.
Variable el : Str3.Elements.
Variable full : bool.
Variables t i : R.
Hypothesis BT : Str3.Bstar el = 0 \/ t = 0.
Hypothesis HE : 0 <= Str3.e0 el <= 6 / 10.
Hypothesis HP : 100 <= Str3.perigee_height el.

Lemma undisturbed_e : Str3.e_unclamped el full t 0 = Str3.e0 el.
Proof.
  unfold Str3.e_unclamped, Str3.if_full. destruct BT as [Z|Z].
  - rewrite Z. destruct full; ring.
  - assert (M : Str3.Mp el full 0 = Str3.M0 el).
    { unfold Str3.Mp, Str3.if_full, Str3.delta_w, Str3.delta_M, Str3.eccentric, Str3.M_DF. destruct full; [|ring].
      replace (Str3.M0 el + Str3.Mdot el * 0) with (Str3.M0 el) by ring. destruct (Rlt_dec (1 / 10000) (Str3.e0 el)); ring. }
    rewrite Z, M. destruct full; ring.
Qed.
Lemma undisturbed_a : Str3.at_ el full t = Str3.a el.
Proof.
  unfold Str3.at_, Str3.if_full. destruct BT as [Z|Z].
  - assert (C : Str3.C1 el = 0) by (unfold Str3.C1; rewrite Z; ring). unfold Str3.D2, Str3.D3, Str3.D4. rewrite C. destruct full; ring.
  - rewrite Z. destruct full; ring.
Qed.

Lemma undisturbed : 101 / 100 <= Str3.pL el full t 0 i /\ forall E u, 101 / 100 <= Str3.rk el full t 0 i E u.
Proof.
  set (e := Str3.e el full t 0). assert (EV : Str3.e0 el <= e <= Str3.e0 el + 1 / 1000000).
  { unfold e, Str3.e. rewrite undisturbed_e. unfold Rmax. destruct (Rle_dec _ _); lra. }
  set (a := Str3.a el). assert (RP : 10156 / 10000 <= a * (1 - Str3.e0 el)). { pose proof HP as H. unfold Str3.perigee_height, Str3.aE in H. fold a in H. lra. }
  assert (A0 : 0 < a) by apply exp_pos. set (w := Str3.w el full t).
  set (h := Str3.A30 * sin i / (4 * Str3.k2 * Str3.at_ el full t * (1 - e ^ 2))).
  assert (D : 10155 / 10000 <= a * (1 - e ^ 2)).
  { assert (a * (1 - e) >= a * (1 - Str3.e0 el) - a / 1000000) by nra. assert (A3 : a / 1000000 <= 1 / 100000 \/ 10 < a) by (destruct (Rle_dec a 10); [left|right]; lra).
    assert (0 <= e <= 601 / 1000) by lra. destruct A3 as [A3|A3]; [assert (0 <= a * (1 - e)) by nra; nra|]. assert (1 - e ^ 2 >= 1 - 601 / 1000 * (601 / 1000)) by nra. nra. }
  assert (H : Rabs (a * h) <= 184 / 100000 /\ Rabs h <= 116 / 100000).
  { assert (A3 : Str3.A30 / (4 * Str3.k2) <= 1170 / 1000000 /\ 0 <= Str3.A30 / (4 * Str3.k2)) by (unfold Str3.A30, Str3.J3, Str3.k2, Str3.J2; split; lra).
    assert (K2 : 0 < Str3.k2) by (unfold Str3.k2, Str3.J2; lra). assert (SI : Rabs (sin i) <= 1) by (apply Rabs_le; apply SIN_bound).
    assert (E2 : 0 < 1 - e ^ 2) by nra.
    set (c := Str3.A30 / (4 * Str3.k2)) in *.
    assert (HH : h = c * sin i * / (a * (1 - e ^ 2))) by (unfold h, c; rewrite undisturbed_a; fold a; field; repeat split; lra).
    assert (HA : a * h = c * sin i * / (1 - e ^ 2)) by (rewrite HH; field; repeat split; lra).
    assert (CS : Rabs (c * sin i) <= 1170 / 1000000) by (rewrite Rabs_mult, (Rabs_pos_eq c) by lra; apply Rle_trans with (1170 / 1000000 * 1); [apply Rmult_le_compat; try lra; apply Rabs_pos|lra]).
    assert (I1 : 0 < / (a * (1 - e ^ 2)) <= 10000 / 10155) by (split; [apply Rinv_0_lt_compat; lra|replace (10000 / 10155) with (/ (10155 / 10000)) by field; apply Rinv_le; lra]).
    assert (I2 : 0 < / (1 - e ^ 2) <= 1566 / 1000) by (split; [apply Rinv_0_lt_compat; lra|replace (1566 / 1000) with (/ (1000 / 1566)) by field; apply Rinv_le; nra]).
    split; [rewrite HA|rewrite HH]; rewrite Rabs_mult.
    - rewrite (Rabs_pos_eq (/ (1 - e ^ 2))) by lra. pose proof (Rabs_pos (c * sin i)). apply Rle_trans with (1170 / 1000000 * (1566 / 1000)); [apply Rmult_le_compat; lra|lra].
    - rewrite (Rabs_pos_eq (/ (a * (1 - e ^ 2)))) by (apply Rlt_le, I1). pose proof (Rabs_pos (c * sin i)). apply Rle_trans with (1170 / 1000000 * (10000 / 10155)); [|lra]. destruct I1 as (I1 & I3). apply Rmult_le_compat; [assumption|apply Rlt_le; assumption|assumption|assumption]. }
  destruct H as (HA & HH). apply Rabs_le_inv in HH, HA.
  assert (AX : Str3.axN el full t 0 = e * cos w) by reflexivity. assert (AY : Str3.ayN el full t 0 i = e * sin w + h) by reflexivity.
  set (g := e + Rabs h). assert (G : 0 <= Rabs h <= 116 / 100000) by (split; [apply Rabs_pos|apply Rabs_le; lra]).
  assert (AG : a * Rabs h <= 184 / 100000). { rewrite <- (Rabs_pos_eq a) at 1 by lra. rewrite <- Rabs_mult. apply Rabs_le. lra. }
  assert (AE : 101375 / 100000 <= a * (1 - g)).
  { unfold g. assert (a * (1 - e) >= a * (1 - Str3.e0 el) - a / 1000000) by nra. destruct (Rle_dec a 10) as [L|L]; [nra|]. assert (1 - (e + Rabs h) >= 39 / 100) by lra. nra. }
  assert (EL : Str3.eL2 el full t 0 i <= g * g).
  { unfold Str3.eL2. rewrite AX, AY. pose proof (sin2_cos2 w) as SC. unfold Rsqr in SC.
    assert (Q : e * h * sin w <= e * Rabs h). { assert (Rabs (h * sin w) <= Rabs h * 1) by (rewrite Rabs_mult; apply Rmult_le_compat_l; [apply Rabs_pos|apply Rabs_le, SIN_bound]). apply Rabs_le_inv in H. rewrite Rmult_assoc. apply Rmult_le_compat_l; lra. }
    assert (Q2 : h * h = Rabs h * Rabs h) by (rewrite <- Rabs_mult; symmetry; apply Rabs_pos_eq; nra).
    replace ((e * cos w) ^ 2 + (e * sin w + h) ^ 2) with (e * e * (sin w * sin w + cos w * cos w) + 2 * (e * h * sin w) + h * h) by ring. rewrite SC, Q2. unfold g. lra. }
  assert (GB : 0 <= g <= 61 / 100) by (unfold g; lra).
  assert (PL : 101 / 100 <= Str3.pL el full t 0 i).
  { unfold Str3.pL. rewrite undisturbed_a. fold a. apply Rle_trans with (a * (1 - g)); [lra|]. apply Rmult_le_compat_l; [lra|]. nra. }
  split; [exact PL|]. intros E u.
  destruct (theory_energy el full t 0 i E u (exp_pos _) ltac:(lra)) as (_ & _ & RK & _). eapply Rle_trans; [|exact RK].
  assert (CE : Str3.e_cosE el full t 0 i E <= g).
  { unfold Str3.e_cosE. set (ax := Str3.axN el full t 0) in *. set (ay := Str3.ayN el full t 0 i) in *. pose proof (sin2_cos2 E) as SC. unfold Rsqr in SC.
    apply Rsqr_incr_0_var; [|lra]. unfold Rsqr. unfold Str3.eL2 in EL. fold ax ay in EL. eapply Rle_trans; [|exact EL].
    assert (I : (ax * cos E + ay * sin E) * (ax * cos E + ay * sin E) + (ax * sin E - ay * cos E) * (ax * sin E - ay * cos E) = (ax ^ 2 + ay ^ 2) * (sin E * sin E + cos E * cos E)) by ring. rewrite SC in I. 
    pose proof (Rle_0_sqr (ax * sin E - ay * cos E)) as N. unfold Rsqr in N. lra. }
  unfold Str3.r. rewrite undisturbed_a. fold a. assert (a * (1 - g) <= a * (1 - Str3.e_cosE el full t 0 i E)) by (apply Rmult_le_compat_l; lra). lra.
Qed.
End Undisturbed.
