(** * Lunar-solar coefficients are Lagrange's equations for the averaged potential (exact arithmetic) *)
From Coq Require Import ZArith List Bool Reals Lra.
From Flocq Require Import Core.Raux.
From Verif.Model Require Import Float Str Satrec Constants Vec3 Initl Dscom Dpper Dsinit Dspace Sgp4 Sgp4init.
From Verif.Inst Require Import RInst RTac Atan2.
From Verif.Proofs Require Import InitElems DeepInit.
From Verif.Spec Require Import Vectors3 PeriodicSpec ThirdBody.
Local Open Scope R_scope.

(** Decimal literals as fractions of numerals. *)
Ltac dec := unfold Q2R; cbn [QArith_base.Qnum QArith_base.Qden].

(** ** Derivatives *)
Lemma dl_ext f g x l : (forall y, f y = g y) -> derivable_pt_lim f x l -> derivable_pt_lim g x l.
Proof. intros E H e He. destruct (H e He) as [d Hd]. exists d. intros h H0 H1. rewrite <- !E. now apply Hd. Qed.
Lemma dl_val f x l l' : derivable_pt_lim f x l -> l = l' -> derivable_pt_lim f x l'.
Proof. now intros H <-. Qed.
Lemma dl_lin a b c x : derivable_pt_lim (fun y => a * cos y + b * sin y + c) x (- a * sin x + b * cos x).
Proof.
  eapply dl_val.
  - apply (derivable_pt_lim_plus (fun y => a * cos y + b * sin y) (fun _ => c)).
    + apply (derivable_pt_lim_plus (fun y => a * cos y) (fun y => b * sin y)).
      * apply (derivable_pt_lim_scal cos). apply derivable_pt_lim_cos.
      * apply (derivable_pt_lim_scal sin). apply derivable_pt_lim_sin.
    + apply derivable_pt_lim_const.
  - ring.
Qed.
Lemma dl_quad k1 k2 k3 f g x f' g' : derivable_pt_lim f x f' -> derivable_pt_lim g x g' ->
  derivable_pt_lim (fun y => k1 * (f y * f y) + k2 * (g y * g y) + k3) x (2 * k1 * f x * f' + 2 * k2 * g x * g').
Proof.
  intros Hf Hg. eapply dl_val.
  - apply (derivable_pt_lim_plus (fun y => k1 * (f y * f y) + k2 * (g y * g y)) (fun _ => k3)).
    + apply (derivable_pt_lim_plus (fun y => k1 * (f y * f y)) (fun y => k2 * (g y * g y))).
      * apply (derivable_pt_lim_scal (fun y => f y * f y)). apply (derivable_pt_lim_mult f f); exact Hf.
      * apply (derivable_pt_lim_scal (fun y => g y * g y)). apply (derivable_pt_lim_mult g g); exact Hg.
    + apply derivable_pt_lim_const.
  - ring.
Qed.
Lemma dl_sum k1 k2 f g x f' g' : derivable_pt_lim f x f' -> derivable_pt_lim g x g' ->
  derivable_pt_lim (fun y => k1 * f y + k2 * g y) x (k1 * f' + k2 * g').
Proof.
  intros Hf Hg. apply (derivable_pt_lim_plus (fun y => k1 * f y) (fun y => k2 * g y)).
  - now apply derivable_pt_lim_scal.
  - now apply derivable_pt_lim_scal.
Qed.

Lemma wave_rate_spec c2 c3 c4 f : derivable_pt_lim (wave c2 c3 c4) f (wave_rate c2 c3 c4 f).
Proof.
  assert (S2 : derivable_pt_lim (fun y => 2 * y) f 2).
  { eapply dl_val; [apply (derivable_pt_lim_scal id 2 f 1), derivable_pt_lim_id|ring]. }
  eapply dl_ext; [|eapply dl_val].
  2:{ apply (derivable_pt_lim_plus (fun y => - (c2 / 4) * cos (2 * y) + - (c3 / 4) * sin (2 * y)) (fun y => c4 * sin y)).
      - apply (dl_sum (- (c2 / 4)) (- (c3 / 4)) (fun y => cos (2 * y)) (fun y => sin (2 * y))).
        + apply (derivable_pt_lim_comp (fun y => 2 * y) cos); [exact S2|apply derivable_pt_lim_cos].
        + apply (derivable_pt_lim_comp (fun y => 2 * y) sin); [exact S2|apply derivable_pt_lim_sin].
      - apply (derivable_pt_lim_scal sin). apply derivable_pt_lim_sin. }
  - intros y. unfold plus_fct, wave. field.
  - unfold wave_rate. field.
Qed.

Section Potential.
Variables (rho : R) (d : Vec3 R) (e2 i w om : R).
Definition fX : R := dot (perigee_dir i w om) d.
Definition fY : R := dot (ahead_dir i w om) d.
Definition fZ : R := dot (normal_dir i om) d.
Lemma sc2 x : sin x ^ 2 = 1 - cos x ^ 2.
Proof. pose proof (sin2_cos2 x) as H. unfold Rsqr in H. lra. Qed.
Ltac vec := unfold fX, fY, fZ, perigee_dir, ahead_dir, normal_dir, node_dir, trans_dir, dot, plus, scale; cbn [v_x v_y v_z].

Lemma pot_split i' w' om' : potential rho d e2 i' w' om' =
  3 / 4 * (1 + 4 * e2) * (dot (perigee_dir i' w' om') d * dot (perigee_dir i' w' om') d) +
  3 / 4 * (1 - e2) * (dot (ahead_dir i' w' om') d * dot (ahead_dir i' w' om') d) + - rho * (2 + 3 * e2) / 4.
Proof. unfold potential. field. Qed.

Lemma pot_dw : derivable_pt_lim (fun y => potential rho d e2 i y om) w (15 / 2 * e2 * fX * fY).
Proof.
  eapply dl_ext; [intros y; symmetry; apply pot_split|].
  eapply dl_val.
  - apply (dl_quad _ _ _ (fun y => dot (perigee_dir i y om) d) (fun y => dot (ahead_dir i y om) d) w fY (- fX)).
    + eapply dl_ext; [|eapply dl_val; [apply (dl_lin (dot (node_dir om) d) (dot (trans_dir i om) d) 0)|]].
      * intros y. vec. ring.
      * vec. ring.
    + eapply dl_ext; [|eapply dl_val; [apply (dl_lin (dot (trans_dir i om) d) (- dot (node_dir om) d) 0)|]].
      * intros y. vec. ring.
      * vec. ring.
  - fold fX fY. field.
Qed.
Lemma pot_di : derivable_pt_lim (fun y => potential rho d e2 y w om) i
  (3 / 2 * (1 + 4 * e2) * fX * fZ * sin w + 3 / 2 * (1 - e2) * fY * fZ * cos w).
Proof.
  eapply dl_ext; [intros y; symmetry; apply pot_split|].
  set (A := - sin om * v_x d + cos om * v_y d). set (N := dot (node_dir om) d).
  eapply dl_val.
  - apply (dl_quad _ _ _ (fun y => dot (perigee_dir y w om) d) (fun y => dot (ahead_dir y w om) d) i (sin w * fZ) (cos w * fZ)).
    + eapply dl_ext; [|eapply dl_val; [apply (dl_lin (sin w * A) (sin w * v_z d) (cos w * N))|]].
      * intros y. unfold A, N. vec. ring.
      * unfold A. vec. ring.
    + eapply dl_ext; [|eapply dl_val; [apply (dl_lin (cos w * A) (cos w * v_z d) (- sin w * N))|]].
      * intros y. unfold A, N. vec. ring.
      * unfold A. vec. ring.
  - fold fX fY. field.
Qed.
Definition fXo : R := cos i * fY - sin i * cos w * fZ.
Definition fYo : R := - cos i * fX + sin i * sin w * fZ.
Lemma pot_dom : derivable_pt_lim (fun y => potential rho d e2 i w y) om
  (3 / 2 * (1 + 4 * e2) * fX * fXo + 3 / 2 * (1 - e2) * fY * fYo).
Proof.
  eapply dl_ext; [intros y; symmetry; apply pot_split|].
  pose proof (sc2 i) as Ei.
  eapply dl_val.
  - apply (dl_quad _ _ _ (fun y => dot (perigee_dir i w y) d) (fun y => dot (ahead_dir i w y) d) om fXo fYo).
    + eapply dl_ext; [|eapply dl_val; [apply (dl_lin (cos w * v_x d + sin w * cos i * v_y d) (cos w * v_y d - sin w * cos i * v_x d) (sin w * sin i * v_z d))|]].
      * intros y. vec. ring.
      * unfold fXo. vec. ring [Ei].
    + eapply dl_ext; [|eapply dl_val; [apply (dl_lin (- sin w * v_x d + cos w * cos i * v_y d) (- sin w * v_y d - cos w * cos i * v_x d) (cos w * sin i * v_z d))|]].
      * intros y. vec. ring.
      * unfold fYo. vec. ring [Ei].
  - fold fX fY. field.
Qed.
Lemma pot_de : derivable_pt_lim (fun y => potential rho d y i w om) e2 (3 * fX ^ 2 - 3 / 4 * fY ^ 2 - 3 / 4 * rho).
Proof.
  eapply dl_ext; [|eapply dl_val].
  2:{ apply (derivable_pt_lim_plus (fun y => (3 * fX ^ 2 - 3 / 4 * fY ^ 2 - 3 / 4 * rho) * id y)
       (fun _ => 3 / 4 * fX ^ 2 + 3 / 4 * fY ^ 2 - rho / 2)).
      - apply derivable_pt_lim_scal, derivable_pt_lim_id.
      - apply derivable_pt_lim_const. }
  - intros y. unfold plus_fct, potential, id. fold fX fY. field.
  - ring.
Qed.
End Potential.

(** ** One pass of the loop *)
Section Pass.
Variables (cg sg ci si ch sh cc : R) (e i w om n : R).
Hypothesis He : 0 <= e < 1.
Hypothesis Hn : 0 < n.
Let beta := sqrt (1 - e ^ 2).
Let b := MkDscomBody cg sg ci si (ch * cos om + sh * sin om) (sin om * ch - cos om * sh) cc.
Let p := @dscom_pass R ROps (sin i) (cos i) (sin w) (cos w) e (e ^ 2) (1 - e ^ 2) beta (1 / n) b.
Let P := axis_p cg sg ci si ch sh.
Let Q := axis_q cg sg ci si ch sh.
Notation x1 := (fX P i w om). Notation x2 := (fX Q i w om).
Notation x3 := (fY P i w om). Notation x4 := (fY Q i w om).
Notation y5 := (fZ P i om). Notation y6 := (fZ Q i om).

Lemma pbeta : 0 < beta. Proof. apply sqrt_lt_R0. nra. Qed.
Lemma pass_T :
  dp_s3 p = cc / n /\ dp_s2 p = - (cc / n) / (2 * beta) /\ dp_s4 p = cc / n * beta /\ dp_s1 p = -15 * e * (cc / n * beta) /\
  dp_s5 p = x1 * x3 + x2 * x4 /\ dp_s6 p = x2 * x3 + x1 * x4 /\ dp_s7 p = x2 * x4 - x1 * x3 /\
  dp_z31 p = 12 * x1 ^ 2 - 3 * x3 ^ 2 /\ dp_z32 p = 24 * x1 * x2 - 6 * x3 * x4 /\ dp_z33 p = 12 * x2 ^ 2 - 3 * x4 ^ 2 /\
  dp_z1 p = 6 * (x1 ^ 2 + x3 ^ 2) + (1 + e ^ 2) * (12 * x1 ^ 2 - 3 * x3 ^ 2) /\
  dp_z2 p = 12 * (x1 * x2 + x3 * x4) + (1 + e ^ 2) * (24 * x1 * x2 - 6 * x3 * x4) /\
  dp_z3 p = 6 * (x2 ^ 2 + x4 ^ 2) + (1 + e ^ 2) * (12 * x2 ^ 2 - 3 * x4 ^ 2) /\
  dp_z11 p = -6 * ((1 + 4 * e ^ 2) * x1 * y5 * cos w - (1 - e ^ 2) * x3 * y5 * sin w) /\
  dp_z12 p = -6 * ((1 + 4 * e ^ 2) * (x1 * y6 + x2 * y5) * cos w - (1 - e ^ 2) * (x3 * y6 + x4 * y5) * sin w) /\
  dp_z13 p = -6 * ((1 + 4 * e ^ 2) * x2 * y6 * cos w - (1 - e ^ 2) * x4 * y6 * sin w) /\
  dp_z21 p = 6 * ((1 + 4 * e ^ 2) * x1 * y5 * sin w + (1 - e ^ 2) * x3 * y5 * cos w) /\
  dp_z22 p = 6 * ((1 + 4 * e ^ 2) * (x1 * y6 + x2 * y5) * sin w + (1 - e ^ 2) * (x3 * y6 + x4 * y5) * cos w) /\
  dp_z23 p = 6 * ((1 + 4 * e ^ 2) * x2 * y6 * sin w + (1 - e ^ 2) * x4 * y6 * cos w).
Proof.
  pose proof pbeta as HB. pose proof (sc2 w) as Ew.
  set (a1 := cg * (ch * cos om + sh * sin om) + sg * ci * (sin om * ch - cos om * sh)).
  set (a3 := - sg * (ch * cos om + sh * sin om) + cg * ci * (sin om * ch - cos om * sh)).
  set (a2 := cos i * (- cg * (sin om * ch - cos om * sh) + sg * ci * (ch * cos om + sh * sin om)) + sin i * (sg * si)).
  set (a4 := cos i * (sg * (sin om * ch - cos om * sh) + cg * ci * (ch * cos om + sh * sin om)) + sin i * (cg * si)).
  assert (X1 : x1 = a1 * cos w + a2 * sin w).
  { unfold a1, a2, P, fX, axis_p, perigee_dir, node_dir, trans_dir, dot, plus, scale; cbn [v_x v_y v_z]. ring. }
  assert (X2 : x2 = a3 * cos w + a4 * sin w).
  { unfold a3, a4, Q, fX, axis_q, perigee_dir, node_dir, trans_dir, dot, plus, scale; cbn [v_x v_y v_z]. ring. }
  assert (X3 : x3 = - a1 * sin w + a2 * cos w).
  { unfold a1, a2, P, fY, axis_p, ahead_dir, node_dir, trans_dir, dot, plus, scale; cbn [v_x v_y v_z]. ring. }
  assert (X4 : x4 = - a3 * sin w + a4 * cos w).
  { unfold a3, a4, Q, fY, axis_q, ahead_dir, node_dir, trans_dir, dot, plus, scale; cbn [v_x v_y v_z]. ring. }
  assert (Y5 : y5 = - sin i * (- cg * (sin om * ch - cos om * sh) + sg * ci * (ch * cos om + sh * sin om)) + cos i * (sg * si)).
  { unfold P, fZ, axis_p, normal_dir, dot; cbn [v_x v_y v_z]. ring. }
  assert (Y6 : y6 = - sin i * (sg * (sin om * ch - cos om * sh) + cg * ci * (ch * cos om + sh * sin om)) + cos i * (cg * si)).
  { unfold Q, fZ, axis_q, normal_dir, dot; cbn [v_x v_y v_z]. ring. }
  unfold p, b, dscom_pass. cbv zeta.
  cbn [db_zcosg db_zsing db_zcosi db_zsini db_zcosh db_zsinh db_cc dp_s1 dp_s2 dp_s3 dp_s4 dp_s5 dp_s6 dp_s7 dp_z1 dp_z2 dp_z3
    dp_z11 dp_z12 dp_z13 dp_z21 dp_z22 dp_z23 dp_z31 dp_z32 dp_z33].
  rops. fold a1 a2 a3 a4. rewrite <- X1, <- X2, <- X3, <- X4, <- Y5, <- Y6.
  assert (A1 : a1 = x1 * cos w - x3 * sin w) by (rewrite X1, X3; ring [Ew]).
  assert (A2 : a2 = x1 * sin w + x3 * cos w) by (rewrite X1, X3; ring [Ew]).
  assert (A3 : a3 = x2 * cos w - x4 * sin w) by (rewrite X2, X4; ring [Ew]).
  assert (A4 : a4 = x2 * sin w + x4 * cos w) by (rewrite X2, X4; ring [Ew]).
  rewrite A1, A2, A3, A4. clear X1 X2 X3 X4 Y5 Y6 A1 A2 A3 A4.
  generalize x1 x2 x3 x4 y5 y6. intros.
  repeat split; try (field [Ew]; lra); field; split; lra.
Qed.

Variables (n' e' f : R).
Let bd := MkBody n' e' (4 * n' * cc) P Q.
Let d := direction bd f.
Let rho := closeness bd f.
Let K := b_strength bd / n.
Notation X := (fX d i w om). Notation Y := (fY d i w om). Notation Z := (fZ d i om).
Lemma dX : X = x1 * cos f + x2 * sin f.
Proof. unfold d, direction, fX, dot, plus, scale. cbn [v_x v_y v_z b_p b_q bd]. ring. Qed.
Lemma dY : Y = x3 * cos f + x4 * sin f.
Proof. unfold d, direction, fY, dot, plus, scale. cbn [v_x v_y v_z b_p b_q bd]. ring. Qed.
Lemma dZ : Z = y5 * cos f + y6 * sin f.
Proof. unfold d, direction, fZ, dot, plus, scale. cbn [v_x v_y v_z b_p b_q bd]. ring. Qed.

Ltac prep :=
  pose proof pbeta as HB; pose proof (sc2 f) as Ef;
  destruct pass_T as (S3 & S2 & S4 & S1 & S5 & S6 & S7 & Z31 & Z32 & Z33 & Z1 & Z2 & Z3 & Z11 & Z12 & Z13 & Z21 & Z22 & Z23);
  rewrite ?S3, ?S2, ?S4, ?S1, ?S5, ?S6, ?S7, ?Z31, ?Z32, ?Z33, ?Z1, ?Z2, ?Z3, ?Z11, ?Z12, ?Z13, ?Z21, ?Z22, ?Z23;
  clear S3 S2 S4 S1 S5 S6 S7 Z31 Z32 Z33 Z1 Z2 Z3 Z11 Z12 Z13 Z21 Z22 Z23;
  rewrite ?dX, ?dY, ?dZ; unfold wave_rate, K, rho, closeness; cbn [b_strength b_e bd]; rewrite sin_2a, cos_2a;
  generalize x1 x2 x3 x4 y5 y6; intros; revert Ef HB; generalize (sin f) (cos f) (sin w) (cos w) beta; intros sf cf sw cw bt Ef HB.

Lemma body_e : dp_s1 p * n' * dp_s5 p + n' * wave_rate (2 * dp_s1 p * dp_s6 p) (2 * dp_s1 p * dp_s7 p) 0 f =
  - K * beta * (15 / 2 * e * X * Y).
Proof. prep. field [Ef]. lra. Qed.
Lemma body_i : dp_s2 p * n' * (dp_z11 p + dp_z13 p) + n' * wave_rate (2 * dp_s2 p * dp_z12 p) (2 * dp_s2 p * (dp_z13 p - dp_z11 p)) 0 f =
  K / beta * (3 / 2 * (1 + 4 * e ^ 2) * X * Z * cos w - 3 / 2 * (1 - e ^ 2) * Y * Z * sin w).
Proof. prep. field [Ef]. lra. Qed.
Lemma body_h : - n' * dp_s2 p * (dp_z21 p + dp_z23 p) + n' * wave_rate (- 2 * dp_s2 p * dp_z22 p) (- 2 * dp_s2 p * (dp_z23 p - dp_z21 p)) 0 f =
  K / beta * (3 / 2 * (1 + 4 * e ^ 2) * X * Z * sin w + 3 / 2 * (1 - e ^ 2) * Y * Z * cos w).
Proof. prep. field [Ef]. lra. Qed.
Lemma body_gh : dp_s4 p * n' * (dp_z31 p + dp_z33 p - 6) +
  n' * wave_rate (2 * dp_s4 p * dp_z32 p) (2 * dp_s4 p * (dp_z33 p - dp_z31 p)) (- 18 * dp_s4 p * e') f =
  2 * beta * (K * (3 * X ^ 2 - 3 / 4 * Y ^ 2 - 3 / 4 * rho)).
Proof. prep. field [Ef]. lra. Qed.
Lemma body_m : - n' * dp_s3 p * (dp_z1 p + dp_z3 p - 14 - 6 * e ^ 2) +
  n' * wave_rate (- 2 * dp_s3 p * dp_z2 p) (- 2 * dp_s3 p * (dp_z3 p - dp_z1 p)) (- 2 * dp_s3 p * (- 21 - 9 * e ^ 2) * e') f =
  - (4 * (K * potential rho d (e ^ 2) i w om) + 2 * (1 - e ^ 2) * (K * (3 * X ^ 2 - 3 / 4 * Y ^ 2 - 3 / 4 * rho))).
Proof. rewrite pot_split. fold X Y. prep. field [Ef]. lra. Qed.
End Pass.

(** ** The Moon's orbit at epoch *)
Lemma rem_turns x : exists k : Z, Rrem x (2 * PI) = x + 2 * PI * IZR k.
Proof. exists (- Ztrunc (x / (2 * PI)))%Z. unfold Rrem. rewrite opp_IZR. ring. Qed.
Lemma sin_rem x : sin (Rrem x (2 * PI)) = sin x.
Proof. destruct (rem_turns x) as [k ->]. apply sin_turns. Qed.
Lemma cos_rem x : cos (Rrem x (2 * PI)) = cos x.
Proof. destruct (rem_turns x) as [k ->]. apply cos_turns. Qed.

Lemma lunar_T ep e w i om n : let lu := @dscom_lunar R ROps (MkDscomOptions ep e w (L 0 0) i om n) in let d := ep + 18261.5 in
  dl_day lu = d /\ dl_gam lu = perigee_long d /\
  dl_zcosil lu = cos_il d /\ dl_zsinil lu = sin_il d /\ dl_zsinhl lu = sin_hl d /\ dl_zcoshl lu = cos_hl d /\
  exists g, lunar_perigee d g /\ dl_zcosgl lu = cos g /\ dl_zsingl lu = sin g.
Proof.
  cbv zeta. set (d := ep + 18261.5). set (lu := dscom_lunar _).
  assert (D : dl_day lu = d).
  { assert (E : dl_day lu = ep + 182615 / 10 + 0 / 1440) by reflexivity. rewrite E. unfold d. dec; field. }
  assert (G : dl_gam lu = perigee_long d).
  { assert (E : dl_gam lu = 58351514 / 10000000 + 1944368 / 1000000000 * dl_day lu) by reflexivity. rewrite E, D. unfold perigee_long. dec; field. }
  set (xn := Rrem (4523602 / 1000000 - 92422029 / 100000000000 * dl_day lu) (@kTWO_PI R ROps)).
  assert (XN : 4523602 / 1000000 - 92422029 / 100000000000 * dl_day lu = ecl_node d) by (rewrite D; unfold ecl_node; dec; field).
  assert (SX : sin xn = sin (ecl_node d)) by (unfold xn; rewrite kTWO_PI_R, XN; apply sin_rem).
  assert (CX : cos xn = cos (ecl_node d)) by (unfold xn; rewrite kTWO_PI_R, XN; apply cos_rem).
  assert (C1 : dl_zcosil lu = cos_il d).
  { assert (E : dl_zcosil lu = 91375164 / 100000000 - 3568096 / 100000000 * cos xn) by reflexivity. rewrite E, CX. unfold cos_il. dec; field. }
  assert (C2 : dl_zsinil lu = sin_il d).
  { assert (E : dl_zsinil lu = sqrt (1 - dl_zcosil lu * dl_zcosil lu)) by reflexivity. rewrite E, C1. unfold sin_il. f_equal. ring. }
  assert (C3 : dl_zsinhl lu = sin_hl d).
  { assert (E : dl_zsinhl lu = 89683511 / 1000000000 * sin xn / dl_zsinil lu) by reflexivity. rewrite E, C2, SX. unfold sin_hl, Rdiv. generalize (/ sin_il d). intros z. dec; field. }
  assert (C4 : dl_zcoshl lu = cos_hl d).
  { assert (E : dl_zcoshl lu = sqrt (1 - dl_zsinhl lu * dl_zsinhl lu)) by reflexivity. rewrite E, C3. unfold cos_hl. f_equal. ring. }
  repeat (split; [assumption|]).
  set (zx := 39785416 / 100000000 * sin xn / dl_zsinil lu).
  set (zy := dl_zcoshl lu * cos xn + 91744867 / 100000000 * dl_zsinhl lu * sin xn).
  set (g := Ratan2 zx zy + (dl_gam lu - xn)).
  assert (G1 : dl_zcosgl lu = cos g) by reflexivity. assert (G2 : dl_zsingl lu = sin g) by reflexivity.
  exists g. split; [|split; assumption].
  destruct (Ratan2_polar zx zy) as [P1 P2].
  exists (Ratan2 zx zy), (sqrt (zy * zy + zx * zx)).
  assert (ZX : zx = 0.39785416 * sin (ecl_node d) / sin_il d).
  { unfold zx. rewrite C2, SX. unfold Rdiv; generalize (/ sin_il d); intros z; dec; field. }
  assert (ZY : zy = cos_hl d * cos (ecl_node d) + 0.91744867 * sin_hl d * sin (ecl_node d)).
  { unfold zy. rewrite C3, C4, SX, CX. dec; field. }
  split; [apply sqrt_pos|]. rewrite <- P1, <- P2. split; [exact ZX|]. split; [exact ZY|].
  destruct (rem_turns (ecl_node d)) as [k HK].
  assert (Eg : g = (Ratan2 zx zy + perigee_long d - ecl_node d) + 2 * PI * IZR (- k)).
  { unfold g, xn. rewrite G, kTWO_PI_R, XN, HK, opp_IZR. ring. }
  rewrite Eg. split; [apply cos_turns|apply sin_turns].
Qed.

(** ** Secular rates from the options [dsinit] receives *)
Section Rates.
Variable q : DsinitOptions R.
Let r := dsinit_rates q.
Let hs := - n_sun * no_ss2 q * (no_sz21 q + no_sz23 q) + - n_moon * no_s2 q * (no_z21 q + no_z23 q).
Definition in_range (x : R) : Prop := 0.052359877 <= x <= PI - 0.052359877.
Lemma ZNS_T : @dsinit_ZNS R ROps = n_sun. Proof. unfold dsinit_ZNS, n_sun. rops. dec. field. Qed.
Lemma ZNL_T : @dsinit_ZNL R ROps = n_moon. Proof. unfold dsinit_ZNL, n_moon. rops. dec. field. Qed.
Lemma rates_q : no_sinim q = sin (no_inclm q) ->
  rt_dedt r = no_ss1 q * n_sun * no_ss5 q + no_s1 q * n_moon * no_s5 q /\
  rt_didt r = no_ss2 q * n_sun * (no_sz11 q + no_sz13 q) + no_s2 q * n_moon * (no_z11 q + no_z13 q) /\
  rt_dmdt r = - n_sun * no_ss3 q * (no_sz1 q + no_sz3 q - 14 - 6 * no_emsq q) + - n_moon * no_s3 q * (no_z1 q + no_z3 q - 14 - 6 * no_emsq q) /\
  rt_domdt r + no_cosim q * rt_dnodt r = no_ss4 q * n_sun * (no_sz31 q + no_sz33 q - 6) + no_s4 q * n_moon * (no_z31 q + no_z33 q - 6) /\
  (in_range (no_inclm q) -> no_sinim q * rt_dnodt r = hs) /\
  (~ in_range (no_inclm q) -> rt_dnodt r = 0).
Proof.
  intros HS. unfold r, dsinit_rates. cbv zeta. cbn [rt_dedt rt_didt rt_dmdt rt_dnodt rt_domdt].
  rewrite ZNS_T, ZNL_T. change (@kPI R ROps) with PI. rops. unfold in_range.
  assert (TH : 52359877 / 1000000000 = 0.052359877) by (dec; field). rewrite !TH.
  assert (TP : 0 < 0.052359877) by (dec; lra).
  set (th := 0.052359877) in *. clearbody th.
  destruct (Rlt_bool (no_inclm q) th || Rlt_bool (PI - th) (no_inclm q))%bool eqn:G.
  - assert (NR : ~ (th <= no_inclm q <= PI - th)).
    { apply orb_true_iff in G. rewrite !Rlt_bool_iff in G. lra. }
    destruct (Req_bool (no_sinim q) 0) eqn:Z; cbn [negb].
    + repeat split; try tauto; try ring.
    + assert (no_sinim q <> 0) by (intros Q; rewrite Req_bool_true in Z by exact Q; discriminate).
      repeat split; try tauto; try ring; intros; try field; tauto.
  - apply orb_false_iff in G. rewrite !Rlt_bool_iff_f in G.
    assert (SP : 0 < no_sinim q) by (rewrite HS; apply sin_gt_0; lra).
    rewrite Req_bool_false by lra. cbn [negb].
    repeat split; try tauto; try ring; try (intros; exfalso; tauto).
    + field; lra.
    + intros _. unfold hs. field. lra.
Qed.
End Rates.

(** ** The coefficients of the record [dscom] returns and the rates [dsinit] derives from it *)
Section Assemble.
Variables (ep e w i om n : R).
Hypothesis He : 0 <= e < 1.
Hypothesis Hn : 0 < n.
Let op := @MkDscomOptions R ep e w (@L R ROps 0 0) i om n.
Let D := @dscom R ROps op.
Let d := ep + 18261.5.
Let beta := sqrt (1 - e ^ 2).
Let ps := @dscom_pass R ROps (sin i) (cos i) (sin w) (cos w) e (e ^ 2) (1 - e ^ 2) beta (1 / n)
  (MkDscomBody 0.1945905 (- 0.98088458) 0.91744867 0.39785416 (1 * cos om + 0 * sin om) (sin om * 1 - cos om * 0) 0.0000029864797).
Let lu := @dscom_lunar R ROps op.
Let pl := @dscom_pass R ROps (sin i) (cos i) (sin w) (cos w) e (e ^ 2) (1 - e ^ 2) beta (1 / n)
  (MkDscomBody (dl_zcosgl lu) (dl_zsingl lu) (dl_zcosil lu) (dl_zsinil lu) (dl_zcoshl lu * cos om + dl_zsinhl lu * sin om)
    (sin om * dl_zcoshl lu - cos om * dl_zsinhl lu) 0.00000047968065).

Definition passes : Prop := 
  dr_se2 D = 2 * dp_s1 ps * dp_s6 ps /\ dr_se3 D = 2 * dp_s1 ps * dp_s7 ps /\
  dr_si2 D = 2 * dp_s2 ps * dp_z12 ps /\ dr_si3 D = 2 * dp_s2 ps * (dp_z13 ps - dp_z11 ps) /\
  dr_sl2 D = - 2 * dp_s3 ps * dp_z2 ps /\ dr_sl3 D = - 2 * dp_s3 ps * (dp_z3 ps - dp_z1 ps) /\
  dr_sl4 D = - 2 * dp_s3 ps * (- 21 - 9 * e ^ 2) * e_sun /\
  dr_sgh2 D = 2 * dp_s4 ps * dp_z32 ps /\ dr_sgh3 D = 2 * dp_s4 ps * (dp_z33 ps - dp_z31 ps) /\
  dr_sgh4 D = - 18 * dp_s4 ps * e_sun /\
  dr_sh2 D = - 2 * dp_s2 ps * dp_z22 ps /\ dr_sh3 D = - 2 * dp_s2 ps * (dp_z23 ps - dp_z21 ps) /\
  dr_ee2 D = 2 * dp_s1 pl * dp_s6 pl /\ dr_e3 D = 2 * dp_s1 pl * dp_s7 pl /\
  dr_xi2 D = 2 * dp_s2 pl * dp_z12 pl /\ dr_xi3 D = 2 * dp_s2 pl * (dp_z13 pl - dp_z11 pl) /\
  dr_xl2 D = - 2 * dp_s3 pl * dp_z2 pl /\ dr_xl3 D = - 2 * dp_s3 pl * (dp_z3 pl - dp_z1 pl) /\
  dr_xl4 D = - 2 * dp_s3 pl * (- 21 - 9 * e ^ 2) * e_moon /\
  dr_xgh2 D = 2 * dp_s4 pl * dp_z32 pl /\ dr_xgh3 D = 2 * dp_s4 pl * (dp_z33 pl - dp_z31 pl) /\
  dr_xgh4 D = - 18 * dp_s4 pl * e_moon /\
  dr_xh2 D = - 2 * dp_s2 pl * dp_z22 pl /\ dr_xh3 D = - 2 * dp_s2 pl * (dp_z23 pl - dp_z21 pl).
Lemma sun_pass : @dscom_pass R ROps (sin i) (cos i) (sin w) (cos w) e (e * (e * 1)) (1 - e * (e * 1)) (sqrt (1 - e * (e * 1))) (1 / n)
  (MkDscomBody dscom_ZCOSGS dscom_ZSINGS dscom_ZCOSIS dscom_ZSINIS (cos om) (sin om) dscom_C1SS) = ps.
Proof.
  unfold ps, beta. f_equal. f_equal; unfold dscom_ZCOSGS, dscom_ZSINGS, dscom_ZCOSIS, dscom_ZSINIS, dscom_C1SS; rops; dec; field.
Qed.
Lemma moon_pass : @dscom_pass R ROps (sin i) (cos i) (sin w) (cos w) e (e * (e * 1)) (1 - e * (e * 1)) (sqrt (1 - e * (e * 1))) (1 / n)
  (MkDscomBody (dl_zcosgl lu) (dl_zsingl lu) (dl_zcosil lu) (dl_zsinil lu) (dl_zcoshl lu * cos om + dl_zsinhl lu * sin om)
    (sin om * dl_zcoshl lu - cos om * dl_zsinhl lu) dscom_C1L) = pl.
Proof.
  assert (C : @dscom_C1L R ROps = 0.00000047968065) by (unfold dscom_C1L; rops; dec; field).
  rewrite C. reflexivity.
Qed.
Lemma passes_T : passes.
Proof.
  unfold passes. rewrite <- sun_pass, <- moon_pass.
  assert (ZS : @dscom_ZES R ROps = e_sun) by (unfold dscom_ZES, e_sun; rops; dec; lra).
  assert (ZL : @dscom_ZEL R ROps = e_moon) by (unfold dscom_ZEL, e_moon; rops; dec; lra).
  rewrite <- ZS, <- ZL.
  repeat split; reflexivity.
Qed.

Variables (o : SGP4InitOptions R) (k : @drift R) (u : Satrec R).
Hypothesis Hi : in_xinclo o = i.
Let r := dsinit_rates (deep_options o D k u).
Lemma rates_T :
  rt_dedt r = dp_s1 ps * n_sun * dp_s5 ps + dp_s1 pl * n_moon * dp_s5 pl /\
  rt_didt r = dp_s2 ps * n_sun * (dp_z11 ps + dp_z13 ps) + dp_s2 pl * n_moon * (dp_z11 pl + dp_z13 pl) /\
  rt_dmdt r = - n_sun * dp_s3 ps * (dp_z1 ps + dp_z3 ps - 14 - 6 * e ^ 2) + - n_moon * dp_s3 pl * (dp_z1 pl + dp_z3 pl - 14 - 6 * e ^ 2) /\
  rt_domdt r + cos i * rt_dnodt r = dp_s4 ps * n_sun * (dp_z31 ps + dp_z33 ps - 6) + dp_s4 pl * n_moon * (dp_z31 pl + dp_z33 pl - 6) /\
  (in_range i -> sin i * rt_dnodt r = - n_sun * dp_s2 ps * (dp_z21 ps + dp_z23 ps) + - n_moon * dp_s2 pl * (dp_z21 pl + dp_z23 pl)) /\
  (~ in_range i -> rt_dnodt r = 0).
Proof.
  assert (I : no_inclm (deep_options o D k u) = i) by exact Hi.
  pose proof (rates_q (deep_options o D k u)) as Q. rewrite I in Q. specialize (Q eq_refl).
  fold r in Q. set (R1 := r) in *. clearbody R1.
  rewrite <- sun_pass, <- moon_pass. exact Q.
Qed.

(** Everything together. *)
Theorem third_body : exists g, lunar_perigee d g /\ exists Hs,
  (in_range i -> sin i * rt_dnodt r = Hs) /\ (~ in_range i -> rt_dnodt r = 0) /\
  forall fs fm, let U := disturbing n sun (moon d g) fs fm in exists Uw Uo Ui Ue,
    derivable_pt_lim (fun x => U (e ^ 2) i x om) w Uw /\ derivable_pt_lim (fun x => U (e ^ 2) i w x) om Uo /\
    derivable_pt_lim (fun x => U (e ^ 2) x w om) i Ui /\ derivable_pt_lim (fun x => U x i w om) (e ^ 2) Ue /\
    e * (rt_dedt r + n_sun * wave_rate (dr_se2 D) (dr_se3 D) 0 fs + n_moon * wave_rate (dr_ee2 D) (dr_e3 D) 0 fm) = - beta * Uw /\
    (e = 0 -> rt_dedt r = 0 /\ dr_se2 D = 0 /\ dr_se3 D = 0 /\ dr_ee2 D = 0 /\ dr_e3 D = 0) /\
    sin i * (rt_didt r + n_sun * wave_rate (dr_si2 D) (dr_si3 D) 0 fs + n_moon * wave_rate (dr_xi2 D) (dr_xi3 D) 0 fm) = (cos i * Uw - Uo) / beta /\
    rt_dmdt r + n_sun * wave_rate (dr_sl2 D) (dr_sl3 D) (dr_sl4 D) fs + n_moon * wave_rate (dr_xl2 D) (dr_xl3 D) (dr_xl4 D) fm =
      - (4 * U (e ^ 2) i w om + 2 * beta ^ 2 * Ue) /\
    rt_domdt r + cos i * rt_dnodt r + n_sun * wave_rate (dr_sgh2 D) (dr_sgh3 D) (dr_sgh4 D) fs
      + n_moon * wave_rate (dr_xgh2 D) (dr_xgh3 D) (dr_xgh4 D) fm = 2 * beta * Ue /\
    Hs + n_sun * wave_rate (dr_sh2 D) (dr_sh3 D) 0 fs + n_moon * wave_rate (dr_xh2 D) (dr_xh3 D) 0 fm = Ui / beta.
Proof.
  destruct (lunar_T ep e w i om n) as (_ & _ & L1 & L2 & L3 & L4 & g & LG & L5 & L6). fold op lu d in L1, L2, L3, L4, LG, L5, L6.
  exists g. split; [exact LG|].
  destruct passes_T as (E1 & E2 & E3 & E4 & E5 & E6 & E7 & E8 & E9 & E10 & E11 & E12 & E13 & E14 & E15 & E16 & E17 & E18 & E19 & E20 & E21 & E22 & E23 & E24).
  destruct rates_T as (R1 & R2 & R3 & R4 & R5 & R6).
  rewrite E1, E2, E3, E4, E5, E6, E7, E8, E9, E10, E11, E12, E13, E14, E15, E16, E17, E18, E19, E20, E21, E22, E23, E24.
  rewrite R1, R2, R3.
  exists (- n_sun * dp_s2 ps * (dp_z21 ps + dp_z23 ps) + - n_moon * dp_s2 pl * (dp_z21 pl + dp_z23 pl)).
  split; [exact R5|]. split; [exact R6|]. rewrite R4. clear R1 R2 R3 R4 R5 R6 E1 E2 E3 E4 E5 E6 E7 E8 E9 E10 E11 E12 E13 E14 E15 E16 E17 E18 E19 E20 E21 E22 E23 E24.
  intros fs fm U.
  assert (HB : 0 < beta) by (apply pbeta; exact He).
  assert (HB2 : beta ^ 2 = 1 - e ^ 2).
  { unfold beta. rewrite pow2_sqrt; [reflexivity|nra]. }
  set (Vs := potential (closeness sun fs) (direction sun fs)). set (Vm := potential (closeness (moon d g) fm) (direction (moon d g) fm)).
  set (Ks := b_strength sun / n). set (Km := b_strength (moon d g) / n).
  set (ds := direction sun fs). set (dm := direction (moon d g) fm).
  exists (Ks * (15 / 2 * e ^ 2 * fX ds i w om * fY ds i w om) + Km * (15 / 2 * e ^ 2 * fX dm i w om * fY dm i w om)).
  eexists. eexists. eexists.
  split; [|split; [|split; [|split]]].
  1:{ apply (dl_sum Ks Km (fun x => Vs (e ^ 2) i x om) (fun x => Vm (e ^ 2) i x om)); apply pot_dw. }
  1:{ apply (dl_sum Ks Km (fun x => Vs (e ^ 2) i w x) (fun x => Vm (e ^ 2) i w x)); apply pot_dom. }
  1:{ apply (dl_sum Ks Km (fun x => Vs (e ^ 2) x w om) (fun x => Vm (e ^ 2) x w om)); apply pot_di. }
  1:{ apply (dl_sum Ks Km (fun x => Vs x i w om) (fun x => Vm x i w om)); apply pot_de. }
  fold ds dm.
  pose proof (body_e 0.1945905 (- 0.98088458) 0.91744867 0.39785416 1 0 0.0000029864797 e i w om n He Hn n_sun e_sun fs) as Be.
  pose proof (body_i 0.1945905 (- 0.98088458) 0.91744867 0.39785416 1 0 0.0000029864797 e i w om n He Hn n_sun e_sun fs) as Bi.
  pose proof (body_h 0.1945905 (- 0.98088458) 0.91744867 0.39785416 1 0 0.0000029864797 e i w om n He Hn n_sun e_sun fs) as Bh.
  pose proof (body_gh 0.1945905 (- 0.98088458) 0.91744867 0.39785416 1 0 0.0000029864797 e i w om n He Hn n_sun e_sun fs) as Bg.
  pose proof (body_m 0.1945905 (- 0.98088458) 0.91744867 0.39785416 1 0 0.0000029864797 e i w om n He Hn n_sun e_sun fs) as Bm.
  change (MkBody n_sun e_sun _ _ _) with sun in Be, Bi, Bh, Bg, Bm. fold beta ps ds Ks in Be, Bi, Bh, Bg, Bm. fold Vs in Bm.
  assert (PL : pl = @dscom_pass R ROps (sin i) (cos i) (sin w) (cos w) e (e ^ 2) (1 - e ^ 2) beta (1 / n)
  (MkDscomBody (cos g) (sin g) (cos_il d) (sin_il d) (cos_hl d * cos om + sin_hl d * sin om)
    (sin om * cos_hl d - cos om * sin_hl d) 0.00000047968065)).
  { unfold pl. rewrite L1, L2, L3, L4, L5, L6. reflexivity. }
  pose proof (body_e (cos g) (sin g) (cos_il d) (sin_il d) (cos_hl d) (sin_hl d) 0.00000047968065 e i w om n He Hn n_moon e_moon fm) as Ce.
  pose proof (body_i (cos g) (sin g) (cos_il d) (sin_il d) (cos_hl d) (sin_hl d) 0.00000047968065 e i w om n He Hn n_moon e_moon fm) as Ci.
  pose proof (body_h (cos g) (sin g) (cos_il d) (sin_il d) (cos_hl d) (sin_hl d) 0.00000047968065 e i w om n He Hn n_moon e_moon fm) as Ch.
  pose proof (body_gh (cos g) (sin g) (cos_il d) (sin_il d) (cos_hl d) (sin_hl d) 0.00000047968065 e i w om n He Hn n_moon e_moon fm) as Cg.
  pose proof (body_m (cos g) (sin g) (cos_il d) (sin_il d) (cos_hl d) (sin_hl d) 0.00000047968065 e i w om n He Hn n_moon e_moon fm) as Cm.
  change (MkBody n_moon e_moon _ _ _) with (moon d g) in Ce, Ci, Ch, Cg, Cm. fold beta in Ce, Ci, Ch, Cg, Cm. rewrite <- PL in Ce, Ci, Ch, Cg, Cm.
  fold dm Km in Ce, Ci, Ch, Cg, Cm. fold Vm in Cm.
  assert (Z : e = 0 -> dp_s1 ps = 0 /\ dp_s1 pl = 0).
  { intros E0. destruct (pass_T 0.1945905 (- 0.98088458) 0.91744867 0.39785416 1 0 0.0000029864797 e i w om n He Hn) as (_ & _ & _ & Q1 & _).
    destruct (pass_T (cos g) (sin g) (cos_il d) (sin_il d) (cos_hl d) (sin_hl d) 0.00000047968065 e i w om n He Hn) as (_ & _ & _ & Q2 & _).
    fold beta in Q1, Q2. fold ps in Q1. rewrite <- PL in Q2. rewrite Q1, Q2, E0. split; ring. }
  assert (UE : U (e ^ 2) i w om = Ks * Vs (e ^ 2) i w om + Km * Vm (e ^ 2) i w om) by reflexivity.
  rewrite UE. clear UE. clearbody U. clear PL L1 L2 L3 L4 L5 L6 LG.
  split; [|split; [|split; [|split; [|split]]]].
  - match goal with |- e * (?a + ?b + ?x + ?y) = _ => replace (a + b + x + y) with ((a + x) + (b + y)) by ring end.
    rewrite Be, Ce. ring.
  - intros E0. destruct (Z E0) as [-> ->]. repeat split; ring.
  - match goal with |- sin i * (?a + ?b + ?x + ?y) = _ => replace (a + b + x + y) with ((a + x) + (b + y)) by ring end.
    rewrite Bi, Ci. unfold fXo, fYo. field. lra.
  - match goal with |- (?a + ?b + ?x + ?y) = _ => replace (a + b + x + y) with ((a + x) + (b + y)) by ring end.
    rewrite Bm, Cm, HB2. unfold Vs, Vm. fold ds dm. ring.
  - match goal with |- (?a + ?b + ?x + ?y) = _ => replace (a + b + x + y) with ((a + x) + (b + y)) by ring end.
    rewrite Bg, Cg. ring.
  - match goal with |- (?a + ?b + ?x + ?y) = _ => replace (a + b + x + y) with ((a + x) + (b + y)) by ring end.
    rewrite Bh, Ch. field. lra.
Qed.
End Assemble.

Lemma dsinit_rates_eq (q : DsinitOptions R) : nr_dedt (dsinit q) = rt_dedt (dsinit_rates q) /\ nr_didt (dsinit q) = rt_didt (dsinit_rates q) /\
  nr_dmdt (dsinit q) = rt_dmdt (dsinit_rates q) /\ nr_dnodt (dsinit q) = rt_dnodt (dsinit_rates q) /\ nr_domdt (dsinit q) = rt_domdt (dsinit_rates q).
Proof.
  unfold dsinit. cbv zeta. match goal with |- context [if ?b then _ else _] => destruct b end; repeat split; reflexivity.
Qed.
