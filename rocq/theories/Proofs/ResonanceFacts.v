(** * Tesseral resonance: inclination functions, coefficients of [dsinit], and the integration in [dspace] *)
From Coq Require Import ZArith List Bool Reals Lra Psatz Lia.
Import ListNotations.
From Flocq Require Import Core.Raux.
From Verif.Model Require Import Float Str Satrec Constants Dscom Dsinit Dspace Sgp4 Sgp4init.
From Verif.Inst Require Import RInst RTac B64Rem.
From Verif.Proofs Require Import InitKind InitElems DeepInit Str3Init ThirdBodyFacts DspaceLoop DspaceR.
From Verif.Spec Require Import Str3Api Resonance.
From Verif.Spec Require Str3.
Local Open Scope R_scope.
Ltac nums := repeat match goal with
  | |- context [zfact ?n] => let v := eval vm_compute in (zfact n) in change (zfact n) with v
  | |- context [zchoose ?n ?k] => let v := eval vm_compute in (zchoose n k) in change (zchoose n k) with v end.

Lemma cpow_cs x (n : nat) : cpow (cos x) (sin x) n = (cos (INR n * x), sin (INR n * x)).
Proof.
  induction n as [|n IH].
  - cbn. rewrite Rmult_0_l, cos_0, sin_0. reflexivity.
  - cbn [cpow]. rewrite IH, S_INR. replace ((INR n + 1) * x) with (INR n * x + x) by ring. rewrite cos_plus, sin_plus. f_equal; ring.
Qed.
Lemma cpow_mul a b c d (n : nat) : cpow (a * c - b * d) (a * d + b * c) n =
  (fst (cpow a b n) * fst (cpow c d n) - snd (cpow a b n) * snd (cpow c d n), fst (cpow a b n) * snd (cpow c d n) + snd (cpow a b n) * fst (cpow c d n)).
Proof.
  induction n as [|n IH]; cbn [cpow].
  - cbn. f_equal; ring.
  - rewrite IH. destruct (cpow a b n), (cpow c d n). cbn [fst snd]. f_equal; ring.
Qed.

(** (x + iy)^m of a point of the orbit *)
Lemma cpow_orbit u i L (m : nat) : let x := cos u * cos L - sin u * cos i * sin L in let y := cos u * sin L + sin u * cos i * cos L in
  cpow x y m = (fst (cpow (cos u) (sin u * cos i) m) * cos (INR m * L) - snd (cpow (cos u) (sin u * cos i) m) * sin (INR m * L),
                fst (cpow (cos u) (sin u * cos i) m) * sin (INR m * L) + snd (cpow (cos u) (sin u * cos i) m) * cos (INR m * L)).
Proof. cbv zeta. rewrite cpow_mul, cpow_cs. reflexivity. Qed.

Lemma sum_ext f g n : (forall k, f k = g k) -> sum_f_R0 f n = sum_f_R0 g n.
Proof. intros H. induction n as [|n IH]; cbn; rewrite ?IH, H; reflexivity. Qed.

Lemma c0 u : cos (0 * u) = 1. Proof. rewrite Rmult_0_l. apply cos_0. Qed.
Lemma s0 u : sin (0 * u) = 0. Proof. rewrite Rmult_0_l. apply sin_0. Qed.
Lemma c1 u : cos (1 * u) = cos u. Proof. f_equal; ring. Qed.
Lemma s1 u : sin (1 * u) = sin u. Proof. f_equal; ring. Qed.
Lemma cp (n : nat) u : cos (INR n * u) = fst (cpow (cos u) (sin u) n). Proof. rewrite cpow_cs. reflexivity. Qed.
Lemma sp (n : nat) u : sin (INR n * u) = snd (cpow (cos u) (sin u) n). Proof. rewrite cpow_cs. reflexivity. Qed.
Lemma cposp (n : positive) u : cos (IZR (Z.pos n) * u) = fst (cpow (cos u) (sin u) (Pos.to_nat n)).
Proof. rewrite <- cp. rewrite INR_IZR_INZ, positive_nat_Z. reflexivity. Qed.
Lemma sposp (n : positive) u : sin (IZR (Z.pos n) * u) = snd (cpow (cos u) (sin u) (Pos.to_nat n)).
Proof. rewrite <- sp. rewrite INR_IZR_INZ, positive_nat_Z. reflexivity. Qed.
Lemma cneg (n : positive) u : cos (IZR (Z.neg n) * u) = fst (cpow (cos u) (sin u) (Pos.to_nat n)).
Proof. rewrite <- cposp. rewrite <- cos_neg. f_equal. change (Z.neg n) with (- Z.pos n)%Z. rewrite opp_IZR. ring. Qed.
Lemma sneg (n : positive) u : sin (IZR (Z.neg n) * u) = - snd (cpow (cos u) (sin u) (Pos.to_nat n)).
Proof. rewrite <- sposp. rewrite <- sin_neg. f_equal. change (Z.neg n) with (- Z.pos n)%Z. rewrite opp_IZR. ring. Qed.

Ltac small_nat := repeat match goal with |- context [Pos.to_nat ?p] => let v := eval vm_compute in (Pos.to_nat p) in change (Pos.to_nat p) with v end.
Ltac harm u i L :=
  unfold harmonic_cos, harmonic_sin; rewrite cpow_orbit; cbn [fst snd];
  unfold legendre_d; cbn [sum_f_R0 Nat.div2 Nat.sub Nat.mul Nat.add];
  rewrite ?cos_plus, ?sin_plus;
  cbn [sum_f_R0]; rewrite ?cos_plus, ?sin_plus;
  match goal with |- context [cos (INR ?m * L)] => generalize (cos (INR m * L)) (sin (INR m * L)); intros A B end;
  cbn [Z.of_nat Pos.of_succ_nat Pos.succ Z.sub Z.mul Pos.mul Z.add Z.opp Z.pos_sub Pos.pred_double Z.double Z.succ_double Z.pred_double Pos.pred_double];
  rewrite ?cposp, ?sposp, ?cneg, ?sneg, ?c0, ?s0; small_nat;
  cbn [cpow fst snd]; unfold inclination_function; cbn [sum_f_R0 Nat.div2 Nat.min Nat.sub Nat.mul Nat.add];
  nums; cbn [Z.mul Pos.mul Pos.add Z.add Pos.succ];
  pose proof (sc2 u) as Eu; pose proof (sc2 i) as Ei.

Lemma harmonics_T l m : In (l, m) [(2, 2); (3, 1); (3, 2); (3, 3); (4, 4); (5, 2); (5, 4)]%nat -> forall u i L,
  let x := cos u * cos L - sin u * cos i * sin L in let y := cos u * sin L + sin u * cos i * cos L in let z := sin u * sin i in
  let along p := IZR (Z.of_nat l - 2 * Z.of_nat p) * u + INR m * L in
  harmonic_cos l m x y z = sum_f_R0 (fun p => inclination_function l m p i * (if Nat.even (l - m) then cos (along p) else sin (along p))) l /\
  harmonic_sin l m x y z = sum_f_R0 (fun p => inclination_function l m p i * (if Nat.even (l - m) then sin (along p) else - cos (along p))) l.
Proof.
  intros H u i L. cbv zeta. cbn [In] in H.
  repeat (destruct H as [H|H]; [injection H as <- <-|]); [..|contradiction]; cbn [Nat.sub Nat.even]; split; harm u i L; field [Eu Ei].
Qed.

(** ** Derivative of the potential *)
Definition total (F : nat -> nat -> nat -> R -> R) G n a e i (terms : list Term) (M w node : R) : R :=
  fold_right Rplus 0 (map (fun t => pull F G n a e i t * sin (angle t M w node)) terms).

Lemma dl_cos_lin k c x : derivable_pt_lim (fun y => cos (k * y + c)) x (- (k * sin (k * x + c))).
Proof.
  eapply dl_val.
  - apply (derivable_pt_lim_comp (fun y => k * y + c) cos x).
    + apply (derivable_pt_lim_plus (fun y => k * y) (fun _ => c)); [|apply derivable_pt_lim_const].
      apply (derivable_pt_lim_scal id k). apply derivable_pt_lim_id.
    + apply derivable_pt_lim_cos.
  - ring.
Qed.
Lemma dl_sin_lin k c x : derivable_pt_lim (fun y => sin (k * y + c)) x (k * cos (k * x + c)).
Proof.
  eapply dl_val.
  - apply (derivable_pt_lim_comp (fun y => k * y + c) sin x).
    + apply (derivable_pt_lim_plus (fun y => k * y) (fun _ => c)); [|apply derivable_pt_lim_const].
      apply (derivable_pt_lim_scal id k). apply derivable_pt_lim_id.
    + apply derivable_pt_lim_sin.
  - ring.
Qed.
Lemma potential_dM F G n a e i terms w node M : 0 < n ->
  derivable_pt_lim (fun y => potential terms F G a e i y w node) M (- (total F G n a e i terms M w node / (3 * n ^ 2))).
Proof.
  intros Hn. assert (Hn2 : n ^ 2 <> 0) by (apply pow_nonzero; lra). unfold potential, total. induction terms as [|t ts IH].
  - cbn [map fold_right]. eapply dl_val; [apply derivable_pt_lim_const|]. field. lra.
  - cbn [map fold_right].
    eapply dl_val; [apply (derivable_pt_lim_plus (fun y => potential_term F G a e i y w node t)
       (fun y => fold_right Rplus 0 (map (potential_term F G a e i y w node) ts))); [|exact IH]|].
    + unfold potential_term. set (c := _ * G _ _ _ _).
      eapply dl_ext with (f := fun y => c * cos (IZR (of_anomaly t) * y + (IZR (of_perigee t) * w + INR (h_m (t_h t)) * node - h_phase (t_h t)))).
      { intros y. unfold angle. f_equal. f_equal. ring. }
      apply (derivable_pt_lim_scal (fun y => cos (IZR (of_anomaly t) * y + _)) c). apply dl_cos_lin.
    + cbv beta. unfold pull, angle.
      replace (IZR (of_anomaly t) * M + (IZR (of_perigee t) * w + INR (h_m (t_h t)) * node - h_phase (t_h t)))
        with (IZR (of_anomaly t) * M + IZR (of_perigee t) * w + INR (h_m (t_h t)) * node - h_phase (t_h t)) by ring.
      set (S := fold_right _ _ _). generalize (sin (IZR (of_anomaly t) * M + IZR (of_perigee t) * w + INR (h_m (t_h t)) * node - h_phase (t_h t))).
      intros q. set (c := h_J (t_h t) / _). field. lra.
Qed.

(** ** Coefficients *)
Ltac dec := unfold Q2R; cbn [QArith_base.Qnum QArith_base.Qden].
Ltac incl := unfold inclination_function; cbn [sum_f_R0 Nat.div2 Nat.min Nat.sub Nat.mul Nat.add]; nums; cbn [Z.mul Pos.mul Pos.add Z.add Pos.succ].
(** The program's inclination functions: those of degree 5 and order 2 have rounded coefficients. *)
Definition F_code (l m p : nat) (i : R) : R :=
  match l, m, p with
  | 5%nat, 2%nat, 2%nat => 9.84375 * sin i * (sin i ^ 2 * (1 - 2 * cos i - 5 * cos i ^ 2) + 0.33333333 * (- 2 + 4 * cos i + 6 * cos i ^ 2))
  | 5%nat, 2%nat, 3%nat => sin i * (4.92187512 * sin i ^ 2 * (- 2 - 4 * cos i + 10 * cos i ^ 2) + 6.56250012 * (1 + 2 * cos i - 3 * cos i ^ 2))
  | _, _, _ => inclination_function l m p i
  end.
Lemma F_code_same l m p i : (l, m) <> (5, 2)%nat -> F_code l m p i = inclination_function l m p i.
Proof.
  intros H. unfold F_code. do 6 (destruct l as [|l]; try reflexivity). do 3 (destruct m as [|m]; try reflexivity). now elim H.
Qed.
Lemma F_code_close p i : Rabs (F_code 5 2 p i - inclination_function 5 2 p i) <= 2e-6.
Proof.
  pose proof (COS_bound i) as C. pose proof (SIN_bound i) as S. pose proof (sc2 i) as E.
  assert (Z : Rabs (inclination_function 5 2 p i - inclination_function 5 2 p i) <= 2e-6).
  { rewrite Rminus_diag_eq by reflexivity. rewrite Rabs_R0. dec. lra. }
  unfold F_code. destruct p as [|[|[|[|p]]]]; try exact Z; clear Z.
  - set (d := _ - _). assert (D : d = - (9.84375 / 300000000) * (sin i * (- 2 + 4 * cos i + 6 * cos i ^ 2))).
    { unfold d. incl. dec. field. }
    rewrite D. clear d D E. set (c := cos i) in *. set (s := sin i) in *. clearbody c s.
    assert (B : Rabs (- 2 + 4 * c + 6 * c ^ 2) <= 12) by (apply Rabs_le; split; nra).
    rewrite Rabs_mult, Rabs_Ropp, Rabs_mult. assert (Rabs s <= 1) by (apply Rabs_le; lra).
    pose proof (Rabs_pos s). pose proof (Rabs_pos (- 2 + 4 * c + 6 * c ^ 2)).
    set (x := Rabs s) in *. set (y := Rabs (- 2 + 4 * c + 6 * c ^ 2)) in *. clearbody x y.
    dec. rewrite Rabs_right by lra. assert (0 <= x * y <= 12) by nra. lra.
  - set (d := _ - _). assert (D : d = 0.00000012 * (sin i * (sin i ^ 2 * (- 2 - 4 * cos i + 10 * cos i ^ 2) + (1 + 2 * cos i - 3 * cos i ^ 2)))).
    { unfold d. incl. dec. field. }
    rewrite D. clear d D. rewrite E. set (c := cos i) in *. set (s := sin i) in *. clearbody c s.
    rewrite !Rabs_mult. assert (Rabs s <= 1) by (apply Rabs_le; lra).
    assert (B : Rabs ((1 - c ^ 2) * (- 2 - 4 * c + 10 * c ^ 2) + (1 + 2 * c - 3 * c ^ 2)) <= 16).
    { assert (0 <= 1 - c ^ 2 <= 1) by nra. assert (- 6 <= - 2 - 4 * c + 10 * c ^ 2 <= 12) by (split; nra).
      set (u := 1 - c ^ 2) in *. set (v := - 2 - 4 * c + 10 * c ^ 2) in *. clearbody v. assert (- 6 <= u * v <= 12) by (split; nra).
      assert (-4 <= 1 + 2 * c - 3 * c ^ 2 <= 4) by (split; nra). apply Rabs_le. lra. }
    dec. set (x := Rabs s) in *. set (y := Rabs (_ + _)) in *. pose proof (Rabs_pos s). pose proof (Rabs_pos ((1 - c ^ 2) * (- 2 - 4 * c + 10 * c ^ 2) + (1 + 2 * c - 3 * c ^ 2))).
    fold x in H0. fold y in H1. clearbody x y. rewrite Rabs_right by lra. assert (0 <= x * y <= 16) by nra. lra.
Qed.

Section Coefs.
Variable q : DsinitOptions R.
Variables e i : R.
Hypothesis Hc : no_cosim q = cos i.
Hypothesis Hs : no_sinim q = sin i.
Hypothesis He : no_ecco q = e.
Hypothesis Hq : no_eccsq q = e * e.
Hypothesis Hm : no_emsq q = e * e.

Lemma gfuns_T : let g := @dsinit_gfuns R ROps e (e * e) in
  gf_g201 g = G_half_day 2 0 (-1) e /\ gf_g211 g = G_half_day 2 1 1 e /\ gf_g310 g = G_half_day 3 1 0 e /\ gf_g322 g = G_half_day 3 2 2 e /\
  gf_g410 g = G_half_day 4 1 0 e /\ gf_g422 g = G_half_day 4 2 2 e /\ gf_g520 g = G_half_day 5 2 0 e /\ gf_g521 g = G_half_day 5 2 1 e /\
  gf_g532 g = G_half_day 5 3 2 e /\ gf_g533 g = G_half_day 5 3 3 e.
Proof.
  cbv zeta. unfold dsinit_gfuns. cbv zeta. cbn [gf_g201 gf_g211 gf_g310 gf_g322 gf_g410 gf_g422 gf_g520 gf_g521 gf_g532 gf_g533]. rops.
  unfold G_half_day, split, split_lt, cubic.
  assert (B65 : Rle_bool e (65 / 100) = if Rle_dec e 0.65 then true else false).
  { destruct (Rle_dec e 0.65) as [h|h]; revert h; dec; intros h; [apply Rle_bool_t|apply Rle_bool_f]; lra. }
  assert (B715 : Rlt_bool (715 / 1000) e = if Rle_dec e 0.715 then false else true).
  { destruct (Rle_dec e 0.715) as [h|h]; revert h; dec; intros h; [apply Rlt_bool_f|apply Rlt_bool_t]; lra. }
  assert (B7 : Rlt_bool e (7 / 10) = if Rlt_dec e 0.7 then true else false).
  { destruct (Rlt_dec e 0.7) as [h|h]; revert h; dec; intros h; [apply Rlt_bool_t|apply Rlt_bool_f]; lra. }
  rewrite ?B65, ?B715, ?B7. clear B65 B715 B7.
  destruct (Rle_dec e 0.65), (Rle_dec e 0.715), (Rlt_dec e 0.7); repeat split; dec; field.
Qed.

Lemma half_T dm dn n th a : a <> 0 -> let h := dsinit_half q dm dn n th (/ a) in
  let d t := pull F_code G_half_day n a e i t in
  hf_d2201 h = d (MkTerm H22 0 (-1)) /\ hf_d2211 h = d (MkTerm H22 1 1) /\ hf_d3210 h = d (MkTerm H32 1 0) /\ hf_d3222 h = d (MkTerm H32 2 2) /\
  hf_d4410 h = d (MkTerm H44 1 0) /\ hf_d4422 h = d (MkTerm H44 2 2) /\ hf_d5220 h = d (MkTerm H52 2 0) /\ hf_d5232 h = d (MkTerm H52 3 2) /\
  hf_d5421 h = d (MkTerm H54 2 1) /\ hf_d5433 h = d (MkTerm H54 3 3).
Proof.
  intros Ha. cbv zeta. destruct gfuns_T as (G1 & G2 & G3 & G4 & G5 & G6 & G7 & G8 & G9 & G10).
  assert (X : exists g, dsinit_gfuns (no_ecco q) (no_eccsq q) = g /\ g = @dsinit_gfuns R ROps e (e * e)) by (eexists; rewrite He, Hq; split; reflexivity).
  destruct X as (g & X1 & X2). rewrite <- X2 in *. clear X2.
  unfold dsinit_half. cbv zeta. rewrite X1, Hc, Hs. clear X1.
  cbn [hf_d2201 hf_d2211 hf_d3210 hf_d3222 hf_d4410 hf_d4422 hf_d5220 hf_d5232 hf_d5421 hf_d5433].
  rewrite G1, G2, G3, G4, G5, G6, G7, G8, G9, G10. clear - Ha.
  unfold dsinit_ROOT22, dsinit_ROOT32, dsinit_ROOT44, dsinit_ROOT52, dsinit_ROOT54. rops.
  unfold pull, of_anomaly, of_perigee. cbn [t_h t_p t_q h_l h_m h_J H22 H32 H44 H52 H54].
  generalize G_half_day. intros G.
  repeat split; cbn [Z.of_nat Pos.of_succ_nat Pos.succ Z.sub Z.mul Pos.mul Z.add Z.opp Z.pos_sub Pos.pred_double Z.double Z.succ_double Z.pred_double];
    pose proof (sc2 i) as Ei; unfold F_code; incl; dec; unfold Rdiv; rewrite ?pow_inv; field [Ei]; exact Ha.
Qed.
Lemma half_phase dm dn n th a : let h := dsinit_half q dm dn n th a in
  hf_xlamo h = Rrem (no_mo q + no_nodeo q + no_nodeo q - (th + th)) (2 * PI) /\
  hf_xfact h = no_mdot q + dm + 2 * (no_nodedot q + dn - 0.00437526908801129966) - no_no q.
Proof. cbv zeta. unfold dsinit_half. cbv zeta. cbn [hf_xlamo hf_xfact]. unfold dsinit_RPTIM. rewrite kTWO_PI_R. rops. split; [reflexivity|]. dec. lra. Qed.

Lemma sync_T dm dn dw n th a : a <> 0 -> let y := dsinit_sync q dm dn dw n th (/ a) in
  let d t := pull inclination_function G_one_day n a e i t in
  sy_del1 y = d (MkTerm H31 1 0) /\ sy_del2 y = d (MkTerm H22 0 0) /\ sy_del3 y = d (MkTerm H33 0 0).
Proof.
  intros Ha. cbv zeta. unfold dsinit_sync. cbv zeta. rewrite Hm, Hc, Hs. cbn [sy_del1 sy_del2 sy_del3].
  unfold dsinit_Q22, dsinit_Q31, dsinit_Q33. rops. clear - Ha.
  unfold pull, of_anomaly, of_perigee, G_one_day. cbn [t_h t_p t_q h_l h_m h_J H22 H31 H33].
  repeat split; cbn [Z.of_nat Pos.of_succ_nat Pos.succ Z.sub Z.mul Pos.mul Z.add Z.opp Z.pos_sub Pos.pred_double Z.double Z.succ_double Z.pred_double];
    pose proof (sc2 i) as Ei; incl; dec; unfold Rdiv; rewrite ?pow_inv; field [Ei]; exact Ha.
Qed.
Lemma sync_phase dm dn dw n th a : let y := dsinit_sync q dm dn dw n th a in
  sy_xlamo y = Rrem (no_mo q + no_nodeo q + no_argpo q - th) (2 * PI) /\
  sy_xfact y = no_mdot q + no_xpidot q + dm + dw + dn - (no_no q + 0.00437526908801129966).
Proof. cbv zeta. unfold dsinit_sync. cbv zeta. cbn [sy_xlamo sy_xfact]. unfold dsinit_RPTIM. rewrite kTWO_PI_R. rops. split; [reflexivity|]. dec. lra. Qed.
End Coefs.

(** ** Rates of the integrator *)
Section Rates.
Variable o : DspaceOptions R.
Definition f_sync (lam : R) : R :=
  so_del1 o * sin (lam - 0.13130908) + so_del2 o * sin (2 * (lam - 2.8843198)) + so_del3 o * sin (3 * (lam - 0.37448087)).
Definition fl_sync (lam : R) : R :=
  so_del1 o * cos (lam - 0.13130908) + 2 * so_del2 o * cos (2 * (lam - 2.8843198)) + 3 * so_del3 o * cos (3 * (lam - 0.37448087)).
Lemma dots_sync t lam x : dspace_dots_sync o t lam x = MkDots (f_sync lam) (x + so_xfact o) (fl_sync lam * (x + so_xfact o)).
Proof.
  unfold dspace_dots_sync, dspace_FASX2, dspace_FASX4, dspace_FASX6. cbv zeta. rops. unfold f_sync, fl_sync. dec. reflexivity.
Qed.
Lemma sin_k k c lam : derivable_pt_lim (fun y => sin (c + k * y)) lam (k * cos (c + k * lam)).
Proof.
  eapply dl_ext; [|eapply dl_val; [apply (dl_sin_lin k c)|]]; [intros y; cbv beta; f_equal; ring|]. f_equal. f_equal. ring.
Qed.
Fixpoint trig (l : list (R * R * R)) (y : R) : R := match l with [] => 0 | (a, c, k) :: r => a * sin (c + k * y) + trig r y end.
Fixpoint trig_d (l : list (R * R * R)) (y : R) : R := match l with [] => 0 | (a, c, k) :: r => k * a * cos (c + k * y) + trig_d r y end.
Lemma trig_dl l y : derivable_pt_lim (trig l) y (trig_d l y).
Proof.
  induction l as [|[[a c] k] l IH]; cbn [trig trig_d]; [apply derivable_pt_lim_const|].
  eapply dl_val; [apply (derivable_pt_lim_plus (fun y => a * sin (c + k * y)) (trig l)); [|exact IH]|].
  - apply (derivable_pt_lim_scal (fun y => sin (c + k * y)) a), sin_k.
  - ring.
Qed.
Ltac terms := repeat match goal with |- _ + _ = _ + _ => apply f_equal2 | |- ?a * sin ?x = ?a * sin ?y => apply f_equal; apply f_equal; dec; field
  | |- ?a * cos ?x = ?a * cos ?y => apply f_equal; apply f_equal; dec; field
  | |- _ * ?a * cos ?x = _ * cos ?y => replace x with y by (dec; field); ring end.
Lemma f_sync_d lam : derivable_pt_lim f_sync lam (fl_sync lam).
Proof.
  set (l := [(so_del1 o, - 0.13130908, 1); (so_del2 o, - (2 * 2.8843198), 2); (so_del3 o, - (3 * 0.37448087), 3)]).
  eapply dl_ext; [|eapply dl_val; [apply (trig_dl l)|]].
  - intros y. unfold l, f_sync. cbn [trig]. rewrite Rplus_0_r, <- !Rplus_assoc. terms.
  - unfold l, fl_sync. cbn [trig_d]. rewrite Rplus_0_r, <- !Rplus_assoc. terms.
Qed.
Lemma f_sync_T F G n a e i M w node :
  so_del1 o = pull F G n a e i (MkTerm H31 1 0) -> so_del2 o = pull F G n a e i (MkTerm H22 0 0) -> so_del3 o = pull F G n a e i (MkTerm H33 0 0) ->
  total F G n a e i one_day M w node = f_sync (M + w + node).
Proof.
  intros H1 H2 H3. unfold total, one_day, f_sync. cbn [map fold_right]. rewrite H1, H2, H3.
  unfold angle, of_anomaly, of_perigee. cbn [t_h t_p t_q h_l h_m h_phase H31 H22 H33].
  cbn [Z.of_nat Pos.of_succ_nat Pos.succ Z.sub Z.mul Pos.mul Z.add Z.opp Z.pos_sub Pos.pred_double Z.double Z.succ_double Z.pred_double INR].
  rewrite Rplus_0_r, <- !Rplus_assoc. dec.
  repeat match goal with |- _ + _ = _ + _ => apply f_equal2 | |- ?a * sin ?x = ?a * sin ?y => apply f_equal; apply f_equal; field end.
Qed.

Definition w_at (t : R) : R := so_argpo o + so_argpdot o * t.
Definition f_half (t lam : R) : R := let w := w_at t in
  so_d2201 o * sin (2 * w + lam - 5.7686396) + so_d2211 o * sin (lam - 5.7686396) + so_d3210 o * sin (w + lam - 0.95240898) +
  so_d3222 o * sin (- w + lam - 0.95240898) + so_d4410 o * sin (2 * w + 2 * lam - 1.8014998) + so_d4422 o * sin (2 * lam - 1.8014998) +
  so_d5220 o * sin (w + lam - 1.050833) + so_d5232 o * sin (- w + lam - 1.050833) + so_d5421 o * sin (w + 2 * lam - 4.4108898) +
  so_d5433 o * sin (- w + 2 * lam - 4.4108898).
(** what the program leaves out of the derivative *)
Definition omitted (t lam : R) : R := let w := w_at t in
  so_d4422 o * cos (2 * lam - 1.8014998) + so_d5421 o * cos (w + 2 * lam - 4.4108898) + so_d5433 o * cos (- w + 2 * lam - 4.4108898).
Definition fl_half (t lam : R) : R := let w := w_at t in
  so_d2201 o * cos (2 * w + lam - 5.7686396) + so_d2211 o * cos (lam - 5.7686396) + so_d3210 o * cos (w + lam - 0.95240898) +
  so_d3222 o * cos (- w + lam - 0.95240898) + 2 * so_d4410 o * cos (2 * w + 2 * lam - 1.8014998) + 2 * so_d4422 o * cos (2 * lam - 1.8014998) +
  so_d5220 o * cos (w + lam - 1.050833) + so_d5232 o * cos (- w + lam - 1.050833) + 2 * so_d5421 o * cos (w + 2 * lam - 4.4108898) +
  2 * so_d5433 o * cos (- w + 2 * lam - 4.4108898).
Lemma dots_half t lam x : dspace_dots_half o t lam x =
  MkDots (f_half t lam) (x + so_xfact o) ((fl_half t lam - omitted t lam) * (x + so_xfact o)).
Proof.
  unfold dspace_dots_half, dspace_G22, dspace_G32, dspace_G44, dspace_G52, dspace_G54. cbv zeta. rops. unfold f_half, fl_half, omitted, w_at. cbv zeta. dec.
  replace (so_argpo o + so_argpdot o * t + (so_argpo o + so_argpdot o * t)) with (2 * (so_argpo o + so_argpdot o * t)) by ring.
  replace (lam + lam) with (2 * lam) by ring. unfold Rdiv. f_equal. ring.
Qed.
Lemma f_half_d t lam : derivable_pt_lim (f_half t) lam (fl_half t lam).
Proof.
  set (w := w_at t).
  set (l := [(so_d2201 o, 2 * w - 5.7686396, 1); (so_d2211 o, - 5.7686396, 1); (so_d3210 o, w - 0.95240898, 1); (so_d3222 o, - w - 0.95240898, 1);
    (so_d4410 o, 2 * w - 1.8014998, 2); (so_d4422 o, - 1.8014998, 2); (so_d5220 o, w - 1.050833, 1); (so_d5232 o, - w - 1.050833, 1);
    (so_d5421 o, w - 4.4108898, 2); (so_d5433 o, - w - 4.4108898, 2)]).
  eapply dl_ext; [|eapply dl_val; [apply (trig_dl l)|]].
  - intros y. unfold l, f_half. cbn [trig]. fold w. rewrite Rplus_0_r, <- !Rplus_assoc. terms.
  - unfold l, fl_half. cbn [trig_d]. fold w. rewrite Rplus_0_r, <- !Rplus_assoc. terms.
Qed.
Lemma f_half_T F G n a e i t M node :
  so_d2201 o = pull F G n a e i (MkTerm H22 0 (-1)) -> so_d2211 o = pull F G n a e i (MkTerm H22 1 1) ->
  so_d3210 o = pull F G n a e i (MkTerm H32 1 0) -> so_d3222 o = pull F G n a e i (MkTerm H32 2 2) ->
  so_d4410 o = pull F G n a e i (MkTerm H44 1 0) -> so_d4422 o = pull F G n a e i (MkTerm H44 2 2) ->
  so_d5220 o = pull F G n a e i (MkTerm H52 2 0) -> so_d5232 o = pull F G n a e i (MkTerm H52 3 2) ->
  so_d5421 o = pull F G n a e i (MkTerm H54 2 1) -> so_d5433 o = pull F G n a e i (MkTerm H54 3 3) ->
  total F G n a e i half_day M (w_at t) node = f_half t (M + 2 * node).
Proof.
  intros H1 H2 H3 H4 H5 H6 H7 H8 H9 H10. unfold total, half_day, f_half. cbn [map fold_right]. rewrite H1, H2, H3, H4, H5, H6, H7, H8, H9, H10.
  unfold angle, of_anomaly, of_perigee. cbn [t_h t_p t_q h_l h_m h_phase H22 H32 H44 H52 H54].
  cbn [Z.of_nat Pos.of_succ_nat Pos.succ Z.sub Z.mul Pos.mul Z.add Z.opp Z.pos_sub Pos.pred_double Z.double Z.succ_double Z.pred_double Pos.add INR].
  set (w := w_at t). rewrite Rplus_0_r, <- !Rplus_assoc. terms.
Qed.
End Rates.

(** ** The integration *)
Section Integration.
Variable o : DspaceOptions R.
Variables f fl : R -> R -> R.
Hypothesis D : forall t lam x, dspace_dots o t lam x = MkDots (f t lam) (x + so_xfact o) (fl t lam * (x + so_xfact o)).
Lemma STEP2_R : @dspace_STEP2 R ROps = 720 ^ 2 / 2.
Proof. unfold dspace_STEP2. rlit. lra. Qed.
Lemma step_T h g : h = 720 \/ h = -720 -> let y := taylor f fl (so_xfact o) h (ig_atime g) (ig_xli g, ig_xni g) in
  dspace_step o h g = MkInteg (ig_atime g + h) (fst y) (snd y).
Proof.
  intros Hh. cbv zeta. unfold dspace_step. cbv zeta. rewrite D. cbn [dt_xldot dt_xndt dt_xnddt taylor fst snd]. rewrite STEP2_R. rops.
  replace (h ^ 2) with (720 ^ 2) by (destruct Hh as [-> | ->]; ring). f_equal; ring.
Qed.
Lemma orbit_T h k : h = 720 \/ h = -720 -> let y := march f fl (so_xfact o) h k (so_xlamo o, so_no o) in
  orbit o h k = MkInteg (INR k * h) (fst y) (snd y).
Proof.
  intros Hh. induction k as [|k IH]; cbv zeta in *.
  - cbn [orbit march fst snd]. unfold epoch_state. rops. f_equal. cbn. ring.
  - rewrite orbit_S, IH, step_T by exact Hh. cbn [ig_atime ig_xli ig_xni march]. rewrite <- surjective_pairing, S_INR. f_equal. ring.
Qed.
Lemma dspace_T fuel r : so_irez o <> 0 -> so_atime o = 0 -> dspace fuel o = Done r ->
  exists y, integrated f fl (so_xfact o) (so_t o) (so_xlamo o, so_no o) y /\ sx_nm r = snd y /\
    exists k : Z, let th := so_gsto o + so_tc o * 0.00437526908801129966 + 2 * PI * IZR k in
    sx_mm r = if Req_bool (so_irez o) 1 then fst y - sx_nodem r - sx_argpm r + th else fst y - 2 * sx_nodem r + 2 * th.
Proof.
  intros Z A H. rewrite dspace_resonant in H by (rops; rewrite Req_bool_false by exact Z; reflexivity).
  assert (RS : dspace_restart o = epoch_state o).
  { unfold dspace_restart. rewrite A. rops. rewrite Req_bool_true by reflexivity. reflexivity. }
  rewrite RS in H. set (t := so_t o) in *. set (h := dspace_delt t) in *.
  destruct (dspace_loop fuel o h (epoch_state o)) as [g| |] eqn:EL; try discriminate H. cbn [bindO] in H. injection H as <-.
  change (epoch_state o) with (orbit o h 0) in EL. apply loop_orbit in EL. destruct EL as (j & _ & -> & HB & HE). fold t in HB, HE.
  assert (Hd : h = if Rlt_dec 0 t then 720 else -720).
  { unfold h. rewrite delt_R. destruct (Rlt_dec 0 t); [rewrite Rlt_bool_t by assumption|rewrite Rlt_bool_f by lra]; reflexivity. }
  assert (Hh : h = 720 \/ h = -720) by (rewrite Hd; destruct (Rlt_dec 0 t); auto).
  exists (taylor f fl (so_xfact o) (t - INR j * h) (INR j * h) (march f fl (so_xfact o) h j (so_xlamo o, so_no o))).
  split; [|].
  - unfold integrated. cbv zeta. exists j. rewrite <- Hd. split; [|reflexivity].
    apply more_R_f in HE. rewrite orbit_T in HE by exact Hh. cbn [ig_atime] in HE. pose proof (pos_INR j) as Pj.
    assert (LO : 720 * INR j <= Rabs t).
    { destruct j as [|j]; [cbn [INR]; pose proof (Rabs_pos t); lra|].
      assert (Q : dspace_more t (ig_atime (orbit o h j)) = true) by (apply HB; lia). apply more_R in Q. rewrite orbit_T in Q by exact Hh. cbn [ig_atime] in Q.
      rewrite S_INR in *. pose proof (pos_INR j). destruct (Rlt_dec 0 t) as [P|N]; rewrite Hd in *.
      - rewrite (Rabs_right t) by lra. revert Q. unfold Rabs. destruct (Rcase_abs (t - INR j * 720)); intros; try lra.
        (* overshoot: excluded by the previous stops *)
        exfalso. clear HE. revert HB. intros HB.
        assert (X : forall i, (i <= j)%nat -> INR i * 720 <= t).
        { induction i as [|i IHi]; intros Hi; [cbn; lra|].
          assert (Y : dspace_more t (ig_atime (orbit o 720 i)) = true) by (apply HB; lia). apply more_R in Y.
          rewrite orbit_T in Y by auto. cbn [ig_atime] in Y. rewrite Rabs_right in Y by (pose proof (IHi ltac:(lia)); lra). rewrite S_INR. lra. }
        specialize (X j (le_n _)). lra.
      - rewrite (Rabs_left1 t) by lra. revert Q. unfold Rabs. destruct (Rcase_abs (t - INR j * -720)); intros; try lra.
        exfalso. clear HE.
        assert (X : forall i, (i <= j)%nat -> t <= INR i * -720).
        { induction i as [|i IHi]; intros Hi; [cbn; lra|].
          assert (Y : dspace_more t (ig_atime (orbit o (-720) i)) = true) by (apply HB; lia). apply more_R in Y.
          rewrite orbit_T in Y by auto. cbn [ig_atime] in Y. rewrite Rabs_left1 in Y by (pose proof (IHi ltac:(lia)); lra). rewrite S_INR. lra. }
        specialize (X j (le_n _)). lra. }
    split; [exact LO|]. destruct (Rlt_dec 0 t) as [P|N]; rewrite Hd in HE.
    + rewrite Rabs_right in LO by lra. rewrite (Rabs_right t) by lra. rewrite Rabs_right in HE by lra. lra.
    + rewrite Rabs_left1 in LO by lra. rewrite (Rabs_left1 t) by lra. rewrite Rabs_left1 in HE by lra. lra.
  - rewrite orbit_T by exact Hh. set (y := march _ _ _ _ _ _). destruct y as [lam n]. unfold finish'. cbv zeta. cbn [ig_atime ig_xli ig_xni fst snd].
    rewrite D. cbn [dt_xldot dt_xndt dt_xnddt sx_nm sx_mm sx_nodem sx_argpm taylor fst snd]. fold t.
    assert (TP : @dspace_TWO_PI R ROps = 2 * PI) by (unfold dspace_TWO_PI, kPI; rops; cbn; ring). rewrite TP. unfold dspace_RPTIM. rops.
    split; [field|].
    match goal with |- context [Rrem ?x (2 * PI)] => destruct (rem_turns x) as [k HK]; exists k; rewrite HK end.
    case Req_bool; cbn [negb]; dec; field.
Qed.
End Integration.

(** ** What [dsinit] returns in each class *)
Lemma irez_R n e : @dsinit_irez R ROps n e =
  if Rle_dec 0.00826 n then if Rle_dec n 0.00924 then if Rle_dec 0.5 e then 2 else 0 else 0
  else if Rlt_dec 0.0034906585 n then if Rlt_dec n 0.0052359877 then 1 else 0 else 0.
Proof.
  unfold dsinit_irez. cbv zeta. rops. dec.
  destruct (Rle_dec (826 * / 100000) n), (Rle_dec n (924 * / 100000)), (Rle_dec (5 * / 10) e), (Rlt_dec (34906585 * / 10000000000) n), (Rlt_dec n (52359877 * / 10000000000));
    repeat match goal with
    | |- context [Rlt_bool ?a ?b] => first [rewrite (Rlt_bool_t a b) by lra | rewrite (Rlt_bool_f a b) by lra]
    | |- context [Rle_bool ?a ?b] => first [rewrite (Rle_bool_t a b) by lra | rewrite (Rle_bool_f a b) by lra] end;
    cbn [andb]; try reflexivity; lra.
Qed.

Definition theta0 (q : DsinitOptions R) : R := Rrem (no_gsto q + no_tc q * 0.00437526908801129966) (2 * PI).
Definition inv_a (q : DsinitOptions R) : R := fpow (fdiv (no_nm q) kXKE) kX2O3.
Lemma class1 (q : DsinitOptions R) : dsinit_irez (no_nm q) (no_em q) = 1 -> let r := dsinit_rates q in
  let y := dsinit_sync q (rt_dmdt r) (rt_dnodt r) (rt_domdt r) (no_nm q) (theta0 q) (inv_a q) in let d := dsinit q in
  nr_del1 d = sy_del1 y /\ nr_del2 d = sy_del2 y /\ nr_del3 d = sy_del3 y /\ nr_xlamo d = sy_xlamo y /\ nr_xfact d = sy_xfact y /\
  nr_xli d = sy_xlamo y /\ nr_xni d = no_no q /\ nr_atime d = 0.
Proof.
  intros H. cbv zeta. unfold dsinit. cbv zeta. rewrite H.
  assert (T : @frem R ROps (fadd (no_gsto q) (fmul (no_tc q) dsinit_RPTIM)) kTWO_PI = theta0 q).
  { unfold theta0, dsinit_RPTIM. rewrite kTWO_PI_R. rops. dec. reflexivity. }
  rewrite T. fold (inv_a q).
  assert (X0 : @feq R ROps 1 (L 0 0) = false) by (rops; apply Req_bool_false; lra).
  assert (X1 : @feq R ROps 1 (L 1 0) = true) by (rops; apply Req_bool_true; lra).
  assert (X2 : @feq R ROps 1 (L 2 0) = false) by (rops; apply Req_bool_false; lra).
  rewrite X0, X1, X2. cbn [negb]. repeat split; reflexivity.
Qed.
Lemma class2 (q : DsinitOptions R) : dsinit_irez (no_nm q) (no_em q) = 2 -> let r := dsinit_rates q in
  let h := dsinit_half q (rt_dmdt r) (rt_dnodt r) (no_nm q) (theta0 q) (inv_a q) in let d := dsinit q in
  (nr_d2201 d = hf_d2201 h /\ nr_d2211 d = hf_d2211 h /\ nr_d3210 d = hf_d3210 h /\ nr_d3222 d = hf_d3222 h /\ nr_d4410 d = hf_d4410 h /\
  nr_d4422 d = hf_d4422 h /\ nr_d5220 d = hf_d5220 h /\ nr_d5232 d = hf_d5232 h /\ nr_d5421 d = hf_d5421 h /\ nr_d5433 d = hf_d5433 h) /\
  nr_xlamo d = hf_xlamo h /\ nr_xfact d = hf_xfact h /\ nr_xli d = hf_xlamo h /\ nr_xni d = no_no q /\ nr_atime d = 0.
Proof.
  intros H. cbv zeta. unfold dsinit. cbv zeta. rewrite H.
  assert (T : @frem R ROps (fadd (no_gsto q) (fmul (no_tc q) dsinit_RPTIM)) kTWO_PI = theta0 q).
  { unfold theta0, dsinit_RPTIM. rewrite kTWO_PI_R. rops. dec. reflexivity. }
  rewrite T. fold (inv_a q).
  assert (X0 : @feq R ROps 2 (L 0 0) = false) by (rops; apply Req_bool_false; lra).
  assert (X1 : @feq R ROps 2 (L 1 0) = false) by (rops; apply Req_bool_false; lra).
  assert (X2 : @feq R ROps 2 (L 2 0) = true) by (rops; apply Req_bool_true; lra).
  rewrite X0, X1, X2. cbn [negb]. repeat split; reflexivity.
Qed.
Lemma class0 (q : DsinitOptions R) : dsinit_irez (no_nm q) (no_em q) = 0 -> let d := dsinit q in
  nr_d2201 d = no_d2201 q /\ nr_d2211 d = no_d2211 q /\ nr_d3210 d = no_d3210 q /\ nr_d3222 d = no_d3222 q /\ nr_d4410 d = no_d4410 q /\
  nr_d4422 d = no_d4422 q /\ nr_d5220 d = no_d5220 q /\ nr_d5232 d = no_d5232 q /\ nr_d5421 d = no_d5421 q /\ nr_d5433 d = no_d5433 q /\
  nr_del1 d = no_del1 q /\ nr_del2 d = no_del2 q /\ nr_del3 d = no_del3 q /\ nr_xfact d = no_xfact q.
Proof.
  intros H. cbv zeta. unfold dsinit. cbv zeta. rewrite H.
  assert (X0 : @feq R ROps 0 (L 0 0) = true) by (rops; apply Req_bool_true; lra).
  rewrite X0. repeat split; reflexivity.
Qed.
Lemma inv_a_T (q : DsinitOptions R) n : no_nm q = n -> 0 < n -> inv_a q = / Str3.two_thirds (Str3.ke / n).
Proof.
  intros Hn Pn. unfold inv_a, Str3.two_thirds. rewrite Hn, kXKE_R, kX2O3_R. change (7436685316871385 / 100000000000000000) with Str3.ke. pose proof ke_pos as K.
  assert (P : 0 < n / Str3.ke) by (apply Rdiv_lt_0_compat; lra).
  rops. rewrite pow23 by exact P. unfold Str3.two_thirds. rewrite <- Rpower_Ropp. unfold Rpower. f_equal.
  unfold Rdiv. rewrite !ln_mult by (try apply Rinv_0_lt_compat; lra). rewrite !ln_Rinv by lra. ring.
Qed.
