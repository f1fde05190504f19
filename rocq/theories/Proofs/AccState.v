(** * Binary64 accuracy of the rest of a propagation: mean angles, periodics, position and velocity *)
From Coq Require Import ZArith QArith Reals Qreals Bool Lra Lia Psatz.
From Flocq Require Import Core IEEE754.BinarySingleNaN.
From Verif.Model Require Import Float Str Satrec Constants Vec3 Initl Sgp4 Sgp4init.
From Verif.Spec Require Import LibmAccuracy.
From Verif.Inst Require Import RInst RTac B64 B64Facts B64Calc ApxCalc Atan2.
From Verif.Proofs Require Import CalcFun CalcPow CalcAngle ApxFun AccInit AccNear AccSecular AccWeek AccLow KeplerFacts AccKepler Str3State.
Local Open Scope R_scope.

(** ** One bound for all eccentricities *)
Definition sbC := SB (Eb (-15) 15 0 (6 # 10 ^ 12)) (Eb (-2230) 2230 0 (6 # 10 ^ 12)) (Eb (-11) 11 0 (3 # 10 ^ 13)) (Eb (-23 # 1000) (23 # 1000) 0 (1 # 10 ^ 13))
  (Eb (-145) 145 0 (6 # 10 ^ 10)) (Eb (-22 # 1000) (4547 # 10000) 0 (1 # 10 ^ 12)) (Eb (975 # 1000) (1992 # 1000) (1 # 10 ^ 12) 0) (Eb (264 # 10000) (773 # 10000) (15 # 10 ^ 13) 0).
Ltac widen H := first [eapply apx_weaken; [exact H|vm_compute; reflexivity..] | eapply apx_weaken; [apply apx_flat; exact H|vm_compute; reflexivity..]].
Ltac common := intros (H1 & H2 & H3 & H4 & H5 & H6 & H7 & H8); unfold sec_ok;
  split; [widen H1|]; split; [widen H2|]; split; [widen H3|]; split; [widen H4|]; split; [widen H5|]; split; [widen H6|]; split; [widen H7|widen H8].
Lemma sec_common b c c' em em' am am' nm nm' : (b = sb1 \/ b = sb2 \/ b = sb3 \/ b = sb4 \/ b = sb5 \/ b = sb6) ->
  sec_ok b c c' em em' am am' nm nm' -> sec_ok sbC c c' em em' am am' nm nm'.
Proof. intros [-> |[-> |[-> |[-> |[-> | ->]]]]]; common. Qed.
Lemma weeks_common b c c' em em' am am' nm nm' : (b = ws1 \/ b = ws2 \/ b = ws3 \/ b = ws4 \/ b = ws5 \/ b = ws6) ->
  sec_ok b c c' em em' am am' nm nm' -> sec_ok sbC c c' em em' am am' nm nm'.
Proof. intros [-> |[-> |[-> |[-> |[-> | ->]]]]]; common. Qed.
Lemma low_common b c c' em em' am am' nm nm' : (b = sl1 \/ b = sl2 \/ b = sl3 \/ b = sl4 \/ b = sl5 \/ b = sl6 \/ b = sl7 \/ b = sl8 \/ b = sl9) ->
  sec_ok b c c' em em' am am' nm nm' -> sec_ok sbC c c' em em' am am' nm nm'.
Proof. intros [-> |[-> |[-> |[-> |[-> |[-> |[-> |[-> | ->]]]]]]]]; common. Qed.

Section S.
Context (lm : libm) (ACC : accurate lm).
Notation B := (B64Ops lm).

(** ** Angles *)
Lemma relm_sin_apx x a X C : relm x a X -> Some (Eb (-1) 1 0 (upq (er X + u52))) = Some C -> apx (@fsin _ B x) (@fsin _ ROps a) C.
Proof.
  intros H HC. injection HC as <-. pose proof (relm_sin lm ACC x a X _ H eq_refl) as R. pose proof (er_pos _ _ _ R). destruct R as (F & I & E). cbn [lo hi er] in *.
  split; [exact F|]. split; [exact I|]. cbn [rr ab]. rewrite Q2R_0. split; [split; [lra|assumption]|]. lra.
Qed.
Lemma relm_cos_apx x a X C : relm x a X -> Some (Eb (-1) 1 0 (upq (er X + u52))) = Some C -> apx (@fcos _ B x) (@fcos _ ROps a) C.
Proof.
  intros H HC. injection HC as <-. pose proof (relm_cos lm ACC x a X _ H eq_refl) as R. pose proof (er_pos _ _ _ R). destruct R as (F & I & E). cbn [lo hi er] in *.
  split; [exact F|]. split; [exact I|]. cbn [rr ab]. rewrite Q2R_0. split; [split; [lra|assumption]|]. lra.
Qed.
Lemma apx_relm x a A : apx x a A -> relm x a (to_bd A).
Proof. intros H. apply rel_relm. exact (apx_rel _ _ _ H). Qed.
Lemma relm_weaken x a A C : relm x a A -> Qle_bool (lo C) (lo A) = true -> Qle_bool (hi A) (hi C) = true -> Qle_bool (er A) (er C) = true -> relm x a C.
Proof. intros [k H] H1 H2 H3. exists k. now apply (rel_weaken _ _ A). Qed.

(** direction of a unit vector *)
Definition atanB (Y X : eb) : bd := Bd (-4) 4 (upq ((101 # 100) * (eer Y + eer X) + (1 # 1000000000000000))).
Lemma relm_atan2 y x b a Y X : apx y b Y -> apx x a X -> b * b + a * a = 1 -> Q2R (eer Y) + Q2R (eer X) <= 1 / 1000 ->
  relm (@fatan2 _ B y x) (@fatan2 _ ROps b a) (atanB Y X).
Proof.
  intros Hy Hx U D. pose proof (apx_rel _ _ _ Hy) as Ry. pose proof (apx_rel _ _ _ Hx) as Rx. pose proof (er_pos _ _ _ Ry) as Py. pose proof (er_pos _ _ _ Rx) as Px.
  destruct Ry as (Fy & _ & Dy). destruct Rx as (Fx & _ & Dx). cbn [er] in *. set (dy := Q2R (eer Y)) in *. set (dx := Q2R (eer X)) in *.
  assert (S1 : sqrt (a * a + b * b) = 1) by (rewrite Rplus_comm, U; apply sqrt_1).
  destruct (atan2_close b a (B2R y) (B2R x) (dy + dx)) as [k K]; rewrite ?S1; [lra| |lra|].
  { apply Rabs_le_inv in Dy, Dx. nra. }
  rewrite S1 in K. assert (KB : (dy + dx) / (1 - (dy + dx)) <= 1002 / 1000 * (dy + dx)).
  { apply (Rmult_le_reg_r (1 - (dy + dx))); [lra|]. unfold Rdiv. rewrite Rmult_assoc, Rinv_l by lra. nra. }
  assert (NZ : B2R y <> 0 \/ B2R x <> 0).
  { destruct (Req_dec (B2R y) 0) as [Zy|]; [|now left]. right. intros Zx. rewrite Zy in Dy. rewrite Zx in Dx. apply Rabs_le_inv in Dy, Dx. nra. }
  destruct (acc_atan2 lm ACC y x Fy Fx NZ) as [FZ V]. cbn [fatan2 ROps B64Ops].
  pose proof (Ratan2_range (B2R y) (B2R x)) as RG. pose proof pi_num as PN. assert (U50 : / 2 ^ 50 <= 1 / 1000000000000000) by lra.
  assert (M : exists j : Z, Rabs (B2R (lm_atan2 lm y x) - (Ratan2 b a + 2 * PI * IZR j)) <= 1002 / 1000 * (dy + dx) + 1 / 1000000000000000 /\ Rabs (B2R (lm_atan2 lm y x)) <= 32 / 10).
  { destruct V as [V|(V1 & V2 & V3)].
    - exists k. split.
      + replace (B2R (lm_atan2 lm y x) - (Ratan2 b a + 2 * PI * IZR k)) with ((B2R (lm_atan2 lm y x) - Ratan2 (B2R y) (B2R x)) + (Ratan2 (B2R y) (B2R x) - Ratan2 b a - 2 * PI * IZR k)) by ring.
        eapply Rle_trans; [apply Rabs_triang|]. lra.
      + apply Rabs_le_inv in V. apply Rabs_le. lra.
    - assert (A : Ratan2 (B2R y) (B2R x) = PI).
      { unfold Ratan2. rewrite V1. rewrite Rlt_bool_false by lra. rewrite Rlt_bool_true by lra. rewrite Rle_bool_true by lra. unfold Rdiv. rewrite Rmult_0_l, atan_0. lra. }
      rewrite A in K. exists (k - 1)%Z. rewrite minus_IZR. split.
      + replace (B2R (lm_atan2 lm y x) - (Ratan2 b a + 2 * PI * (IZR k - 1))) with ((B2R (lm_atan2 lm y x) + PI) + (PI - Ratan2 b a - 2 * PI * IZR k)) by ring.
        eapply Rle_trans; [apply Rabs_triang|]. lra.
      + apply Rabs_le_inv in V3. apply Rabs_le. lra. }
  destruct M as (j & M1 & M2). exists j. split; [exact FZ|]. unfold atanB. cbn [lo hi er]. split.
  - assert (Rabs (B2R (lm_atan2 lm y x) - (Ratan2 b a + 2 * PI * IZR j)) <= 1 / 10) by lra. apply Rabs_le_inv in H, M2. qr.
  - eapply Rle_trans; [exact M1|]. eapply Rle_trans; [|apply upq_ge]. rewrite Q2R_plus, Q2R_mult, Q2R_plus. fold dy dx. unfold Q2R at 1 2. cbn [Qnum Qden]. lra.
Qed.

(** the eccentricity is kept above 1e-6 *)
Definition emB := sb_em sbC.
Definition epB := Eb (1 # 1000000) (4547 # 10000) 0 (11 # 10000000000000).
Lemma ep_acc em em' : apx em em' emB ->
  apx (if @flt _ B em (@L _ B 1 6) then @L _ B 1 6 else em) (if @flt _ ROps em' (@L _ ROps 1 6) then @L _ ROps 1 6 else em') epB.
Proof.
  intros H. pose proof (apx_rel _ _ _ H) as R. destruct R as (F & I & D). cbn [lo hi er] in *.
  assert (HL : rel (@L _ B 1 6) (@L _ ROps 1 6) (Bd (9 # 10000000) (11 # 10000000) (1 # 100000000000000000000))).
  { eapply rel_weaken; [apply (rel_lit lm 1 6); vm_compute; reflexivity|vm_compute; reflexivity..]. }
  destruct HL as (FL & IL & DL). cbn [lo hi er] in *. rewrite (lt_fin lm _ _ F FL). change (@flt _ ROps em' (@L _ ROps 1 6)) with (Rlt_bool em' (@L _ ROps 1 6)).
  assert (LV : @L _ ROps 1 6 = 1 / 1000000) by (rops; lra). set (l := @L _ ROps 1 6) in *. set (e := eer emB) in D. assert (Ev : Q2R e <= 101 / 100000000000000). { apply Rle_trans with (Q2R (101 # 100000000000000)); [apply qle_true; vm_compute; reflexivity|qr]. }
  change (el emB) with (-22 # 1000)%Q in I. change (eh emB) with (4547 # 10000)%Q in I. unfold Q2R in DL, I. cbn [Qnum Qden] in DL, I. assert (D' : Rabs (B2R em - em') <= 101 / 100000000000000) by lra. apply Rabs_le_inv in D', DL. clear IL D H. clearbody l e.
  unfold epB. case Rlt_bool_spec; intros C1; case Rlt_bool_spec; intros C2;
    (split; [assumption|]; split; [cbn [el eh]; split; qr|]; cbn [rr ab]; split; [split; qr|]; rewrite Q2R_0, Rmult_0_l, Rplus_0_l; apply Rabs_le; unfold Q2R; cbn [Qnum Qden]; lra).
Qed.
End S.

(** relations of angles *)
Ltac mrel :=
  lazymatch goal with
  | |- relm ?x ?a _ =>
      lazymatch goal with
      | H : relm x a _ |- _ => exact H
      | H : apx x a _ |- _ => exact (apx_relm _ _ _ H)
      | |- _ => lazymatch x with
        | fadd _ _ => eapply relm_add; [mrel|mrel|ccomp]
        | fsub _ _ => eapply relm_sub; [mrel|mrel|ccomp]
        | frem _ kTWO_PI => eapply relm_rem; [mrel|ccomp]
        | _ => eapply apx_relm; arel
        end
      end
  end.
Ltac mwide := eapply relm_weaken; [mrel|vm_compute; reflexivity..].
