(** * C45: latitude and longitude range guards, in binary64 *)
From Coq Require Import ZArith List Bool Reals Lra Lia Psatz.
From Flocq Require Import Core.Raux Core IEEE754.BinarySingleNaN.
From Verif.Model Require Import Float Constants Vec3 Transforms.
From Verif.Inst Require Import RInst RTac B64 B64Facts.
From Verif.Golden Require Import Libm.
Local Open Scope R_scope.

(** The four conversions, with their limits as binary64 values: 90, 180, and the doubles nearest to
    pi/2 and pi. *)
Definition HALF_PI : R := 884279719003555 / 562949953421312.
Definition FULL_PI : R := 884279719003555 / 281474976710656.

Section S.
Context (lm : libm).
Notation B := (B64Ops lm).
Lemma val_of (x : b64) (m : positive) (e : Z) : B2SF x = SpecFloat.S754_finite false m e -> fin x = true /\ B2R x = F2R (Float radix2 (Zpos m) e).
Proof. intros H. rewrite <- is_finite_SF_B2SF, <- SF2R_B2SF, H. split; reflexivity. Qed.
Lemma pi2_val : fin (@fpi2 _ B) = true /\ B2R (@fpi2 _ B) = HALF_PI.
Proof. destruct (val_of (@fpi2 _ B) 7074237752028440 (-52)) as [F E]; [vm_compute; reflexivity|]. split; [exact F|]. rewrite E. unfold F2R, HALF_PI. cbn. lra. Qed.
Lemma pi_val : fin (@kPI _ B) = true /\ B2R (@kPI _ B) = FULL_PI.
Proof. destruct (val_of (@kPI _ B) 7074237752028440 (-51)) as [F E]; [vm_compute; reflexivity|]. split; [exact F|]. rewrite E. unfold F2R, FULL_PI. cbn. lra. Qed.

Lemma nan_eq (x : b64) : is_nan x = true -> x = B754_nan.
Proof. destruct x; cbn; intros H; try discriminate H. reflexivity. Qed.
(** the common shape of the guards *)
Definition guard (lim : b64) (f : b64 -> b64) (x : b64) : outcome b64 :=
  if (@flt _ B x (@fneg _ B lim) || @flt _ B lim x)%bool then Panic else Done (f x).
Lemma guard_spec lim f x l : fin lim = true -> B2R lim = l -> 0 < l ->
  (fin x = true -> Rabs (B2R x) <= l -> guard lim f x = Done (f x)) /\
  (fin x = true -> l < Rabs (B2R x) -> guard lim f x = Panic) /\
  (is_nan x = true -> guard lim f x = Done (f x)) /\
  (fin x = false -> is_nan x = false -> guard lim f x = Panic).
Proof.
  intros F E P. destruct (neg_fin lm lim) as [N1 N2]. rewrite E in N1. rewrite F in N2. unfold guard. repeat split.
  - intros Fx H. rewrite (lt_fin lm x _ Fx N2), (lt_fin lm _ x F Fx), N1, E. apply Rabs_le_inv in H.
    rewrite !Rlt_bool_false by lra. reflexivity.
  - intros Fx H. rewrite (lt_fin lm x _ Fx N2), (lt_fin lm _ x F Fx), N1, E.
    destruct (Rle_lt_dec 0 (B2R x)) as [S|S].
    + rewrite Rabs_pos_eq in H by exact S. rewrite (Rlt_bool_true l) by exact H. now rewrite orb_true_r.
    + rewrite Rabs_left in H by exact S. now rewrite Rlt_bool_true by lra.
  - intros H. destruct x; try discriminate. destruct lim; reflexivity.
  - intros H1 H2. destruct x as [| [] | |]; try discriminate; destruct lim as [| | |[] m e He]; try discriminate F; try reflexivity; cbn in E; lra.
Qed.

(** multiplication by a positive constant maps [-l, l] into [-m, m] when it maps l to m *)
Lemma scale_in (k lim lim2 x : b64) : fin k = true -> 0 < B2R k -> fin lim = true -> fin lim2 = true ->
  B2R lim2 = rnd (B2R lim * B2R k) -> B2R lim * B2R k <= bpow radix2 1023 ->
  fin x = true -> Rabs (B2R x) <= B2R lim ->
  fin (@fmul _ B x k) = true /\ Rabs (B2R (@fmul _ B x k)) <= B2R lim2.
Proof.
  intros Fk Pk Fl Fl2 E O Fx H.
  assert (H2 : Rabs (B2R x * B2R k) <= B2R lim * B2R k).
  { rewrite Rabs_mult, (Rabs_pos_eq (B2R k)) by lra. apply Rmult_le_compat_r; lra. }
  destruct (mul_fin lm x k Fx Fk) as [M1 M2]; [lra|]. split; [exact M2|]. rewrite M1, E.
  apply Rabs_le_inv in H2. apply Rabs_le. rewrite <- rnd_opp. split; apply rnd_le; lra.
Qed.

Lemma d2r_pos : fin (@kDEG_2_RAD _ B) = true /\ 0 < B2R (@kDEG_2_RAD _ B) < 1.
Proof. destruct (val_of (@kDEG_2_RAD _ B) 5030569068109113 (-58)) as [F E]; [vm_compute; reflexivity|]. split; [exact F|]. rewrite E. unfold F2R. cbn. lra. Qed.
Lemma r2d_pos : fin (@kRAD_TO_DEG _ B) = true /\ 0 < B2R (@kRAD_TO_DEG _ B) < 60.
Proof. destruct (val_of (@kRAD_TO_DEG _ B) 8063664102031864 (-47)) as [F E]; [vm_compute; reflexivity|]. split; [exact F|]. rewrite E. unfold F2R. cbn. lra. Qed.
Lemma big200 : 200 * 60 <= bpow radix2 1023.
Proof. apply Rle_trans with (bpow radix2 14); [cbn; lra|apply bpow_le; lia]. Qed.
Lemma product (a k c : b64) (Ba : Rabs (B2R a) <= 200) (Bk : Rabs (B2R k) <= 60) :
  fin a = true -> fin k = true -> B2SF (@fmul _ B a k) = B2SF c -> B2R c = rnd (B2R a * B2R k).
Proof.
  intros Fa Fk H. destruct (mul_fin lm a k Fa Fk) as [E _].
  - rewrite Rabs_mult. pose proof big200. pose proof (Rabs_pos (B2R a)). pose proof (Rabs_pos (B2R k)). nra.
  - rewrite <- E, <- !SF2R_B2SF, H. reflexivity.
Qed.
End S.

Lemma Done_inj {A} (a b : A) : Done a = Done b -> a = b.
Proof. intros H. now injection H. Qed.
Lemma Done_Panic {A} (a : A) : Done a <> Panic.
Proof. discriminate. Qed.
Definition in_range (l : R) (x : b64) : Prop := is_finite x = true /\ Rabs (B2R x) <= l.
Definition out_of_range (l : R) (x : b64) : Prop := (is_finite x = true /\ l < Rabs (B2R x)) \/ (is_finite x = false /\ is_nan x = false).

(** Each conversion returns on numbers in the closed range, panics on numbers outside it (infinities
    included), and lets NaN through. *)
Theorem C45_guards :
  forall (lm : libm) (x : b64),
    let B := B64Ops lm in
    (in_range 90 x -> @radians_lat _ B x = Done (@degrees_to_radians _ B x)) /\
    (out_of_range 90 x -> @radians_lat _ B x = Panic) /\
    (in_range 180 x -> @radians_long _ B x = Done (@degrees_to_radians _ B x)) /\
    (out_of_range 180 x -> @radians_long _ B x = Panic) /\
    (in_range HALF_PI x -> @degrees_lat _ B x = Done (@radians_to_degrees _ B x)) /\
    (out_of_range HALF_PI x -> @degrees_lat _ B x = Panic) /\
    (in_range FULL_PI x -> @degrees_long _ B x = Done (@radians_to_degrees _ B x)) /\
    (out_of_range FULL_PI x -> @degrees_long _ B x = Panic) /\
    (is_nan x = true ->
      @radians_lat _ B x = Done B754_nan /\ @radians_long _ B x = Done B754_nan /\
      @degrees_lat _ B x = Done B754_nan /\ @degrees_long _ B x = Done B754_nan).
Proof.
  intros lm x B. destruct (lit_int_fin lm 90) as [E9 F9]; [lia|]. destruct (lit_int_fin lm 180) as [E18 F18]; [lia|].
  destruct (pi2_val lm) as [Fh Eh]. destruct (pi_val lm) as [Fp Ep].
  destruct (guard_spec lm (@L _ B 90 0) (@degrees_to_radians _ B) x 90 F9 E9 ltac:(lra)) as (A1 & A2 & A3 & A4).
  destruct (guard_spec lm (@L _ B 180 0) (@degrees_to_radians _ B) x 180 F18 E18 ltac:(lra)) as (B1 & B2 & B3 & B4).
  destruct (guard_spec lm (@fpi2 _ B) (@radians_to_degrees _ B) x HALF_PI Fh Eh ltac:(unfold HALF_PI; lra)) as (C1 & C2 & C3 & C4).
  destruct (guard_spec lm (@kPI _ B) (@radians_to_degrees _ B) x FULL_PI Fp Ep ltac:(unfold FULL_PI; lra)) as (D1 & D2 & D3 & D4).
  unfold in_range, out_of_range.
  split; [intros []; now apply A1|]. split; [intros [[]|[]]; [now apply A2|now apply A4]|].
  split; [intros []; now apply B1|]. split; [intros [[]|[]]; [now apply B2|now apply B4]|].
  split; [intros []; now apply C1|]. split; [intros [[]|[]]; [now apply C2|now apply C4]|].
  split; [intros []; now apply D1|]. split; [intros [[]|[]]; [now apply D2|now apply D4]|].
  intros N. pose proof (A3 N) as G1. pose proof (B3 N) as G2. pose proof (C3 N) as G3. pose proof (D3 N) as G4.
  apply nan_eq in N. subst x. repeat split.
Qed.
Print Assumptions C45_guards.

(** Converting a valid value to the other unit gives a value that is valid there, so converting it
    back never panics, for every input including NaN. *)
Theorem C45_round_trip :
  forall (lm : libm) (x y : b64),
    let B := B64Ops lm in
    (@radians_lat _ B x = Done y -> @degrees_lat _ B y <> Panic) /\
    (@radians_long _ B x = Done y -> @degrees_long _ B y <> Panic) /\
    (@degrees_lat _ B x = Done y -> @radians_lat _ B y <> Panic) /\
    (@degrees_long _ B x = Done y -> @radians_long _ B y <> Panic).
Proof.
  intros lm x y B. destruct (C45_guards lm x) as (A1 & A2 & A3 & A4 & A5 & A6 & A7 & A8 & A9).
  destruct (C45_guards lm y) as (B1 & B2 & B3 & B4 & B5 & B6 & B7 & B8 & B9).
  fold B in A1, A2, A3, A4, A5, A6, A7, A8, A9, B1, B2, B3, B4, B5, B6, B7, B8, B9.
  assert (T : forall l, in_range l x \/ out_of_range l x \/ is_nan x = true).
  { intros l. unfold in_range, out_of_range. destruct (is_finite x) eqn:F.
    - destruct (Rle_lt_dec (Rabs (B2R x)) l); auto.
    - destruct (is_nan x) eqn:N; auto. }
  destruct (lit_int_fin lm 90) as [E9 F9]; [lia|]. destruct (lit_int_fin lm 180) as [E18 F18]; [lia|].
  destruct (pi2_val lm) as [Fh Eh]. destruct (pi_val lm) as [Fp Ep].
  destruct (d2r_pos lm) as [Fd Pd]. destruct (r2d_pos lm) as [Fr Pr]. fold B in E9, F9, E18, F18, Fh, Eh, Fp, Ep, Fd, Pd, Fr, Pr.
  pose proof big200 as BG.
  assert (HP : 1 < HALF_PI < 2) by (unfold HALF_PI; lra). assert (FP : 3 < FULL_PI < 4) by (unfold FULL_PI; lra).
  assert (Lim : forall (lim lim2 k : b64), fin k = true -> 0 < B2R k < 60 -> fin lim = true -> fin lim2 = true -> 0 <= B2R lim <= 200 ->
     B2SF (@fmul _ B lim k) = B2SF lim2 -> in_range (B2R lim) x -> in_range (B2R lim2) (@fmul _ B x k)).
  { intros lim lim2 k Fk Pk Fl Fl2 Bl H [I1 I2]. apply (scale_in lm k lim lim2); try assumption; try lra.
    - apply (product lm); try assumption; rewrite Rabs_pos_eq; lra.
    - nra. }
  repeat split; intros H.
  - destruct (T 90) as [I|[O|N]].
    + rewrite (A1 I) in H. apply Done_inj in H; subst y. rewrite B5; [apply Done_Panic|].
      rewrite <- Eh. unfold degrees_to_radians. apply (Lim (@L _ B 90 0)); try assumption; try lra; [vm_compute; reflexivity|now rewrite E9].
    + rewrite (A2 O) in H. discriminate H.
    + destruct (A9 N) as (Q & _). rewrite Q in H. apply Done_inj in H; subst y. destruct (B9 eq_refl) as (_ & _ & K & _). rewrite K. apply Done_Panic.
  - destruct (T 180) as [I|[O|N]].
    + rewrite (A3 I) in H. apply Done_inj in H; subst y. rewrite B7; [apply Done_Panic|].
      rewrite <- Ep. unfold degrees_to_radians. apply (Lim (@L _ B 180 0)); try assumption; try lra; [vm_compute; reflexivity|now rewrite E18].
    + rewrite (A4 O) in H. discriminate H.
    + destruct (A9 N) as (_ & Q & _). rewrite Q in H. apply Done_inj in H; subst y. destruct (B9 eq_refl) as (_ & _ & _ & K). rewrite K. apply Done_Panic.
  - destruct (T HALF_PI) as [I|[O|N]].
    + rewrite (A5 I) in H. apply Done_inj in H; subst y. rewrite B1; [apply Done_Panic|].
      rewrite <- E9. unfold radians_to_degrees. apply (Lim (@fpi2 _ B)); try assumption; try lra; [vm_compute; reflexivity|now rewrite Eh].
    + rewrite (A6 O) in H. discriminate H.
    + destruct (A9 N) as (_ & _ & Q & _). rewrite Q in H. apply Done_inj in H; subst y. destruct (B9 eq_refl) as (K & _). rewrite K. apply Done_Panic.
  - destruct (T FULL_PI) as [I|[O|N]].
    + rewrite (A7 I) in H. apply Done_inj in H; subst y. rewrite B3; [apply Done_Panic|].
      rewrite <- E18. unfold radians_to_degrees. apply (Lim (@kPI _ B)); try assumption; try lra; [vm_compute; reflexivity|now rewrite Ep].
    + rewrite (A8 O) in H. discriminate H.
    + destruct (A9 N) as (_ & _ & _ & Q). rewrite Q in H. apply Done_inj in H; subst y. destruct (B9 eq_refl) as (_ & K & _). rewrite K. apply Done_Panic.
Qed.
Print Assumptions C45_round_trip.

(** Non-vacuity: 90 degrees is accepted both ways; the next double is not. *)
Example C45_example :
  (match radians_lat (lit 90 0) with Done r => match degrees_lat r with Done d => feq d (lit 90 0) | _ => false end | _ => false end,
   match radians_lat (lit 9000000000000002 (-14)) with Panic => true | _ => false end) = (true, true).
Proof. vm_compute. reflexivity. Qed.
