(** * C56: frame changes in binary64 are accurate *)
From Coq Require Import ZArith QArith Reals Qreals Bool Lra Lia Psatz.
From Flocq Require Import Core IEEE754.BinarySingleNaN.
From Verif.Model Require Import Float Constants Vec3 Transforms.
From Verif.Spec Require Import LibmAccuracy.
From Verif.Inst Require Import RInst RTac B64 B64Facts B64Calc Atan2.
From Verif.Proofs Require Import CalcFun CalcPow CalcAngle LibmExists TransformFacts.
From Verif.Props Require Import C40 C43 C44.
Local Open Scope R_scope.

(** a finite number, and one no larger than [m] *)
Definition within (m : R) (x : b64) : Prop := is_finite x = true /\ Rabs (B2R x) <= m.
(** [x] is finite and within [e] of [a] *)
Definition close (e : R) (x : b64) (a : R) : Prop := is_finite x = true /\ Rabs (B2R x - a) <= e.

Section Trig.
Context (lm : libm) (ACC : accurate lm).
Definition sb : bd := Bd (-1) 1 (1 # (2 ^ 52)).
Lemma rsin x : is_finite x = true -> rel (@fsin _ (B64Ops lm) x) (@fsin _ ROps (B2R x)) sb.
Proof.
  intros F. destruct (acc_sin lm ACC x F) as [A1 A2]. split; [exact A1|]. cbn [lo hi er sb]. rewrite Q2R_1, Q2R_m1. split; [apply SIN_bound|].
  eapply Rle_trans; [exact A2|]. unfold Q2R. cbn. lra.
Qed.
Lemma rcos x : is_finite x = true -> rel (@fcos _ (B64Ops lm) x) (@fcos _ ROps (B2R x)) sb.
Proof.
  intros F. destruct (acc_cos lm ACC x F) as [A1 A2]. split; [exact A1|]. cbn [lo hi er sb]. rewrite Q2R_1, Q2R_m1. split; [apply COS_bound|].
  eapply Rle_trans; [exact A2|]. unfold Q2R. cbn. lra.
Qed.
Lemma rwithin m x q : within m x -> Q2R q = m -> rel x (B2R x) (Bd (- q) q 0).
Proof. intros [F H] E. apply rel_exact; [exact F|]. rewrite Q2R_opp, E. now apply Rabs_le_inv. Qed.
Lemma close_of x a A e : rel x a A -> Q2R (er A) <= e -> close e x a.
Proof. intros (F & _ & E) H. split; [exact F|]. lra. Qed.
End Trig.
Ltac q2r := unfold Q2R; cbn -[IZR]; lra.

(** Rotating between the Earth-fixed and the inertial frame: coordinates up to a million km, any finite
    angle, error at most a micrometre. *)
Theorem C56_rotation :
  forall (lm : libm) (v : Vec3 b64) (g : b64),
    accurate lm -> is_finite g = true -> within 1000000 (v_x v) -> within 1000000 (v_y v) -> is_finite (v_z v) = true ->
    let x := B2R (v_x v) in let y := B2R (v_y v) in let th := B2R g in
    let e := 1 / 10 ^ 9 in
    let p := eci_to_ecf (FO := B64Ops lm) v g in
    let q := ecf_to_eci (FO := B64Ops lm) v g in
    (close e (v_x p) (x * cos th + y * sin th) /\ close e (v_y p) (- x * sin th + y * cos th) /\ v_z p = v_z v) /\
    (close e (v_x q) (x * cos th - y * sin th) /\ close e (v_y q) (x * sin th + y * cos th) /\ v_z q = v_z v).
Proof.
  intros lm v g ACC Fg Hx Hy Fz x y th e p q.
  apply (rwithin _ _ (1000000 # 1)) in Hx; [|q2r]. apply (rwithin _ _ (1000000 # 1)) in Hy; [|q2r].
  pose proof (rsin lm ACC g Fg) as S. pose proof (rcos lm ACC g Fg) as C. fold x in Hx. fold y in Hy. fold th in S, C.
  unfold p, q, eci_to_ecf, ecf_to_eci. cbn [v_x v_y v_z].
  set (sg := @fsin _ (B64Ops lm) g) in *. set (cg := @fcos _ (B64Ops lm) g) in *. clearbody sg cg. change (@fsin _ ROps th) with (sin th) in S. change (@fcos _ ROps th) with (cos th) in C.
  assert (R : forall a b, rel a b (Bd (-2000001 # 1) (2000001 # 1) (1 # 1000000000)) -> close e a b) by (intros a b H; eapply close_of; [exact H|unfold e; q2r]).
  split; (split; [|split; [|reflexivity]]); apply R.
  - change (x * cos th + y * sin th) with (@fadd _ ROps (@fmul _ ROps x (cos th)) (@fmul _ ROps y (sin th))). eapply rel_weaken; [eapply rel_add; [eapply rel_mul; [exact Hx|exact C|ccomp]|eapply rel_mul; [exact Hy|exact S|ccomp]|ccomp]|vm_compute; reflexivity..].
  - replace (- x * sin th + y * cos th) with (@fadd _ ROps (@fmul _ ROps x (@fneg _ ROps (sin th))) (@fmul _ ROps y (cos th))) by (cbn; ring). eapply rel_weaken; [eapply rel_add; [eapply rel_mul; [exact Hx|eapply rel_neg; [exact S|ccomp]|ccomp]|eapply rel_mul; [exact Hy|exact C|ccomp]|ccomp]|vm_compute; reflexivity..].
  - change (x * cos th - y * sin th) with (@fsub _ ROps (@fmul _ ROps x (cos th)) (@fmul _ ROps y (sin th))). eapply rel_weaken; [eapply rel_sub; [eapply rel_mul; [exact Hx|exact C|ccomp]|eapply rel_mul; [exact Hy|exact S|ccomp]|ccomp]|vm_compute; reflexivity..].
  - change (x * sin th + y * cos th) with (@fadd _ ROps (@fmul _ ROps x (sin th)) (@fmul _ ROps y (cos th))). eapply rel_weaken; [eapply rel_add; [eapply rel_mul; [exact Hx|exact S|ccomp]|eapply rel_mul; [exact Hy|exact C|ccomp]|ccomp]|vm_compute; reflexivity..].
Qed.
Print Assumptions C56_rotation.

(** Geodetic coordinates to the Earth-fixed frame: any finite latitude and longitude (radians), heights up
    to 100 000 km; the exact function is the one C40 describes. *)
Definition exact_geo (g : Geodedic b64) : Geodedic R :=
  MkGeodedic (B2R (gd_longitude g)) (B2R (gd_latitude g)) (B2R (gd_height g)).
Definition exact_vec (v : Vec3 b64) : Vec3 R := MkVec3 (B2R (v_x v)) (B2R (v_y v)) (B2R (v_z v)).
Definition close3 (e : R) (v : Vec3 b64) (w : Vec3 R) : Prop :=
  close e (v_x v) (v_x w) /\ close e (v_y v) (v_y w) /\ close e (v_z v) (v_z w).
Definition ok_geo (g : Geodedic b64) : Prop :=
  is_finite (gd_longitude g) = true /\ is_finite (gd_latitude g) = true /\ within 100000 (gd_height g).

Section Frames.
Context (lm : libm) (ACC : accurate lm).
Notation B := (B64Ops lm).
Definition rel3 (v : Vec3 b64) (w : Vec3 R) (X Y Z : bd) : Prop := rel (v_x v) (v_x w) X /\ rel (v_y v) (v_y w) Y /\ rel (v_z v) (v_z w) Z.
Definition gb : bd := Bd (-106500 # 1) (106500 # 1) (2 # 10000000000).
Lemma geo_rel g : ok_geo g -> rel3 (@geodedic_to_ecf _ B g) (@geodedic_to_ecf _ ROps (exact_geo g)) gb gb gb.
Proof.
  intros (F1 & F2 & H). apply (rwithin _ _ (100000 # 1)) in H; [|q2r].
  pose proof (rsin lm ACC _ F1) as S1. pose proof (rcos lm ACC _ F1) as C1. pose proof (rsin lm ACC _ F2) as S2. pose proof (rcos lm ACC _ F2) as C2.
  unfold rel3, geodedic_to_ecf, exact_geo. cbn [v_x v_y v_z gd_latitude gd_longitude gd_height].
  genrel S1. genrel C1. genrel S2. genrel C2. genrel H.
  split; [|split]; cwide.
Qed.
Definition vb : bd := Bd (-100000 # 1) (100000 # 1) 0.
Definition tb : bd := Bd (-700000 # 1) (700000 # 1) (2 # 1000000000).
Lemma topo_rel g v : ok_geo g -> within 100000 (v_x v) -> within 100000 (v_y v) -> within 100000 (v_z v) ->
  let t := @topocentric _ B g v in let tr := @topocentric _ ROps (exact_geo g) (exact_vec v) in
  rel (tc_top_s t) (tc_top_s tr) tb /\ rel (tc_top_e t) (tc_top_e tr) tb /\ rel (tc_top_z t) (tc_top_z tr) tb.
Proof.
  intros HG Hx Hy Hz. destruct (geo_rel g HG) as (GX & GY & GZ). destruct HG as (F1 & F2 & H). 
  apply (rwithin _ _ (100000 # 1)) in Hx; [|q2r]. apply (rwithin _ _ (100000 # 1)) in Hy; [|q2r]. apply (rwithin _ _ (100000 # 1)) in Hz; [|q2r].
  pose proof (rsin lm ACC _ F1) as S1. pose proof (rcos lm ACC _ F1) as C1. pose proof (rsin lm ACC _ F2) as S2. pose proof (rcos lm ACC _ F2) as C2.
  cbv zeta. unfold topocentric. cbv zeta. cbn [tc_top_s tc_top_e tc_top_z vsub v_x v_y v_z exact_vec].
  set (ob := geodedic_to_ecf g) in *. set (obr := geodedic_to_ecf (exact_geo g)) in *. clearbody ob obr. unfold exact_geo. cbn [gd_longitude gd_latitude].
  genrel GX. genrel GY. genrel GZ. genrel S1. genrel C1. genrel S2. genrel C2. genrel Hx. genrel Hy. genrel Hz.
  split; [|split]; cwide.
Qed.
End Frames.

(** Geodetic coordinates to Earth-fixed ones: within 0.2 micrometres. *)
Theorem C56_geodetic :
  forall (lm : libm) (g : Geodedic b64), accurate lm -> ok_geo g ->
    close3 (2 / 10 ^ 10) (geodedic_to_ecf (FO := B64Ops lm) g) (geodedic_to_ecf (FO := ROps) (exact_geo g)).
Proof.
  intros lm g ACC H. destruct (geo_rel lm ACC g H) as (X & Y & Z). split; [|split]; (eapply close_of; [eassumption|q2r]).
Qed.
Print Assumptions C56_geodetic.

(** ** Look angles *)
Lemma norm_close a b c a' b' c' d : 0 <= d -> (a' - a) * (a' - a) + (b' - b) * (b' - b) + (c' - c) * (c' - c) <= d * d ->
  Rabs (sqrt (a' * a' + b' * b' + c' * c') - sqrt (a * a + b * b + c * c)) <= d.
Proof.
  intros D0 H. set (n := sqrt (a * a + b * b + c * c)). set (n' := sqrt (a' * a' + b' * b' + c' * c')).
  assert (N : n * n = a * a + b * b + c * c) by (apply sqrt_sqrt; nra). assert (N' : n' * n' = a' * a' + b' * b' + c' * c') by (apply sqrt_sqrt; nra).
  assert (P : 0 <= n) by apply sqrt_pos. assert (P' : 0 <= n') by apply sqrt_pos. clearbody n n'.
  assert (CS : a * a' + b * b' + c * c' <= n * n').
  { assert (G : Rsqr (a * a' + b * b' + c * c') <= Rsqr (n * n')).
    { unfold Rsqr. replace (n * n' * (n * n')) with ((n * n) * (n' * n')) by ring. rewrite N, N'.
      assert (0 <= (a * b' - b * a') * (a * b' - b * a') + (a * c' - c * a') * (a * c' - c * a') + (b * c' - c * b') * (b * c' - c * b')); [|nra].
      pose proof (Rle_0_sqr (a * b' - b * a')). pose proof (Rle_0_sqr (a * c' - c * a')). pose proof (Rle_0_sqr (b * c' - c * b')). unfold Rsqr in *. lra. }
    apply Rsqr_le_abs_0 in G. rewrite (Rabs_pos_eq (n * n')) in G by nra. pose proof (Rle_abs (a * a' + b * b' + c * c')). lra. }
  assert (G : Rsqr (n' - n) <= Rsqr d) by (unfold Rsqr; nra). apply Rsqr_le_abs_0 in G. now rewrite (Rabs_pos_eq d) in G.
Qed.

Definition turns_within (e a b : R) : Prop := exists k : Z, Rabs (a - b - 2 * PI * IZR k) <= e.

Section Look.
Context (lm : libm) (ACC : accurate lm).
Notation B := (B64Ops lm).
Context (s e z : b64) (S E Z : R) (Hs : rel s S tb) (He : rel e E tb) (Hz : rel z Z tb).
Let N := sqrt (S * S + E * E + Z * Z).
Let H := sqrt (S * S + E * E).
Context (HN : 1 <= N).
Let b := @topocentric_to_look_angles _ B (MkTopo s e z).
Lemma tb_num x a : rel x a tb -> is_finite x = true /\ -700000 <= a <= 700000 /\ - (2 / 1000000000) <= B2R x - a <= 2 / 1000000000.
Proof. intros (F & I & K). split; [exact F|]. cbn [tb lo hi er] in *. apply Rabs_le_inv in K. unfold Q2R in I, K. cbn -[IZR] in I, K. lra. Qed.
Lemma look_N : N <= 1213000.
Proof.
  destruct (tb_num _ _ Hs) as (_ & I1 & _). destruct (tb_num _ _ He) as (_ & I2 & _). destruct (tb_num _ _ Hz) as (_ & I3 & _).
  unfold N. replace 1213000 with (sqrt (1213000 * 1213000)) by (apply sqrt_square; lra). apply sqrt_le_1_alt. nra.
Qed.
Lemma look_range : is_finite (be_range b) = true /\ Rabs (B2R (be_range b) - N) <= 1 / 100000000.
Proof.
  destruct (tb_num _ _ Hs) as (F1 & I1 & K1). destruct (tb_num _ _ He) as (F2 & I2 & K2). destruct (tb_num _ _ Hz) as (F3 & I3 & K3).
  pose proof look_N as NU. assert (BIG : forall w, Rabs w <= 700001 -> Rabs w <= 2 ^ 300) by (intros w Hw; assert (700001 <= 2 ^ 300); [apply Rle_trans with (2 ^ 20); [cbn; lra|apply Rle_pow; [lra|lia]]|lra]).
  pose proof (norm_close S E Z (B2R s) (B2R e) (B2R z) (4 / 1000000000) ltac:(lra)) as NC. fold N in NC.
  specialize (NC ltac:(nra)). set (n := sqrt (B2R s * B2R s + B2R e * B2R e + B2R z * B2R z)) in *. apply Rabs_le_inv in NC.
  destruct (norm3_b64 lm ACC s e z F1 F2 F3) as [FR ER]; [apply BIG, Rabs_le; lra..| |].
  - fold n. lra.
  - fold n in ER. unfold b, topocentric_to_look_angles. cbn [be_range tc_top_s tc_top_e tc_top_z]. split; [exact FR|].
    assert (Q : n / 2 ^ 48 <= 5 / 1000000000) by (cbn -[IZR]; lra). apply Rabs_le_inv in ER. apply Rabs_le. lra.
Qed.
Context (HH : N / 1000 <= H).
Lemma look_NH : N * N = H * H + Z * Z.
Proof. unfold N, H. rewrite !sqrt_sqrt by nra. ring. Qed.
Lemma look_elevation : is_finite (be_elevation b) = true /\ Rabs (B2R (be_elevation b) - asin (Z / N)) <= 25 / 1000000000 / H.
Proof.
  destruct look_range as [FR ER]. pose proof look_N as NU. pose proof look_NH as NH. destruct (tb_num _ _ Hz) as (F3 & I3 & K3).
  assert (HP : 0 <= H) by apply sqrt_pos. assert (HNle : H <= N) by nra. apply Rabs_le_inv in ER. change (be_elevation b) with (@fasin _ B (@fdiv _ B z (be_range b))). set (r := be_range b) in *. clearbody r N H.
  assert (Zle : - N <= Z <= N) by nra. set (u := Z / N).
  assert (UN : u * N = Z) by (unfold u; field; lra). assert (U1 : - 1 <= u <= 1) by (split; apply (Rmult_le_reg_r N); lra).
  assert (RP : 99 / 100 <= B2R r) by lra.
  set (w := B2R z / B2R r). assert (WR : w * B2R r = B2R z) by (unfold w; field; lra).
  assert (D : Rabs (w - u) <= 13 / 1000000000 / N).
  { assert (X : Rabs ((w - u) * B2R r) <= 12 / 1000000000).
    { replace ((w - u) * B2R r) with ((B2R z - Z) + u * (N - B2R r)) by (rewrite <- WR, <- UN; ring). eapply Rle_trans; [apply Rabs_triang|]. rewrite (Rabs_mult u).
      assert (Rabs u <= 1) by (apply Rabs_le; lra). assert (Rabs (N - B2R r) <= 1 / 100000000) by (apply Rabs_le; lra). assert (Rabs (B2R z - Z) <= 2 / 1000000000) by (apply Rabs_le; lra).
      pose proof (Rabs_pos u). pose proof (Rabs_pos (N - B2R r)). assert (Rabs u * Rabs (N - B2R r) <= 1 * (1 / 100000000)) by (apply Rmult_le_compat; lra). lra. }
    rewrite Rabs_mult, (Rabs_pos_eq (B2R r)) in X by lra. pose proof (Rabs_pos (w - u)) as XP. set (x := Rabs (w - u)) in *. clearbody x.
    apply (Rmult_le_reg_r N); [lra|]. replace (13 / 1000000000 / N * N) with (13 / 1000000000) by (field; lra).
    assert (x * N <= x * (B2R r + 1 / 100000000)) by (apply Rmult_le_compat_l; lra). assert (x * (99 / 100) <= x * B2R r) by (apply Rmult_le_compat_l; lra). lra. }
  assert (DN : 13 / 1000000000 / N <= 13 / 1000000000) by (apply (Rmult_le_reg_r N); [lra|]; unfold Rdiv; rewrite Rmult_assoc, Rinv_l by lra; lra).
  pose proof (Rabs_le_inv _ _ D) as D'.
  destruct (div_fin lm z r F3) as [V FV]; [lra| |].
  { fold w. apply Rle_trans with 2; [apply Rabs_le; lra|]. change 2 with (bpow radix2 1). apply bpow_le. lia. }
  fold w in V. pose proof (rnd_fine w) as RF. assert (UU : bpow radix2 (-53) = / 2 ^ 53) by (rewrite pow_IZR; reflexivity). rewrite UU in RF.
  pose proof tiny as TN. assert (TT : / 2 ^ 200 <= / 2 ^ 60) by (apply Rinv_le_contravar; [apply pow_lt; lra|apply Rle_pow; [lra|lia]]).
  assert (RF' : Rabs (rnd w - w) <= 2 / 10000000000000000).
  { eapply Rle_trans; [exact RF|]. set (t1 := bpow radix2 (-1074)) in *. set (t2 := / 2 ^ 200) in *. assert (Rabs w <= 11 / 10) by (apply Rabs_le; lra). clearbody t1 t2. cbn -[IZR] in *. lra. }
  assert (SM : 2 / 10000000000000000 <= 1 / 1000000000 / N).
  { apply (Rmult_le_reg_r N); [lra|]. unfold Rdiv. rewrite !Rmult_assoc, Rinv_l by lra. lra. }
  destruct (asin_close u (rnd w) (14 / 1000000000 / N)) as [A1 A2].
  - split; apply (Rmult_lt_reg_r N); nra.
  - replace (rnd w - u) with ((rnd w - w) + (w - u)) by ring. eapply Rle_trans; [apply Rabs_triang|]. lra.
  - assert (UH : 1 - u * u = (H * H) / (N * N)) by (unfold u; apply (Rmult_eq_reg_r (N * N)); [|nra]; field_simplify; [nra|lra..]).
    rewrite UH. apply (Rmult_le_reg_r (N * N)); [nra|]. replace (H * H / (N * N) * (N * N)) with (H * H) by (field; lra). replace (8 * (14 / 1000000000 / N) * (N * N)) with (8 * 14 / 1000000000 * N) by (field; lra). nra.
  - assert (SQ : sqrt (1 - u * u) = H / N).
    { assert (UH : 1 - u * u = (H / N) * (H / N)) by (unfold u; apply (Rmult_eq_reg_r (N * N)); [|nra]; field_simplify; [nra|lra..]). rewrite UH. apply sqrt_square. apply Rle_mult_inv_pos; lra. }
    rewrite SQ in A2. destruct (acc_asin lm ACC (@fdiv _ B z r) FV) as [L1 L2]; [rewrite V; apply Rabs_le; lra|].
    split; [exact L1|]. rewrite V in L2. change (@fasin _ B (@fdiv _ B z r)) with (lm_asin lm (@fdiv _ B z r)).
    replace (val (lm_asin lm (@fdiv _ B z r)) - asin u) with ((val (lm_asin lm (@fdiv _ B z r)) - asin (rnd w)) + (asin (rnd w) - asin u)) by ring.
    eapply Rle_trans; [apply Rabs_triang|]. replace (3 / 2 * (14 / 1000000000 / N) / (H / N)) with (21 / 1000000000 / H) in A2 by (field; nra).
    assert (/ 2 ^ 51 <= 4 / 1000000000 / H); [|replace (25 / 1000000000 / H) with (21 / 1000000000 / H + 4 / 1000000000 / H) by (field; nra); lra].
    apply (Rmult_le_reg_r H); [nra|]. unfold Rdiv. rewrite !Rmult_assoc, Rinv_l by nra. cbn -[IZR]. nra.
Qed.
Lemma look_azimuth : is_finite (be_azimuth b) = true /\ turns_within (1 / 100000000 / H) (B2R (be_azimuth b)) (Ratan2 (- E) S + PI).
Proof.
  pose proof look_N as NU. pose proof look_NH as NH. destruct (tb_num _ _ Hs) as (F1 & I1 & K1). destruct (tb_num _ _ He) as (F2 & I2 & K2).
  assert (HP : 0 <= H) by apply sqrt_pos. assert (HNle : H <= N) by nra. assert (H0 : 1 / 1000 <= H) by lra. assert (H2 : H * H = S * S + E * E) by (apply sqrt_sqrt; nra).
  destruct (neg_fin lm e) as [V2 FN]. rewrite F2 in FN. change (be_azimuth b) with (@fadd _ B (@fatan2 _ B (@fneg _ B e) s) (@kPI _ B)). set (ne := @fneg _ B e) in *.
  destruct (atan2_close (- E) S (B2R ne) (B2R s) (3 / 1000000000)) as [k K].
  { replace (S * S + - E * - E) with (S * S + E * E) by ring. fold H. lra. } { rewrite V2. nra. } { lra. }
  replace (S * S + - E * - E) with (S * S + E * E) in K by ring. fold H in K. clearbody H N.
  assert (K' : 3 / 1000000000 / (H - 3 / 1000000000) <= 4 / 1000000000 / H).
  { apply (Rmult_le_reg_r (H * (H - 3 / 1000000000))); [nra|]. replace (3 / 1000000000 / (H - 3 / 1000000000) * (H * (H - 3 / 1000000000))) with (3 / 1000000000 * H) by (field; lra). replace (4 / 1000000000 / H * (H * (H - 3 / 1000000000))) with (4 / 1000000000 * (H - 3 / 1000000000)) by (field; lra). lra. }
  destruct (acc_atan2 lm ACC ne s FN F1) as [L1 L2].
  { rewrite V2. destruct (Req_dec (B2R s) 0) as [G|G]; [left|now right]. intros G'. assert (B2R e = 0) by lra. assert (- (2 / 1000000000) <= S <= 2 / 1000000000) by lra. assert (- (2 / 1000000000) <= E <= 2 / 1000000000) by lra. nra. }
  set (v := lm_atan2 lm ne s) in *. change (@fatan2 _ B ne s) with v.
  assert (L : exists j : BinNums.Z, Rabs (B2R v - Ratan2 (B2R ne) (B2R s) - 2 * PI * IZR j) <= / 2 ^ 50).
  { destruct L2 as [L2|(Y0 & X0 & L2)].
    - exists 0%Z. rewrite Rmult_0_r, Rminus_0_r. exact L2.
    - exists (-1)%Z. unfold Ratan2. rewrite Rlt_bool_false by lra. rewrite Rlt_bool_true by lra. rewrite Rle_bool_true by lra. rewrite Y0. unfold Rdiv. rewrite Rmult_0_l, atan_0. replace (B2R v - (0 + PI) - 2 * PI * -1) with (B2R v + PI) by ring. exact L2. }
  destruct L as [j L]. destruct (rel_pi lm) as (FP & IP & EP). cbn [pib lo hi er] in IP, EP. change (@kPI _ ROps) with PI in IP, EP. set (p := @kPI _ B) in *.
  assert (PN : Rabs (B2R p - PI) <= 2 / 10000000000000000) by (eapply Rle_trans; [exact EP|q2r]). clear EP. apply Rabs_le_inv in PN. pose proof pi_num as PI2.
  assert (AB : -4 <= B2R v <= 4).
  { pose proof (Ratan2_range (B2R ne) (B2R s)). assert (/ 2 ^ 50 <= 1 / 10) by (cbn -[IZR]; lra). destruct L2 as [L2|(_ & _ & L2)]; apply Rabs_le_inv in L2; lra. }
  destruct (add_fin lm v p L1 FP) as [VV FV].
  { apply Rle_trans with 8; [apply Rabs_le; lra|]. change 8 with (bpow radix2 3). apply bpow_le. lia. }
  split; [exact FV|]. exists (j + k)%Z. rewrite VV. pose proof (rnd_fine (B2R v + B2R p)) as RF. assert (UU : bpow radix2 (-53) = / 2 ^ 53) by (rewrite pow_IZR; reflexivity). rewrite UU in RF.
  pose proof tiny as TN. assert (TT : / 2 ^ 200 <= / 2 ^ 60) by (apply Rinv_le_contravar; [apply pow_lt; lra|apply Rle_pow; [lra|lia]]).
  assert (RF' : Rabs (rnd (B2R v + B2R p) - (B2R v + B2R p)) <= 1 / 1000000000000000).
  { eapply Rle_trans; [exact RF|]. assert (RB8 : Rabs (B2R v + B2R p) <= 8) by (apply Rabs_le; lra). set (t1 := bpow radix2 (-1074)) in *. set (t2 := / 2 ^ 200) in *. clearbody t1 t2. clear - RF TN TT RB8. generalize dependent (Rabs (B2R v + B2R p)). intros rr RF RB8. assert (U53 : / 2 ^ 53 <= 1 / 9000000000000000) by (cbn -[IZR]; lra). assert (U60 : / 2 ^ 60 <= 1 / 100000000000000000) by (cbn -[IZR]; lra). assert (rr * / 2 ^ 53 <= 8 * / 2 ^ 53) by (apply Rmult_le_compat_r; [|lra]; left; apply Rinv_0_lt_compat, pow_lt; lra). lra. }
  set (r := rnd (B2R v + B2R p)) in *. clearbody r. rewrite plus_IZR.
  replace (r - (Ratan2 (- E) S + PI) - 2 * PI * (IZR j + IZR k)) with ((r - (B2R v + B2R p)) + (B2R p - PI) + (B2R v - Ratan2 (B2R ne) (B2R s) - 2 * PI * IZR j) + (Ratan2 (B2R ne) (B2R s) - Ratan2 (- E) S - 2 * PI * IZR k)) by ring.
  eapply Rle_trans; [apply Rabs_triang|]. eapply Rle_trans; [apply Rplus_le_compat_r, Rabs_triang|]. eapply Rle_trans; [apply Rplus_le_compat_r, Rplus_le_compat_r, Rabs_triang|].
  assert (PN' : Rabs (B2R p - PI) <= 2 / 10000000000000000) by (apply Rabs_le; lra).
  assert (SM : 1 / 1000000000000000 + 2 / 10000000000000000 + / 2 ^ 50 <= 6 / 1000000000 / H).
  { apply (Rmult_le_reg_r H); [lra|]. unfold Rdiv at 3. rewrite Rmult_assoc, Rinv_l by lra. cbn -[IZR]. nra. }
  replace (1 / 100000000 / H) with (6 / 1000000000 / H + 4 / 1000000000 / H) by (field; lra). lra.
Qed.
End Look.

(** The observer-centred coordinates and the look angles, for satellites up to 100 000 km from the
    centre of the Earth in each coordinate.  The exact functions are those C43 and C44 describe.  The range is
    within 10 micrometres from 1 km up; the angles, with the horizontal distance d of at least a
    thousandth of the range, within 25 micrometres seen from the distance d. *)
Theorem C56_look_angles :
  forall (lm : libm) (g : Geodedic b64) (v : Vec3 b64), accurate lm -> ok_geo g ->
    within 100000 (v_x v) -> within 100000 (v_y v) -> within 100000 (v_z v) ->
    let t := topocentric (FO := B64Ops lm) g v in
    let te := topocentric (FO := ROps) (exact_geo g) (exact_vec v) in
    let b := ecf_to_look_angles (FO := B64Ops lm) g v in
    let be := ecf_to_look_angles (FO := ROps) (exact_geo g) (exact_vec v) in
    (close (2 / 10 ^ 9) (tc_top_s t) (tc_top_s te) /\ close (2 / 10 ^ 9) (tc_top_e t) (tc_top_e te) /\ close (2 / 10 ^ 9) (tc_top_z t) (tc_top_z te)) /\
    (1 <= be_range be -> close (1 / 10 ^ 8) (be_range b) (be_range be)) /\
    (1 <= be_range be ->
     let d := sqrt (tc_top_s te * tc_top_s te + tc_top_e te * tc_top_e te) in
     be_range be / 1000 <= d ->
     close (25 / 10 ^ 9 / d) (be_elevation b) (be_elevation be) /\
     is_finite (be_azimuth b) = true /\ turns_within (1 / 10 ^ 8 / d) (B2R (be_azimuth b)) (be_azimuth be)).
Proof.
  intros lm g v ACC HG Hx Hy Hz t te b be. destruct (topo_rel lm ACC g v HG Hx Hy Hz) as (Hs & He & Ht). fold t te in Hs, He, Ht.
  split; [split; [|split]; (eapply close_of; [eassumption|q2r])|].
  assert (EB : b = @topocentric_to_look_angles _ (B64Ops lm) (MkTopo (tc_top_s t) (tc_top_e t) (tc_top_z t))) by (unfold b, ecf_to_look_angles; fold t; destruct t; reflexivity).
  assert (EE : be = let S := tc_top_s te in let E := tc_top_e te in let Z := tc_top_z te in let N := sqrt (S * S + E * E + Z * Z) in MkBearing (Ratan2 (- E) S + PI) (asin (Z / N)) N).
  { unfold be, ecf_to_look_angles, topocentric_to_look_angles. fold te. cbv zeta. unfold kPI. rops. rewrite !powerRZ_2. reflexivity. }
  cbv zeta in EE. rewrite EB, EE. cbn [be_range be_elevation be_azimuth].
  assert (P8 : 1 / 10 ^ 8 = 1 / 100000000) by lra. assert (P9 : 25 / 10 ^ 9 = 25 / 1000000000) by lra. rewrite P8, P9.
  split; [intros HN; exact (look_range lm ACC _ _ _ _ _ _ Hs He Ht HN)|].
  intros HN HH. split; [exact (look_elevation lm ACC _ _ _ _ _ _ Hs He Ht HN HH)|exact (look_azimuth lm ACC _ _ _ _ _ _ Hs He Ht HN HH)].
Qed.
Print Assumptions C56_look_angles.

(** The hypotheses are met: a correctly rounding library; an observer on the equator; a satellite 622 km
    up and 1000 km east. *)
Example C56_example :
  accurate exact_lm /\
  let g := MkGeodedic (b64_lit 0 0) (b64_lit 0 0) (b64_lit 0 0) in
  let v := MkVec3 (b64_lit 7000 0) (b64_lit 1000 0) (b64_lit 0 0) in
  let te := topocentric (FO := ROps) (exact_geo g) (exact_vec v) in
  let be := ecf_to_look_angles (FO := ROps) (exact_geo g) (exact_vec v) in
  ok_geo g /\ within 100000 (v_x v) /\ within 100000 (v_y v) /\ within 100000 (v_z v) /\
  1 <= be_range be /\ be_range be / 1000 <= sqrt (tc_top_s te * tc_top_s te + tc_top_e te * tc_top_e te).
Proof.
  split; [exact exact_lm_accurate|]. cbv zeta.
  assert (L : forall n : Z, (0 <= n <= 7000)%Z -> B2R (b64_lit n 0) = IZR n /\ is_finite (b64_lit n 0) = true).
  { intros n Hn. exact (lit_int_fin exact_lm n ltac:(lia)). }
  destruct (L 0%Z ltac:(lia)) as [V0 F0]. destruct (L 7000%Z ltac:(lia)) as [V7 F7]. destruct (L 1000%Z ltac:(lia)) as [V1 F1].
  unfold ok_geo, within, exact_geo, exact_vec. cbn [gd_longitude gd_latitude gd_height v_x v_y v_z]. rewrite V0, V7, V1, F0, F7, F1.
  repeat (split; [first [reflexivity|apply Rabs_le; lra|repeat split; solve [reflexivity|apply Rabs_le; lra]]|]).
  assert (T : topocentric (MkGeodedic 0 0 0) (MkVec3 7000 1000 0) = MkTopo 0 1000 (7000 - WA)).
  { pose proof WA_pos. unfold topocentric. cbv zeta. cbn [gd_latitude gd_longitude]. rewrite to_ecf_R. cbn [gd_latitude gd_longitude gd_height].
    unfold vsub. cbn [v_x v_y v_z]. rops. unfold prime_vertical, w_of. rewrite cos_0, sin_0.
    replace (1 - (1 - (WB / WA) ^ 2) * (0 * 0)) with 1 by ring. rewrite sqrt_1. f_equal; field; lra. }
  unfold ecf_to_look_angles. rewrite T, look_R. cbn [tc_top_s tc_top_e tc_top_z be_range].
  replace (0 * 0 + 1000 * 1000) with (1000 * 1000) by ring. rewrite sqrt_square by lra. unfold WA.
  match goal with |- 1 <= sqrt ?x /\ _ => set (q := x) end.
  assert (1 <= sqrt q) by (rewrite <- sqrt_1; apply sqrt_le_1_alt; unfold q; nra).
  assert (sqrt q <= 2000) by (rewrite <- (sqrt_square 2000) by lra; apply sqrt_le_1_alt; unfold q; nra). split; [assumption|lra].
Qed.
