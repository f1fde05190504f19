(** * Running error analysis, continued: library functions, pi, remainders *)
From Coq Require Import ZArith QArith Reals Qreals Bool Lra Lia Psatz.
From Flocq Require Import Core IEEE754.BinarySingleNaN.
From Verif.Model Require Import Float Constants.
From Verif.Spec Require Import LibmAccuracy.
From Verif.Inst Require Import RInst RTac B64 B64Facts B64Rem B64Calc PiBounds.
From Verif.Proofs Require Import GeodeticError.
Local Open Scope R_scope.

Lemma cos_lip x y : Rabs (cos x - cos y) <= Rabs (x - y).
Proof.
  rewrite <- !sin_shift. eapply Rle_trans; [apply sin_lip|]. replace (PI / 2 - x - (PI / 2 - y)) with (- (x - y)) by ring. rewrite Rabs_Ropp. lra.
Qed.

(** ** pi *)
Lemma pi_num : 3141592653589793238 / 1000000000000000000 < PI < 3141592653589793239 / 1000000000000000000.
Proof. pose proof pi_bounds as P. lra. Qed.
Definition PIB : R := 884279719003555 / 281474976710656.
Definition pib : bd := Bd (3141592653589793 # 1000000000000000) (3141592653589794 # 1000000000000000) (1231 # 10000000000000000000).
Section Pi.
Context (lm : libm).
Notation B := (B64Ops lm).
Lemma pi_fin : fin (@kPI _ B) = true /\ B2R (@kPI _ B) = PIB.
Proof.
  assert (H : B2SF (@kPI _ B) = SpecFloat.S754_finite false 7074237752028440 (-51)) by (vm_compute; reflexivity).
  split; [vm_compute; reflexivity|]. rewrite <- SF2R_B2SF, H. unfold SF2R, F2R, PIB. cbn. lra.
Qed.
Lemma rel_pi : rel (@kPI _ B) (@kPI _ ROps) pib.
Proof.
  destruct pi_fin as [F V]. split; [exact F|]. rewrite V. change (@kPI _ ROps) with PI. pose proof pi_num as P. unfold pib, Q2R, PIB. cbn [lo hi er Qnum Qden].
  split; [lra|]. apply Rabs_le. lra.
Qed.
Lemma two_pi_fin : fin (@kTWO_PI _ B) = true /\ B2R (@kTWO_PI _ B) = 2 * PIB.
Proof.
  assert (H : B2SF (@kTWO_PI _ B) = SpecFloat.S754_finite false 7074237752028440 (-50)) by (vm_compute; reflexivity).
  split; [vm_compute; reflexivity|]. rewrite <- SF2R_B2SF, H. unfold SF2R, F2R, PIB. cbn. lra.
Qed.
Lemma two_pi_err : 0 <= 2 * PI - 2 * PIB <= 247 / 1000000000000000000.
Proof. pose proof pi_num as P. unfold PIB. split; lra. Qed.
Definition twopib : bd := Bd (6283185307179586 # 1000000000000000) (6283185307179588 # 1000000000000000) (247 # 1000000000000000000).
Lemma rel_two_pi : rel (@kTWO_PI _ B) (@kTWO_PI _ ROps) twopib.
Proof.
  destruct two_pi_fin as [F V]. split; [exact F|]. rewrite V, kTWO_PI_R. pose proof pi_num as P. pose proof two_pi_err as E. unfold twopib, Q2R. cbn [lo hi er Qnum Qden].
  split; [lra|]. apply Rabs_le. lra.
Qed.

(** ** Angles modulo whole turns *)
Definition relm (x : b64) (a : R) (A : bd) : Prop := exists k : Z, rel x (a + 2 * PI * IZR k) A.
Lemma rel_relm x a A : rel x a A -> relm x a A.
Proof. intros H. exists 0%Z. now rewrite Rmult_0_r, Rplus_0_r. Qed.
Definition remb (X : bd) : option bd :=
  let q := ((mag X + er X) / 6)%Q in
  let e := upq (er X + q * (247 # 1000000000000000000)) in
  if Qle_bool (mag X + er X) (4503599627370496 # 1) && Qle_bool e 1 then Some (Bd (- ((6283185307179587 # 1000000000000000) + e)) ((6283185307179587 # 1000000000000000) + e) e) else None.
Lemma Ztrunc_abs_le x : Rabs (IZR (Ztrunc x)) <= Rabs x.
Proof.
  rewrite <- abs_IZR, <- Ztrunc_abs. rewrite Ztrunc_floor by apply Rabs_pos. apply Zfloor_lb.
Qed.
Lemma relm_rem x a X C : relm x a X -> remb X = Some C -> relm (@frem _ B x (@kTWO_PI _ B)) (@frem _ ROps a (@kTWO_PI _ ROps)) C.
Proof.
  intros (k & F & I & E) HC. unfold remb in HC. cbv zeta in HC. set (e := upq _) in *.
  destruct (Qle_bool (mag X + er X) _) eqn:E1; [|discriminate]. destruct (Qle_bool e 1) eqn:E2; [|discriminate]. cbn [andb] in HC. injection HC as <-.
  apply qle_true in E1, E2. rewrite Q2R_plus in E1. replace (Q2R 1) with 1 in E2 by (unfold Q2R; cbn; lra).
  destruct two_pi_fin as [TF TV]. pose proof two_pi_err as TE. pose proof pi_num as PB.
  destruct (rem_fin x _ F TF) as [RV RF]; [unfold PIB in *; lra|]. change (b64_rem x (@kTWO_PI _ B)) with (@frem _ B x (@kTWO_PI _ B)) in *.
  rewrite TV in RV. pose proof (Rrem_lt (B2R x) (2 * PIB) ltac:(unfold PIB; lra)) as RL. rewrite <- RV in RL. rewrite (Rabs_pos_eq (2 * PIB)) in RL by (unfold PIB; lra). apply Rabs_def2 in RL.
  rewrite kTWO_PI_R. change (@frem _ ROps a (2 * PI)) with (Rrem a (2 * PI)). unfold Rrem in RV |- *.
  set (q := Ztrunc (B2R x / (2 * PIB))) in *. set (p := Ztrunc (a / (2 * PI))) in *.
  exists (p + k - q)%Z. rewrite minus_IZR, plus_IZR.
  replace (a - 2 * PI * IZR p + 2 * PI * (IZR p + IZR k - IZR q)) with (a + 2 * PI * IZR k - 2 * PI * IZR q) by ring.
  pose proof (mag_ge _ _ I) as MG.
  assert (XB : Rabs (B2R x) <= Q2R (mag X) + Q2R (er X)).
  { replace (B2R x) with ((a + 2 * PI * IZR k) + (B2R x - (a + 2 * PI * IZR k))) by ring. eapply Rle_trans; [apply Rabs_triang|]. lra. }
  assert (QB : Rabs (IZR q) <= (Q2R (mag X) + Q2R (er X)) / 6).
  { unfold q. eapply Rle_trans; [apply Ztrunc_abs_le|]. unfold Rdiv. rewrite Rabs_mult. apply Rmult_le_compat; try apply Rabs_pos; [exact XB|].
    rewrite Rabs_inv, Rabs_pos_eq by (unfold PIB; lra). apply Rinv_le_contravar; unfold PIB; lra. }
  assert (D : Rabs (B2R (@frem _ B x (@kTWO_PI _ B)) - (a + 2 * PI * IZR k - 2 * PI * IZR q)) <= Q2R e).
  { unfold e. eapply Rle_trans; [|apply upq_ge]. rewrite Q2R_plus, Q2R_mult. unfold Qdiv. rewrite Q2R_mult, Q2R_plus. replace (Q2R (/ 6)) with (/ 6) by (unfold Q2R; cbn; lra).
    rewrite RV. replace (B2R x - 2 * PIB * IZR q - (a + 2 * PI * IZR k - 2 * PI * IZR q)) with ((B2R x - (a + 2 * PI * IZR k)) + IZR q * (2 * PI - 2 * PIB)) by ring.
    eapply Rle_trans; [apply Rabs_triang|]. apply Rplus_le_compat; [exact E|]. rewrite Rabs_mult. apply Rmult_le_compat; try apply Rabs_pos; [exact QB|].
    rewrite Rabs_pos_eq by lra. unfold Q2R. cbn [Qnum Qden]. lra. }
  split; [exact RF|]. cbn [lo hi er]. rewrite Q2R_opp, Q2R_plus. split; [|exact D]. apply Rabs_le_inv in D.
  replace (Q2R (6283185307179587 # 1000000000000000)) with (6283185307179587 / 1000000000000000) by (unfold Q2R; cbn; lra). unfold PIB in *. lra.
Qed.
Lemma relm_add x y a b X Y C : relm x a X -> relm y b Y -> addb X Y = Some C -> relm (@fadd _ B x y) (@fadd _ ROps a b) C.
Proof.
  intros (k & H1) (l & H2) HC. exists (k + l)%Z. pose proof (rel_add lm _ _ _ _ _ _ _ H1 H2 HC) as H. cbn [fadd ROps] in H |- *. rewrite plus_IZR.
  replace (a + b + 2 * PI * (IZR k + IZR l)) with (a + 2 * PI * IZR k + (b + 2 * PI * IZR l)) by ring. exact H.
Qed.
Lemma relm_sub x y a b X Y C : relm x a X -> relm y b Y -> subb X Y = Some C -> relm (@fsub _ B x y) (@fsub _ ROps a b) C.
Proof.
  intros (k & H1) (l & H2) HC. exists (k - l)%Z. pose proof (rel_sub lm _ _ _ _ _ _ _ H1 H2 HC) as H. cbn [fsub ROps] in H |- *. rewrite minus_IZR.
  replace (a - b + 2 * PI * (IZR k - IZR l)) with (a + 2 * PI * IZR k - (b + 2 * PI * IZR l)) by ring. exact H.
Qed.

(** ** Library functions *)
Context (ACC : accurate lm).
Definition u52 : Q := 1 # (2 ^ 52).
Lemma u52_R : Q2R u52 = / 2 ^ 52. Proof. unfold u52, Q2R. cbn. lra. Qed.
Definition trigb (X : bd) : option bd := Some (Bd (-1) 1 (upq (er X + u52))).
Lemma Q2R_1 : Q2R 1 = 1. Proof. unfold Q2R. cbn. lra. Qed.
Lemma Q2R_m1 : Q2R (-1) = -1. Proof. unfold Q2R. cbn. lra. Qed.
Lemma sin_turn a k : sin (a + 2 * PI * IZR k) = sin a.
Proof.
  destruct (Z_le_dec 0 k).
  - rewrite <- (Z2Nat.id k) by assumption. rewrite <- INR_IZR_INZ. replace (2 * PI * INR (Z.to_nat k)) with (2 * INR (Z.to_nat k) * PI) by ring. apply sin_period.
  - rewrite <- (sin_period (a + 2 * PI * IZR k) (Z.to_nat (- k))). f_equal. rewrite INR_IZR_INZ, Z2Nat.id, opp_IZR by lia. ring.
Qed.
Lemma cos_turn a k : cos (a + 2 * PI * IZR k) = cos a.
Proof.
  destruct (Z_le_dec 0 k).
  - rewrite <- (Z2Nat.id k) by assumption. rewrite <- INR_IZR_INZ. replace (2 * PI * INR (Z.to_nat k)) with (2 * INR (Z.to_nat k) * PI) by ring. apply cos_period.
  - rewrite <- (cos_period (a + 2 * PI * IZR k) (Z.to_nat (- k))). f_equal. rewrite INR_IZR_INZ, Z2Nat.id, opp_IZR by lia. ring.
Qed.
Lemma relm_sin x a X C : relm x a X -> trigb X = Some C -> rel (@fsin _ B x) (@fsin _ ROps a) C.
Proof.
  intros (k & F & I & E) HC. injection HC as <-. destruct (acc_sin lm ACC x F) as [A1 A2]. split; [exact A1|]. cbn [lo hi er]. rewrite Q2R_1, Q2R_m1. cbn [fsin ROps B64Ops].
  split; [apply SIN_bound|]. eapply Rle_trans; [|apply upq_ge]. rewrite Q2R_plus, u52_R. rewrite <- (sin_turn a k).
  match goal with |- Rabs (?u - ?v) <= _ => replace (u - v) with ((u - sin (B2R x)) + (sin (B2R x) - v)) by ring end.
  eapply Rle_trans; [apply Rabs_triang|]. rewrite Rplus_comm. apply Rplus_le_compat; [|exact A2]. eapply Rle_trans; [apply sin_lip|exact E].
Qed.
Lemma relm_cos x a X C : relm x a X -> trigb X = Some C -> rel (@fcos _ B x) (@fcos _ ROps a) C.
Proof.
  intros (k & F & I & E) HC. injection HC as <-. destruct (acc_cos lm ACC x F) as [A1 A2]. split; [exact A1|]. cbn [lo hi er]. rewrite Q2R_1, Q2R_m1. cbn [fcos ROps B64Ops].
  split; [apply COS_bound|]. eapply Rle_trans; [|apply upq_ge]. rewrite Q2R_plus, u52_R. rewrite <- (cos_turn a k).
  match goal with |- Rabs (?u - ?v) <= _ => replace (u - v) with ((u - cos (B2R x)) + (cos (B2R x) - v)) by ring end.
  eapply Rle_trans; [apply Rabs_triang|]. rewrite Rplus_comm. apply Rplus_le_compat; [|exact A2]. eapply Rle_trans; [apply cos_lip|exact E].
Qed.
Definition rel_sin x a X C (H : rel x a X) := relm_sin x a X C (rel_relm x a X H).
Definition rel_cos x a X C (H : rel x a X) := relm_cos x a X C (rel_relm x a X H).

(** whole powers *)
Fixpoint qpow (q : Q) (n : nat) : Q := match n with O => 1%Q | S m => (q * qpow q m)%Q end.
Lemma qpow_R q n : Q2R (qpow q n) = Q2R q ^ n.
Proof. induction n; cbn [qpow pow]; [apply Q2R_1|]. now rewrite Q2R_mult, IHn. Qed.
Definition powb_lo (X : bd) (n : nat) : Q := if Qle_bool 0 (lo X) then qpow (lo X) n else if Nat.even n then 0%Q else Qopp (qpow (mag X) n).
Definition powb_hi (X : bd) (n : nat) : Q := qpow (mag X) n.
Lemma pow_in a X n : Q2R (lo X) <= a <= Q2R (hi X) -> Q2R (powb_lo X n) <= a ^ n <= Q2R (powb_hi X n).
Proof.
  intros I. pose proof (mag_ge X a I) as M. unfold powb_lo, powb_hi. rewrite qpow_R.
  assert (U : Rabs (a ^ n) <= Q2R (B64Calc.mag X) ^ n) by (rewrite <- RPow_abs; apply pow_incr; split; [apply Rabs_pos|exact M]).
  apply Rabs_le_inv in U. split; [|lra]. destruct (Qle_bool 0 (lo X)) eqn:L.
  - rewrite qpow_R. apply qle_true in L. rewrite Q2R_0 in L. apply pow_incr. lra.
  - destruct (Nat.even n) eqn:EV; [|rewrite Q2R_opp, qpow_R; lra]. rewrite Q2R_0. apply Nat.even_spec in EV. destruct EV as [j ->]. rewrite pow_mult. apply pow_le. apply pow2_ge_0.
Qed.
Lemma pow_diff x a m d n : Rabs a <= m -> Rabs (x - a) <= d -> Rabs (x ^ n - a ^ n) <= INR n * (m + d) ^ (n - 1) * d.
Proof.
  intros Ha Hd. assert (P : 0 <= d) by (eapply Rle_trans; [apply Rabs_pos|exact Hd]). assert (Q : 0 <= m) by (eapply Rle_trans; [apply Rabs_pos|exact Ha]).
  assert (Hx : Rabs x <= m + d) by (replace x with (a + (x - a)) by ring; eapply Rle_trans; [apply Rabs_triang|lra]).
  induction n as [|n IH]; [cbn; unfold Rminus; rewrite Rplus_opp_r, Rabs_R0; lra|].
  replace (x ^ S n - a ^ S n) with (x * (x ^ n - a ^ n) + (x - a) * a ^ n) by (cbn; ring).
  eapply Rle_trans; [apply Rabs_triang|]. rewrite !Rabs_mult.
  replace (S n - 1)%nat with n by lia. rewrite S_INR.
  assert (A1 : Rabs (a ^ n) <= (m + d) ^ n) by (rewrite <- RPow_abs; apply pow_incr; split; [apply Rabs_pos|lra]).
  assert (A2 : Rabs x * Rabs (x ^ n - a ^ n) <= INR n * (m + d) ^ n * d).
  { destruct n; [cbn; unfold Rminus; rewrite Rplus_opp_r, Rabs_R0; lra|]. replace (S n - 1)%nat with n in IH by lia. cbn [pow].
    replace (INR (S n) * ((m + d) * (m + d) ^ n) * d) with ((m + d) * (INR (S n) * (m + d) ^ n * d)) by ring. apply Rmult_le_compat; try apply Rabs_pos; assumption. }
  assert (A3 : Rabs (x - a) * Rabs (a ^ n) <= d * (m + d) ^ n) by (apply Rmult_le_compat; try apply Rabs_pos; assumption). lra.
Qed.
Definition pow_er (X : bd) (n : nat) : Q := ((Z.of_nat n # 1) * qpow (mag X + er X) (n - 1) * er X)%Q.
Lemma pow_er_R x a X n : rel x a X -> Rabs (B2R x ^ n - a ^ n) <= Q2R (pow_er X n).
Proof.
  intros (F & I & E). unfold pow_er. rewrite !Q2R_mult, qpow_R, Q2R_plus. replace (Q2R (Z.of_nat n # 1)) with (INR n) by (rewrite INR_IZR_INZ; unfold Q2R; cbn; lra).
  apply pow_diff; [now apply mag_ge|exact E].
Qed.
Definition u50 : Q := 1 # (2 ^ 50).
Lemma u50_R : Q2R u50 = / 2 ^ 50. Proof. unfold u50, Q2R. cbn. lra. Qed.
Lemma big_R : Q2R bigq = 2 ^ 1000.
Proof. unfold bigq, Q2R. cbn [Qnum Qden]. rewrite Rinv_1, Rmult_1_r. now rewrite pow_IZR. Qed.
Lemma t200 : / 2 ^ 200 <= Q2R tq.
Proof.
  unfold tq, Q2R. cbn [Qnum Qden]. rewrite Rmult_1_l. apply Req_le. f_equal. rewrite (pow_IZR 2 200). f_equal.
Qed.
(** one library result within a factor 2^-50 of a value close to the exact one *)
Definition lib_b (l h e : Q) : option bd :=
  let M := (qmax (qabs l) (qabs h) + e)%Q in
  if Qle_bool M bigq then Some (Bd (dnq l) (upq h) (upq (e + M * u50 + tq)%Q)) else None.
Lemma lib_finish (z : b64) (v a : R) l h e C : Q2R l <= a <= Q2R h -> Rabs (v - a) <= Q2R e ->
  (Rabs v <= 2 ^ 1000 -> fin z = true /\ Rabs (B2R z - v) <= Rabs v / 2 ^ 50 + / 2 ^ 200) -> lib_b l h e = Some C -> rel z a C.
Proof.
  intros Ha He Hz HC. unfold lib_b in HC. cbv zeta in HC. set (M := (qmax (qabs l) (qabs h) + e)%Q) in *.
  destruct (Qle_bool M bigq) eqn:EM; [|discriminate]. injection HC as <-. apply qle_true in EM. rewrite big_R in EM.
  assert (Va : Rabs v <= Q2R M).
  { unfold M. rewrite Q2R_plus. pose proof (mag_ge (Bd l h e) a Ha) as MA. unfold B64Calc.mag in MA. cbn [lo hi] in MA.
    replace v with (a + (v - a)) by ring. eapply Rle_trans; [apply Rabs_triang|]. lra. }
  destruct Hz as [Z1 Z2]; [lra|]. split; [exact Z1|]. cbn [lo hi er]. pose proof (dnq_le l). pose proof (upq_ge h). split; [lra|].
  eapply Rle_trans; [|apply upq_ge]. rewrite !Q2R_plus, Q2R_mult, u50_R. pose proof t200.
  replace (B2R z - a) with ((B2R z - v) + (v - a)) by ring. eapply Rle_trans; [apply Rabs_triang|].
  assert (0 < / 2 ^ 50) by (apply Rinv_0_lt_compat, pow_lt; lra). unfold Rdiv in Z2. nra.
Qed.
Definition powib (X : bd) (z : Z) : option bd :=
  let n := Z.to_nat z in
  if Z.leb 1 z && Z.leb z 8 then lib_b (powb_lo X n) (powb_hi X n) (upq (pow_er X n)) else None.
Lemma rel_powi x a X z C : rel x a X -> powib X z = Some C -> rel (@fpowi _ B x z) (@fpowi _ ROps a z) C.
Proof.
  intros H HC. unfold powib in HC. cbv zeta in HC. destruct (Z.leb_spec 1 z); [|discriminate]. destruct (Z.leb_spec z 8); [|discriminate]. cbn [andb] in HC.
  pose proof (pow_er_R _ _ _ (Z.to_nat z) H) as PE. destruct H as (F & I & E).
  assert (ZE : z = Z.of_nat (Z.to_nat z)) by lia. cbn [fpowi ROps B64Ops]. rewrite ZE. set (n := Z.to_nat z) in *. rewrite <- pow_powerRZ.
  apply (lib_finish _ (B2R x ^ n) _ _ _ _ _) with (4 := HC).
  - now apply pow_in.
  - eapply Rle_trans; [exact PE|apply upq_ge].
  - intros HB. apply (acc_powi lm ACC); [exact F|lia|exact HB].
Qed.
(** powf with exponent 2.0 *)
Definition pow2b (X : bd) : option bd := lib_b (powb_lo X 2) (powb_hi X 2) (upq (pow_er X 2)).
Lemma Rpow_2 a : Rpow a 2 = a ^ 2.
Proof.
  unfold Rpow. case Rlt_bool_spec; intros H.
  - rewrite <- (Rpower_pow 2 a H). reflexivity.
  - case Req_bool_spec; intros H0; [rewrite H0; case Req_bool_spec; intros; lra|].
    rewrite (Zfloor_IZR 2). rewrite Req_bool_true by reflexivity. reflexivity.
Qed.
Lemma rel_pow2 x a X C : rel x a X -> pow2b X = Some C -> rel (@fpow _ B x (@L _ B 2 0)) (@fpow _ ROps a (@L _ ROps 2 0)) C.
Proof.
  intros H HC. pose proof (pow_er_R _ _ _ 2 H) as PE. destruct H as (F & I & E). cbn [fpow ROps B64Ops]. change (@L _ ROps 2 0) with 2. rewrite Rpow_2.
  destruct (lit_int_fin lm 2) as [V2 F2]; [lia|].
  apply (lib_finish _ (B2R x ^ 2) _ _ _ _ _) with (4 := HC).
  - now apply pow_in.
  - eapply Rle_trans; [exact PE|apply upq_ge].
  - intros HB. pose proof (acc_pow lm ACC x (@L _ B 2 0) F F2) as A. rewrite V2, Rpow_2 in A. destruct A as [A1 A2]; [right; exists 2%nat; split; [lia|reflexivity]|exact HB|].
    split; [exact A1|]. eapply Rle_trans; [exact A2|]. apply Rplus_le_compat_r. unfold Rdiv. apply Rmult_le_compat_l; [apply Rabs_pos|]. apply Rinv_le_contravar; [apply pow_lt; lra|apply Rle_pow; [lra|lia]].
Qed.
End Pi.
