(** * Running error analysis: binary64 results next to exact ones

    [rel x a A]: the binary64 number [x] is finite, the exact value [a] lies in [lo A, hi A] and [x] is
    within [er A] of it.  Each operation has a rule computing bounds for its result in rationals. *)
From Coq Require Import ZArith QArith Reals Qreals Bool Lra Lia Psatz.
From Flocq Require Import Core IEEE754.BinarySingleNaN Relative.
From Verif.Model Require Import Float.
From Verif.Inst Require Import RInst B64 B64Facts.
Local Open Scope R_scope.

Record bd := Bd { lo : Q; hi : Q; er : Q }.
Definition rel (x : b64) (a : R) (A : bd) : Prop :=
  fin x = true /\ Q2R (lo A) <= a <= Q2R (hi A) /\ Rabs (B2R x - a) <= Q2R (er A).

(** ** Rationals rounded outwards to about 40 bits *)
(** power of two in a denominator: it is divided out by shifting *)
Fixpoint twos (p : positive) : Z * positive :=
  match p with xO q => let (k, o) := twos q in (Z.succ k, o) | _ => (0%Z, p) end.
Definition upq (q : Q) : Q :=
  let s := (40 - (Z.log2 (Z.abs (Qnum q)) - Z.log2 (Zpos (Qden q))))%Z in
  let (k, o) := twos (Qden q) in
  match s with
  | Zpos p => (Z.shiftr (Qnum q) (k - Zpos p) / Zpos o + 1) # Pos.pow 2 p
  | Z0 => (Z.shiftr (Qnum q) k / Zpos o + 1) # 1
  | Zneg p => ((Z.shiftr (Qnum q) (k + Zpos p) / Zpos o + 1) * Z.pow_pos 2 p) # 1
  end.
Definition dnq (q : Q) : Q := Qopp (upq (Qopp q)).
Definition qmin (a b : Q) : Q := if Qle_bool a b then a else b.
Definition qmax (a b : Q) : Q := if Qle_bool a b then b else a.
Definition qabs (a : Q) : Q := Qmake (Z.abs (Qnum a)) (Qden a).
Definition mag (A : bd) : Q := qmax (qabs (lo A)) (qabs (hi A)).

Lemma twos_spec p : (0 <= fst (twos p))%Z /\ Zpos p = (2 ^ fst (twos p) * Zpos (snd (twos p)))%Z.
Proof.
  induction p as [p _|p IH|]; cbn [twos]; [split; [cbn [fst]; lia|cbn [fst snd]; now rewrite Z.pow_0_r, Z.mul_1_l]| |split; [cbn [fst]; lia|reflexivity]].
  destruct (twos p) as [k o]. cbn [fst snd] in *. destruct IH as [H E]. split; [lia|]. rewrite Z.pow_succ_r by exact H. rewrite Pos2Z.inj_xO, E. ring.
Qed.
Lemma shift_up n j o : (0 < o)%Z -> (n * 2 ^ Z.max 0 (- j) <= (Z.shiftr n j / o + 1) * o * 2 ^ Z.max 0 j)%Z.
Proof.
  intros O. pose proof (Z.mul_succ_div_gt (Z.shiftr n j) o O) as D. set (f := (Z.shiftr n j / o)%Z) in *. clearbody f. destruct (Z.le_gt_cases 0 j) as [J|J].
  - rewrite (Z.max_l 0 (- j)), (Z.max_r 0 j) by lia. rewrite Z.pow_0_r, Z.mul_1_r. rewrite Z.shiftr_div_pow2 in D by exact J.
    assert (P : (0 < 2 ^ j)%Z) by (apply Z.pow_pos_nonneg; lia). pose proof (Z.mul_succ_div_gt n (2 ^ j) P) as E.
    assert (((n / 2 ^ j + 1) * 2 ^ j <= (f + 1) * o * 2 ^ j)%Z) by (apply Z.mul_le_mono_nonneg_r; lia). lia.
  - rewrite (Z.max_r 0 (- j)), (Z.max_l 0 j) by lia. rewrite Z.pow_0_r, Z.mul_1_r. replace j with (- - j)%Z in D by lia. rewrite Z.shiftr_opp_r, Z.shiftl_mul_pow2 in D by lia. lia.
Qed.
Lemma upq_ge q : Q2R q <= Q2R (upq q).
Proof.
  apply Qle_Rle. destruct q as [n d]. unfold upq. cbn [Qnum Qden]. pose proof (twos_spec d) as T. destruct (twos d) as [k o]. cbn [fst snd] in T. destruct T as [K D].
  assert (P2 : forall a, (0 <= a)%Z -> (0 < 2 ^ a)%Z) by (intros; apply Z.pow_pos_nonneg; lia).
  assert (O : (0 < Zpos o)%Z) by lia. set (w := Zpos o) in *. clearbody w. destruct (40 - _)%Z as [|p|p]; unfold Qle; cbn [Qnum Qden].
  - pose proof (shift_up n k w O) as S. rewrite (Z.max_l 0 (- k)), (Z.max_r 0 k), Z.pow_0_r in S by lia. rewrite D. lia.
  - pose proof (shift_up n (k - Zpos p) w O) as S. set (f := (Z.shiftr n (k - Zpos p) / w + 1)%Z) in *. clearbody f. rewrite Pos2Z.inj_pow, D.
    destruct (Z.le_gt_cases (Zpos p) k) as [J|J].
    + rewrite (Z.max_l 0 (- _)), (Z.max_r 0 (k - _)), Z.pow_0_r in S by lia. apply (Z.mul_le_mono_nonneg_r _ _ (2 ^ Zpos p)) in S; [|specialize (P2 (Zpos p)); lia].
      replace (2 ^ k)%Z with (2 ^ (k - Zpos p) * 2 ^ Zpos p)%Z by (rewrite <- Z.pow_add_r by lia; f_equal; lia). lia.
    + rewrite (Z.max_r 0 (- _)), (Z.max_l 0 (k - _)), Z.pow_0_r in S by lia. apply (Z.mul_le_mono_nonneg_r _ _ (2 ^ k)) in S; [|specialize (P2 k); lia].
      replace (2 ^ Zpos p)%Z with (2 ^ (- (k - Zpos p)) * 2 ^ k)%Z by (rewrite <- Z.pow_add_r by lia; f_equal; lia). lia.
  - pose proof (shift_up n (k + Zpos p) w O) as S. set (f := (Z.shiftr n (k + Zpos p) / w + 1)%Z) in *. clearbody f.
    rewrite (Z.max_l 0 (- _)), (Z.max_r 0 (k + _)), Z.pow_0_r in S by lia. rewrite Z.pow_add_r in S by lia. change (Z.pow_pos 2 p) with (2 ^ Zpos p)%Z. rewrite D. lia.
Qed.
Lemma dnq_le q : Q2R (dnq q) <= Q2R q.
Proof. unfold dnq. pose proof (upq_ge (- q)) as H. rewrite Q2R_opp in *. lra. Qed.
Lemma qle_true a b : Qle_bool a b = true -> Q2R a <= Q2R b.
Proof. intros H. apply Qle_bool_iff in H. now apply Qle_Rle. Qed.
Lemma qle_false a b : Qle_bool a b = false -> Q2R b < Q2R a.
Proof.
  intros H. apply Qlt_Rlt. apply Qnot_le_lt. intros C. apply Qle_bool_iff in C. congruence.
Qed.
Lemma qmin_le a b : Q2R (qmin a b) <= Q2R a /\ Q2R (qmin a b) <= Q2R b.
Proof. unfold qmin. destruct (Qle_bool a b) eqn:E; [apply qle_true in E|apply qle_false in E]; lra. Qed.
Lemma qmax_ge a b : Q2R a <= Q2R (qmax a b) /\ Q2R b <= Q2R (qmax a b).
Proof. unfold qmax. destruct (Qle_bool a b) eqn:E; [apply qle_true in E|apply qle_false in E]; lra. Qed.
Lemma qabs_R a : Q2R (qabs a) = Rabs (Q2R a).
Proof.
  destruct a as [n d]. unfold qabs, Q2R. cbn [Qnum Qden]. rewrite Rabs_mult, abs_IZR, (Rabs_pos_eq (/ _)); [reflexivity|].
  apply Rlt_le, Rinv_0_lt_compat, IZR_lt. lia.
Qed.
Lemma mag_ge A a : Q2R (lo A) <= a <= Q2R (hi A) -> Rabs a <= Q2R (mag A).
Proof.
  intros H. unfold mag. destruct (qmax_ge (qabs (lo A)) (qabs (hi A))) as [M1 M2]. rewrite !qabs_R in *.
  apply Rabs_le. pose proof (Rle_abs (Q2R (hi A))). pose proof (Rle_abs (- Q2R (lo A))). rewrite Rabs_Ropp in *. lra.
Qed.
Lemma er_pos x a A : rel x a A -> 0 <= Q2R (er A).
Proof. intros (_ & _ & H). eapply Rle_trans; [apply Rabs_pos|exact H]. Qed.

(** ** One rounding *)
Definition uq : Q := 1 # (2 ^ 53).
Definition tq : Q := 1 # (2 ^ 200).
Definition bigq : Q := (2 ^ 1000)%Z # 1.
Lemma bigq_R : Q2R bigq <= bpow radix2 1023.
Proof.
  unfold bigq, Q2R. cbn [Qnum Qden]. rewrite Rinv_1, Rmult_1_r. change (IZR (2 ^ 1000)) with (bpow radix2 1000). apply bpow_le. lia.
Qed.
Lemma uq_R : Q2R uq = bpow radix2 (-53). Proof. unfold uq, Q2R. cbn. lra. Qed.
Lemma tq_R : bpow radix2 (-1074) <= Q2R tq.
Proof.
  apply Rle_trans with (bpow radix2 (-200)); [apply bpow_le; lia|]. unfold tq, Q2R. cbn [Qnum Qden].
  rewrite Rmult_1_l. change (Z.pos (2 ^ 200)) with (2 ^ 200)%Z. right. reflexivity.
Qed.
Lemma rnd_fine v : Rabs (rnd v - v) <= Rabs v * bpow radix2 (-53) + bpow radix2 (-1074).
Proof.
  pose proof (bpow_gt_0 radix2 (-53)) as U. pose proof (Rabs_pos v) as V. pose proof (bpow_gt_0 radix2 (-1074)) as W.
  destruct (Rle_lt_dec (bpow radix2 (-1022)) (Rabs v)) as [H|H].
  - pose proof (relative_error_N_FLT radix2 (-1074) 53 ltac:(lia) (fun x => negb (Z.even x)) v) as E.
    specialize (E H). change (round radix2 (FLT_exp (-1074) 53) (Znearest (fun x => negb (Z.even x))) v) with (round radix2 (FLT_exp (-1074) 53) ZnearestE v) in E.
    assert (X : rnd v = round radix2 (FLT_exp (-1074) 53) ZnearestE v) by (unfold round, scaled_mantissa, cexp; now rewrite fexp64_FLT).
    rewrite X. eapply Rle_trans; [exact E|]. change (- (53) + 1)%Z with (-52)%Z.
    replace (/ 2 * bpow radix2 (-52)) with (bpow radix2 (-53)) by (cbn; lra). nra.
  - pose proof (rnd_err (-1074) v ltac:(lia)) as E. change (-1074 + 53)%Z with (-1021)%Z in E.
    assert (Rabs v <= bpow radix2 (-1021)) by (apply Rle_trans with (bpow radix2 (-1022)); [lra|apply bpow_le; lia]). specialize (E H0). nra.
Qed.
Lemma rnd_rel v : Rabs (rnd v - v) <= Rabs v * Q2R uq + Q2R tq.
Proof. pose proof tq_R as T. rewrite uq_R. pose proof (rnd_fine v). lra. Qed.

Definition fin_b (l h e : Q) : option bd :=
  let M := (qmax (qabs l) (qabs h) + e)%Q in
  if Qle_bool M bigq then Some (Bd (dnq l) (upq h) (upq (e + M * uq + tq)%Q)) else None.
Lemma finish (z : b64) (v a : R) l h e C : Q2R l <= a <= Q2R h -> Rabs (v - a) <= Q2R e ->
  (Rabs v <= bpow radix2 1023 -> B2R z = rnd v /\ fin z = true) -> fin_b l h e = Some C -> rel z a C.
Proof.
  intros Ha He Hz HC. unfold fin_b in HC. cbv zeta in HC. set (M := (qmax (qabs l) (qabs h) + e)%Q) in *.
  destruct (Qle_bool M bigq) eqn:EM; [|discriminate]. injection HC as <-. apply qle_true in EM. pose proof bigq_R as BR.
  assert (Va : Rabs v <= Q2R M).
  { unfold M. rewrite Q2R_plus. pose proof (mag_ge (Bd l h e) a Ha) as MA. unfold mag in MA. cbn [lo hi] in MA.
    replace v with (a + (v - a)) by ring. eapply Rle_trans; [apply Rabs_triang|]. lra. }
  destruct Hz as [Z1 Z2]; [lra|]. split; [exact Z2|]. cbn [lo hi er]. pose proof (dnq_le l). pose proof (upq_ge h). split; [lra|].
  eapply Rle_trans; [|apply upq_ge]. rewrite !Q2R_plus, Q2R_mult. pose proof (rnd_rel v) as R. rewrite Z1.
  replace (rnd v - a) with ((rnd v - v) + (v - a)) by ring. eapply Rle_trans; [apply Rabs_triang|].
  assert (0 < Q2R uq) by (rewrite uq_R; apply bpow_gt_0). nra.
Qed.

(** ** Rules *)
Lemma rel_weaken x a A B : rel x a A -> Qle_bool (lo B) (lo A) = true -> Qle_bool (hi A) (hi B) = true -> Qle_bool (er A) (er B) = true -> rel x a B.
Proof. intros (F & I & E) H1 H2 H3. apply qle_true in H1, H2, H3. split; [exact F|]. split; lra. Qed.
Lemma rel_shrink x a A l h : rel x a A -> Q2R l <= a <= Q2R h -> rel x a (Bd l h (er A)).
Proof. intros (F & I & E) H. split; [exact F|]. split; [exact H|exact E]. Qed.
Lemma rel_exact x l h : fin x = true -> Q2R l <= B2R x <= Q2R h -> rel x (B2R x) (Bd l h 0).
Proof. intros F H. split; [exact F|]. split; [exact H|]. unfold Rminus. rewrite Rplus_opp_r, Rabs_R0. cbn [er]. unfold Q2R. cbn. lra. Qed.
Lemma rel_bounds x a A : rel x a A -> Q2R (lo A) - Q2R (er A) <= B2R x <= Q2R (hi A) + Q2R (er A).
Proof. intros (_ & I & E). apply Rabs_le_inv in E. lra. Qed.

Section Rules.
Context (lm : libm).
Notation B := (B64Ops lm).

Definition addb (X Y : bd) : option bd := fin_b (lo X + lo Y) (hi X + hi Y) (er X + er Y).
Lemma rel_add x y a b X Y C : rel x a X -> rel y b Y -> addb X Y = Some C -> rel (@fadd _ B x y) (@fadd _ ROps a b) C.
Proof.
  intros (F1 & I1 & E1) (F2 & I2 & E2) HC. apply (finish _ (B2R x + B2R y) _ _ _ _ _) with (4 := HC).
  - rewrite !Q2R_plus. cbn. lra.
  - rewrite Q2R_plus. cbn. replace (B2R x + B2R y - (a + b)) with ((B2R x - a) + (B2R y - b)) by ring. eapply Rle_trans; [apply Rabs_triang|]. lra.
  - now apply add_fin.
Qed.
Definition subb (X Y : bd) : option bd := fin_b (lo X - hi Y) (hi X - lo Y) (er X + er Y).
Lemma rel_sub x y a b X Y C : rel x a X -> rel y b Y -> subb X Y = Some C -> rel (@fsub _ B x y) (@fsub _ ROps a b) C.
Proof.
  intros (F1 & I1 & E1) (F2 & I2 & E2) HC. apply (finish _ (B2R x - B2R y) _ _ _ _ _) with (4 := HC).
  - rewrite !Q2R_minus. cbn. lra.
  - rewrite Q2R_plus. cbn. replace (B2R x - B2R y - (a - b)) with ((B2R x - a) + - (B2R y - b)) by ring. eapply Rle_trans; [apply Rabs_triang|]. rewrite Rabs_Ropp. lra.
  - now apply sub_fin.
Qed.
Definition negb_ (X : bd) : option bd := Some (Bd (- hi X) (- lo X) (er X)).
Lemma rel_neg x a X C : rel x a X -> negb_ X = Some C -> rel (@fneg _ B x) (@fneg _ ROps a) C.
Proof.
  intros (F1 & I1 & E1) HC. injection HC as <-. destruct (neg_fin lm x) as [V F]. split; [now rewrite F|]. cbn [lo hi er]. rewrite V, !Q2R_opp. cbn.
  split; [lra|]. replace (- B2R x - - a) with (- (B2R x - a)) by ring. now rewrite Rabs_Ropp.
Qed.
Definition absb (X : bd) : option bd :=
  Some (if Qle_bool 0 (lo X) then X else if Qle_bool (hi X) 0 then Bd (- hi X) (- lo X) (er X) else Bd 0 (mag X) (er X)).
Lemma Q2R_0 : Q2R 0 = 0. Proof. unfold Q2R. cbn. lra. Qed.
Lemma rel_abs x a X C : rel x a X -> absb X = Some C -> rel (@fabs _ B x) (@fabs _ ROps a) C.
Proof.
  intros (F1 & I1 & E1) HC. injection HC as <-. destruct (abs_fin lm x) as [V F]. split; [now rewrite F|]. rewrite V.
  assert (D : Rabs (Rabs (B2R x) - Rabs a) <= Q2R (er X)) by (eapply Rle_trans; [apply Rabs_triang_inv2|exact E1]). cbn.
  destruct (Qle_bool 0 (lo X)) eqn:L; [apply qle_true in L; rewrite Q2R_0 in L; rewrite (Rabs_pos_eq a) in * by lra; auto|].
  destruct (Qle_bool (hi X) 0) eqn:H; cbn [lo hi er].
  - apply qle_true in H. rewrite Q2R_0 in H. rewrite !Q2R_opp. rewrite (Rabs_left1 a) in * by lra. split; [lra|exact D].
  - pose proof (mag_ge X a I1). pose proof (Rabs_pos a). rewrite Q2R_0. split; [lra|exact D].
Qed.

Lemma corner a b l1 h1 l2 h2 : l1 <= a <= h1 -> l2 <= b <= h2 ->
  forall m, (m <= l1 * l2 -> m <= l1 * h2 -> m <= h1 * l2 -> m <= h1 * h2 -> m <= a * b) /\
            (l1 * l2 <= m -> l1 * h2 <= m -> h1 * l2 <= m -> h1 * h2 <= m -> a * b <= m).
Proof.
  intros Ha Hb m. split; intros.
  - destruct (Rle_lt_dec 0 b); [destruct (Rle_lt_dec 0 l1)|destruct (Rle_lt_dec 0 h1)]; nra.
  - destruct (Rle_lt_dec 0 b); [destruct (Rle_lt_dec 0 h1)|destruct (Rle_lt_dec 0 l1)]; nra.
Qed.
Definition prod_lo (X Y : bd) : Q := qmin (qmin (lo X * lo Y) (lo X * hi Y)) (qmin (hi X * lo Y) (hi X * hi Y)).
Definition prod_hi (X Y : bd) : Q := qmax (qmax (lo X * lo Y) (lo X * hi Y)) (qmax (hi X * lo Y) (hi X * hi Y)).
Lemma prod_in a b X Y : Q2R (lo X) <= a <= Q2R (hi X) -> Q2R (lo Y) <= b <= Q2R (hi Y) -> Q2R (prod_lo X Y) <= a * b <= Q2R (prod_hi X Y).
Proof.
  intros Ha Hb. unfold prod_lo, prod_hi.
  destruct (corner a b _ _ _ _ Ha Hb (Q2R (prod_lo X Y))) as [C1 _]. destruct (corner a b _ _ _ _ Ha Hb (Q2R (prod_hi X Y))) as [_ C2].
  unfold prod_lo, prod_hi in *.
  pose proof (qmin_le (lo X * lo Y) (lo X * hi Y)). pose proof (qmin_le (hi X * lo Y) (hi X * hi Y)).
  pose proof (qmin_le (qmin (lo X * lo Y) (lo X * hi Y)) (qmin (hi X * lo Y) (hi X * hi Y))).
  pose proof (qmax_ge (lo X * lo Y) (lo X * hi Y)). pose proof (qmax_ge (hi X * lo Y) (hi X * hi Y)).
  pose proof (qmax_ge (qmax (lo X * lo Y) (lo X * hi Y)) (qmax (hi X * lo Y) (hi X * hi Y))).
  rewrite !Q2R_mult in *. split; [apply C1|apply C2]; lra.
Qed.
Definition mulb (X Y : bd) : option bd := fin_b (prod_lo X Y) (prod_hi X Y) (upq (er X * mag Y + er Y * mag X + er X * er Y)).
Lemma rel_mul x y a b X Y C : rel x a X -> rel y b Y -> mulb X Y = Some C -> rel (@fmul _ B x y) (@fmul _ ROps a b) C.
Proof.
  intros H1 H2 HC. pose proof (er_pos _ _ _ H1) as P1. pose proof (er_pos _ _ _ H2) as P2. destruct H1 as (F1 & I1 & E1). destruct H2 as (F2 & I2 & E2).
  apply (finish _ (B2R x * B2R y) _ _ _ _ _) with (4 := HC).
  - now apply prod_in.
  - eapply Rle_trans; [|apply upq_ge]. rewrite !Q2R_plus, !Q2R_mult. cbn.
    replace (B2R x * B2R y - a * b) with ((B2R x - a) * b + (B2R y - b) * a + (B2R x - a) * (B2R y - b)) by ring.
    pose proof (mag_ge X a I1). pose proof (mag_ge Y b I2).
    eapply Rle_trans; [apply Rabs_triang|]. apply Rplus_le_compat; [eapply Rle_trans; [apply Rabs_triang|]; apply Rplus_le_compat|];
      rewrite Rabs_mult; apply Rmult_le_compat; try apply Rabs_pos; assumption.
  - now apply mul_fin.
Qed.

(** reciprocal interval of a denominator bounded away from 0 *)
Definition den_min (Y : bd) : Q := if Qle_bool 0 (lo Y) then lo Y else (- hi Y)%Q.
Definition inv_bd (Y : bd) : bd := Bd (dnq (/ hi Y)) (upq (/ lo Y)) 0.
Definition divb (X Y : bd) : option bd :=
  let m := den_min Y in
  if Qle_bool m (er Y) then None
  else let I := inv_bd Y in
       let l := prod_lo X I in let h := prod_hi X I in
       fin_b l h (upq ((er X + qmax (qabs l) (qabs h) * er Y) / (m - er Y))).
Lemma den_min_R Y b : Q2R (lo Y) <= b <= Q2R (hi Y) -> 0 < Q2R (den_min Y) -> Q2R (den_min Y) <= Rabs b /\
  Q2R (lo (inv_bd Y)) <= / b <= Q2R (hi (inv_bd Y)).
Proof.
  unfold den_min, inv_bd. cbn [lo hi]. intros Hb P. pose proof (dnq_le (/ hi Y)) as D. pose proof (upq_ge (/ lo Y)) as U.
  assert (NQ : forall q, Q2R q <> 0 -> Q2R (/ q) = / Q2R q).
  { intros q N. apply Q2R_inv. intros E. apply N. apply Qeq_eqR in E. rewrite E. apply Q2R_0. }
  destruct (Qle_bool 0 (lo Y)) eqn:E.
  - apply qle_true in E. rewrite Q2R_0 in E. rewrite (NQ (hi Y)) in D by lra. rewrite (NQ (lo Y)) in U by lra.
    rewrite Rabs_pos_eq by lra. split; [lra|]. assert (/ Q2R (hi Y) <= / b) by (apply Rinv_le_contravar; lra).
    assert (/ b <= / Q2R (lo Y)) by (apply Rinv_le_contravar; lra). lra.
  - rewrite Q2R_opp in P |- *. rewrite (NQ (hi Y)) in D by lra. rewrite (NQ (lo Y)) in U by lra.
    rewrite Rabs_left by lra. split; [lra|].
    assert (/ - Q2R (lo Y) <= / - b) by (apply Rinv_le_contravar; lra). assert (/ - b <= / - Q2R (hi Y)) by (apply Rinv_le_contravar; lra).
    rewrite !Rinv_opp in *. lra.
Qed.
Lemma rel_div x y a b X Y C : rel x a X -> rel y b Y -> divb X Y = Some C -> rel (@fdiv _ B x y) (@fdiv _ ROps a b) C.
Proof.
  intros H1 H2 HC. pose proof (er_pos _ _ _ H1) as P1. pose proof (er_pos _ _ _ H2) as P2. destruct H1 as (F1 & I1 & E1). destruct H2 as (F2 & I2 & E2).
  unfold divb in HC. cbv zeta in HC. destruct (Qle_bool (den_min Y) (er Y)) eqn:EM; [discriminate|]. apply qle_false in EM.
  destruct (den_min_R Y b I2) as [DB IB]; [lra|]. set (m := den_min Y) in *.
  assert (NB : b <> 0) by (intros ->; rewrite Rabs_R0 in DB; lra).
  assert (YB : Q2R m - Q2R (er Y) <= Rabs (B2R y)).
  { pose proof (Rabs_triang_inv b (b - B2R y)) as T. replace (b - (b - B2R y)) with (B2R y) in T by ring. rewrite (Rabs_minus_sym b) in T. lra. }
  assert (NY : B2R y <> 0) by (intros E; rewrite E, Rabs_R0 in YB; lra).
  pose proof (prod_in a (/ b) X (inv_bd Y) I1 IB) as PI.
  apply (finish _ (B2R x / B2R y) _ _ _ _ _) with (4 := HC).
  - exact PI.
  - eapply Rle_trans; [|apply upq_ge]. unfold Qdiv. rewrite Q2R_mult, Q2R_inv, Q2R_minus, Q2R_plus, Q2R_mult; cbn.
    2:{ intros E. apply Qeq_eqR in E. rewrite Q2R_minus, Q2R_0 in E. lra. }
    pose proof (mag_ge (Bd (prod_lo X (inv_bd Y)) (prod_hi X (inv_bd Y)) 0) (a * / b) PI) as MQ. unfold mag in MQ. cbn [lo hi] in MQ.
    set (Mq := Q2R (qmax _ _)) in *.
    replace (B2R x / B2R y - a / b) with (((B2R x - a) - (a * / b) * (B2R y - b)) * / B2R y) by (field; split; assumption).
    rewrite Rabs_mult, Rabs_inv. apply Rmult_le_compat; [apply Rabs_pos|left; apply Rinv_0_lt_compat; lra| |apply Rinv_le_contravar; lra].
    unfold Rminus at 1. eapply Rle_trans; [apply Rabs_triang|]. rewrite Rabs_Ropp, Rabs_mult. apply Rplus_le_compat; [exact E1|].
    apply Rmult_le_compat; try apply Rabs_pos; assumption.
  - intros HO. now apply div_fin.
Qed.

(** square root of something positive *)
Definition sqrt_dn (q : Q) : Q :=
  let k := (60 - (Z.log2 (Z.abs (Qnum q)) - Z.log2 (Zpos (Qden q))))%Z in
  let k := Z.to_pos (Z.max k 1) in
  let c := Z.sqrt ((Qnum q * Z.pow_pos 2 (2 * k)) / Zpos (Qden q)) # Pos.pow 2 k in
  if Qle_bool (c * c) q && Qle_bool 0 c then c else 0%Q.
Definition sqrt_up (q : Q) : Q :=
  let k := (60 - (Z.log2 (Z.abs (Qnum q)) - Z.log2 (Zpos (Qden q))))%Z in
  let k := Z.to_pos (Z.max k 1) in
  let c := (Z.sqrt ((Qnum q * Z.pow_pos 2 (2 * k)) / Zpos (Qden q)) + 1) # Pos.pow 2 k in
  if Qle_bool q (c * c) && Qle_bool 0 c then c else qmax q 1.
Lemma sqrt_dn_R q : 0 <= Q2R q -> 0 <= Q2R (sqrt_dn q) <= sqrt (Q2R q).
Proof.
  intros P. unfold sqrt_dn. cbv zeta. match goal with |- context [if ?b && ?c then ?d else _] => destruct b eqn:E1; destruct c eqn:E2; set (v := d) in * end;
    cbn [andb]; rewrite ?Q2R_0; try (split; [lra|apply sqrt_pos]).
  apply qle_true in E1, E2. rewrite Q2R_mult in E1. rewrite Q2R_0 in E2. split; [exact E2|]. rewrite <- (sqrt_square (Q2R v)) by exact E2. now apply sqrt_le_1_alt.
Qed.
Lemma sqrt_up_R q : 0 <= Q2R q -> sqrt (Q2R q) <= Q2R (sqrt_up q).
Proof.
  intros P. unfold sqrt_up. cbv zeta. match goal with |- context [if ?b && ?c then ?d else _] => destruct b eqn:E1; destruct c eqn:E2; set (v := d) in * end;
    cbn [andb].
  - apply qle_true in E1, E2. rewrite Q2R_mult in E1. rewrite Q2R_0 in E2. rewrite <- (sqrt_square (Q2R v)) by exact E2. now apply sqrt_le_1_alt.
  - destruct (qmax_ge q 1) as [A1 A2]. replace (Q2R 1) with 1 in A2 by (unfold Q2R; cbn; lra).
    pose proof (sqrt_pos (Q2R q)). pose proof (sqrt_sqrt (Q2R q) P). nra.
  - destruct (qmax_ge q 1) as [A1 A2]. replace (Q2R 1) with 1 in A2 by (unfold Q2R; cbn; lra).
    pose proof (sqrt_pos (Q2R q)). pose proof (sqrt_sqrt (Q2R q) P). nra.
  - destruct (qmax_ge q 1) as [A1 A2]. replace (Q2R 1) with 1 in A2 by (unfold Q2R; cbn; lra).
    pose proof (sqrt_pos (Q2R q)). pose proof (sqrt_sqrt (Q2R q) P). nra.
Qed.
Definition sqrtb (X : bd) : option bd :=
  let s := sqrt_dn (lo X) in
  if Qle_bool (er X) (lo X) && negb (Qle_bool s 0) then fin_b s (sqrt_up (hi X)) (upq (er X / s)) else None.
Lemma rel_sqrt x a X C : rel x a X -> sqrtb X = Some C -> rel (@fsqrt _ B x) (@fsqrt _ ROps a) C.
Proof.
  intros H HC. pose proof (er_pos _ _ _ H) as P. destruct H as (F & I & E). unfold sqrtb in HC. cbv zeta in HC.
  destruct (Qle_bool (er X) (lo X)) eqn:E1; [|discriminate]. destruct (Qle_bool (sqrt_dn (lo X)) 0) eqn:E2; [discriminate|]. cbn [andb negb] in HC.
  apply qle_true in E1. apply qle_false in E2. rewrite Q2R_0 in E2. destruct (sqrt_dn_R (lo X)) as [S1 S2]; [lra|]. set (s := sqrt_dn (lo X)) in *.
  pose proof (Rabs_le_inv _ _ E) as E'. assert (XP : 0 <= B2R x) by lra.
  assert (SA : Q2R s <= sqrt a) by (eapply Rle_trans; [exact S2|apply sqrt_le_1_alt; lra]).
  apply (finish _ (sqrt (B2R x)) _ _ _ _ _) with (4 := HC).
  - split; [exact SA|]. eapply Rle_trans; [apply sqrt_le_1_alt|apply sqrt_up_R]; lra.
  - eapply Rle_trans; [|apply upq_ge]. unfold Qdiv. rewrite Q2R_mult, Q2R_inv by (intros Q; apply Qeq_eqR in Q; rewrite Q2R_0 in Q; lra).
    pose proof (sqrt_pos (B2R x)) as SP. pose proof (sqrt_sqrt (B2R x) XP) as SX. pose proof (sqrt_sqrt a ltac:(lra)) as SS.
    cbn. apply (Rmult_le_reg_r (sqrt a)); [lra|].
    apply Rle_trans with (Rabs (B2R x - a)).
    + replace (B2R x - a) with ((sqrt (B2R x) - sqrt a) * (sqrt (B2R x) + sqrt a)) by (rewrite <- SX, <- SS at 3; ring).
      rewrite Rabs_mult. apply Rmult_le_compat_l; [apply Rabs_pos|]. rewrite Rabs_pos_eq; lra.
    + eapply Rle_trans; [exact E|]. apply Rle_trans with (Q2R (er X) * / Q2R s * Q2R s).
      * rewrite Rmult_assoc, Rinv_l by lra. lra.
      * apply Rmult_le_compat_l; [|exact SA]. apply Rmult_le_pos; [exact P|]. left. apply Rinv_0_lt_compat. exact E2.
  - intros _. pose proof (Bsqrt_correct prec emax _ _ mode_NE x) as (A & D & _). split; [exact A|].
    cbn [fsqrt B64Ops]. rewrite D. destruct x as [| | |sx mx ex Bx]; try reflexivity; try discriminate F. destruct sx; [|reflexivity].
    exfalso. assert (B2R (B754_finite true mx ex Bx : b64) < 0); [|lra]. unfold B2R. apply F2R_lt_0. reflexivity.
Qed.

(** literals *)
Definition litb (m k : Z) : option bd :=
  match k with
  | Z0 => if Z.leb (Z.abs m) (2 ^ 53) then Some (Bd (m # 1) (m # 1) 0) else None
  | Zpos p => match m with
              | Zpos q => let v := Zpos q # Pos.pow 10 p in
                          if Z.eqb (5 ^ k * (m / 5 ^ k)) m && Z.leb (m / 5 ^ k) (2 ^ 53) && Z.leb k 100 then Some (Bd v v 0) else fin_b v v 0
              | Z0 => None | Zneg _ => None
              end
  | Zneg _ => None
  end.
Lemma rel_lit m k C : litb m k = Some C -> rel (@L _ B m k) (@L _ ROps m k) C.
Proof.
  intros HC. destruct k as [|k|k]; cbn [litb] in HC; [| |discriminate].
  - destruct (Z.leb_spec (Z.abs m) (2 ^ 53)); [|discriminate]. injection HC as <-. destruct (lit_int_fin lm m H) as [V F]. split; [exact F|].
    rewrite V. change (@L _ ROps m 0) with (IZR m). cbn [lo hi er]. rewrite Q2R_0. assert (Q2R (m # 1) = IZR m) as -> by (unfold Q2R; cbn; lra).
    split; [lra|]. unfold Rminus. rewrite Rplus_opp_r, Rabs_R0. lra.
  - destruct m as [|m|m]; try discriminate. cbv zeta in HC.
    assert (E : @L _ ROps (Zpos m) (Zpos k) = IZR (Zpos m) / IZR (10 ^ Zpos k)) by reflexivity.
    assert (QE : Q2R (Zpos m # Pos.pow 10 k) = IZR (Zpos m) / IZR (10 ^ Zpos k)) by (unfold Q2R; cbn [Qnum Qden]; rewrite Pos2Z.inj_pow; reflexivity).
    destruct (_ && _ && _) eqn:EX.
    + injection HC as <-. apply andb_prop in EX. destruct EX as [EX E3]. apply andb_prop in EX. destruct EX as [E1 E2].
      apply Z.eqb_eq in E1. apply Z.leb_le in E2, E3. set (q := (Zpos m / 5 ^ Zpos k)%Z) in *.
      assert (QP : (0 <= q)%Z) by (apply Z.div_pos; [lia|apply Z.pow_pos_nonneg; lia]).
      assert (V : IZR (Zpos m) / IZR (10 ^ Zpos k) = IZR q * bpow radix2 (- Zpos k)).
      { rewrite <- E1, mult_IZR. change 10%Z with (5 * 2)%Z. rewrite Z.pow_mul_l, mult_IZR, bpow_opp.
        change (bpow radix2 (Zpos k)) with (IZR (2 ^ Zpos k)). field. split; apply not_0_IZR, Z.pow_nonzero; lia. }
      assert (FM : fmt (IZR q * bpow radix2 (- Zpos k))).
      { destruct (Z.eq_dec q (2 ^ 53)) as [Q|Q].
        - rewrite Q. change (IZR (2 ^ 53)) with (bpow radix2 53). rewrite <- bpow_plus. apply fmt_bpow. lia.
        - apply fmt_FLT. exists (Float radix2 q (- Zpos k)); [reflexivity| |]; cbn [Fnum Fexp]; [change (radix2 ^ 53)%Z with (2 ^ 53)%Z; lia|lia]. }
      assert (BB : Rabs (IZR q * bpow radix2 (- Zpos k)) <= bpow radix2 1023).
      { rewrite Rabs_pos_eq by (apply Rmult_le_pos; [now apply IZR_le|apply bpow_ge_0]).
        apply Rle_trans with (bpow radix2 53 * bpow radix2 0); [|rewrite <- bpow_plus; apply bpow_le; lia].
        apply Rmult_le_compat; [now apply IZR_le|apply bpow_ge_0| |apply bpow_le; lia]. change (bpow radix2 53) with (IZR (2 ^ 53)). now apply IZR_le. }
      destruct (lit_dec_fin lm m k) as [LV LF]; [rewrite V; eapply Rle_trans; [apply Rle_abs|exact BB]|].
      split; [exact LF|]. cbn [lo hi er]. rewrite LV, E, QE, V, (rnd_id _ FM), Q2R_0. split; [lra|]. unfold Rminus. rewrite Rplus_opp_r, Rabs_R0. lra.
    + rewrite E. apply (finish _ (IZR (Zpos m) / IZR (10 ^ Zpos k)) _ _ _ _ _) with (4 := HC).
      * rewrite QE. lra.
      * unfold Rminus. rewrite Rplus_opp_r, Rabs_R0, Q2R_0. lra.
      * intros HO. apply lit_dec_fin. eapply Rle_trans; [apply Rle_abs|exact HO].
Qed.

(** comparisons decided by the bounds *)
Definition lt_yes (X Y : bd) : bool := negb (Qle_bool (lo Y - er Y) (hi X + er X)).
Lemma rel_lt_true x y a b X Y : rel x a X -> rel y b Y -> lt_yes X Y = true -> @flt _ B x y = true /\ @flt _ ROps a b = true.
Proof.
  intros H1 H2 HC. pose proof (er_pos _ _ _ H1) as P1. pose proof (er_pos _ _ _ H2) as P2. pose proof (rel_bounds _ _ _ H1) as B1. pose proof (rel_bounds _ _ _ H2) as B2.
  destruct H1 as (F1 & I1 & E1). destruct H2 as (F2 & I2 & E2). unfold lt_yes in HC. destruct (Qle_bool _ _) eqn:Q; [discriminate|].
  apply qle_false in Q. rewrite Q2R_plus, Q2R_minus in Q. rewrite (lt_fin lm _ _ F1 F2). cbn. split; apply Rlt_bool_true; lra.
Qed.
Lemma rel_lt_false x y a b X Y : rel x a X -> rel y b Y -> lt_yes Y X = true -> @flt _ B x y = false /\ @flt _ ROps a b = false.
Proof.
  intros H1 H2 HC. pose proof (er_pos _ _ _ H1) as P1. pose proof (er_pos _ _ _ H2) as P2. pose proof (rel_bounds _ _ _ H1) as B1. pose proof (rel_bounds _ _ _ H2) as B2.
  destruct H1 as (F1 & I1 & E1). destruct H2 as (F2 & I2 & E2). unfold lt_yes in HC. destruct (Qle_bool _ _) eqn:Q; [discriminate|].
  apply qle_false in Q. rewrite Q2R_plus, Q2R_minus in Q. rewrite (lt_fin lm _ _ F1 F2). cbn. split; apply Rlt_bool_false; lra.
Qed.
Lemma rel_le_true x y a b X Y : rel x a X -> rel y b Y -> lt_yes X Y = true -> @fle _ B x y = true /\ @fle _ ROps a b = true.
Proof.
  intros H1 H2 HC. pose proof (er_pos _ _ _ H1) as P1. pose proof (er_pos _ _ _ H2) as P2. pose proof (rel_bounds _ _ _ H1) as B1. pose proof (rel_bounds _ _ _ H2) as B2.
  destruct H1 as (F1 & I1 & E1). destruct H2 as (F2 & I2 & E2). unfold lt_yes in HC. destruct (Qle_bool _ _) eqn:Q; [discriminate|].
  apply qle_false in Q. rewrite Q2R_plus, Q2R_minus in Q. rewrite (le_fin lm _ _ F1 F2). cbn. split; apply Rle_bool_true; lra.
Qed.
Lemma rel_le_false x y a b X Y : rel x a X -> rel y b Y -> lt_yes Y X = true -> @fle _ B x y = false /\ @fle _ ROps a b = false.
Proof.
  intros H1 H2 HC. pose proof (er_pos _ _ _ H1) as P1. pose proof (er_pos _ _ _ H2) as P2. pose proof (rel_bounds _ _ _ H1) as B1. pose proof (rel_bounds _ _ _ H2) as B2.
  destruct H1 as (F1 & I1 & E1). destruct H2 as (F2 & I2 & E2). unfold lt_yes in HC. destruct (Qle_bool _ _) eqn:Q; [discriminate|].
  apply qle_false in Q. rewrite Q2R_plus, Q2R_minus in Q. rewrite (le_fin lm _ _ F1 F2). cbn. split; apply Rle_bool_false; lra.
Qed.
End Rules.
