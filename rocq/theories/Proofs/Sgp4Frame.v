(** * What one [sgp4] call reads and writes (any arithmetic) *)
From Coq Require Import ZArith List Bool.
From Verif.Model Require Import Float Str Satrec Constants Vec3 Dpper Dspace Sgp4.
Import ListNotations.
Local Open Scope Z_scope.

Section S.
Context {F : Type} {FO : FloatOps F}.
Implicit Types s : Satrec F.

(** Overwrite the five coefficients a deep-space propagation recomputes. *)
Definition scratch5 (a x c p q : F) s : Satrec F :=
  set_aycof a (set_xlcof x (set_con41 c (set_x1mth2 p (set_x7thm1 q s)))).

Lemma method_D_eqb s : sr_method s = MethodD -> method_eqb (sr_method s) MethodD = true.
Proof. now intros ->. Qed.
Lemma method_N_eqb s : sr_method s = MethodN -> method_eqb (sr_method s) MethodD = false.
Proof. now intros ->. Qed.

Lemma dpper_scratch a x c p q s o : dpper (scratch5 a x c p q s) o = dpper s o.
Proof. reflexivity. Qed.
Lemma secular_scratch a x c p q s : sgp4_secular (scratch5 a x c p q s) = sgp4_secular s.
Proof. reflexivity. Qed.
Lemma em_scratch a x c p q fuel s k : sgp4_em fuel (scratch5 a x c p q s) k = sgp4_em fuel s k.
Proof. reflexivity. Qed.
Lemma mean_scratch a x c p q s k em : sgp4_mean (scratch5 a x c p q s) k em = sgp4_mean s k em.
Proof. reflexivity. Qed.

Lemma bad_ep_scratch a x c p q s m : sgp4_bad_ep (scratch5 a x c p q s) m = sgp4_bad_ep s m.
Proof. reflexivity. Qed.
Lemma xincp_scratch a x c p q s m : sgp4_xincp (scratch5 a x c p q s) m = sgp4_xincp s m.
Proof. reflexivity. Qed.
Lemma sinip_scratch a x c p q s y : sgp4_sinip (scratch5 a x c p q s) y = sgp4_sinip s y.
Proof. reflexivity. Qed.
Lemma cosip_scratch a x c p q s y : sgp4_cosip (scratch5 a x c p q s) y = sgp4_cosip s y.
Proof. reflexivity. Qed.
Lemma method_scratch a x c p q s : sr_method (scratch5 a x c p q s) = sr_method s.
Proof. reflexivity. Qed.
Lemma no_scratch a x c p q s : sr_no (scratch5 a x c p q s) = sr_no s.
Proof. reflexivity. Qed.
Lemma am_scratch a x c p q s k : sgp4_am (scratch5 a x c p q s) k = sgp4_am s k.
Proof. reflexivity. Qed.

(** In deep-space mode the long-period step overwrites aycof and xlcof, whatever they were... *)
Lemma long_D s xi : sr_method s = MethodD ->
  { y | forall a x c p q, sgp4_long (scratch5 a x c p q s) xi
       = scratch5 (fst y) (snd y) c p q s }.
Proof.
  intros HD. unfold sgp4_long.
  exists (fmul (fmul (fneg (L 5 1)) kJ3OJ2) (fsin xi),
    if flt (L 15 13) (fabs (fadd (fcos xi) (L 1 0))) then
      fdiv (fmul (fmul (fmul (fneg (L 25 2)) kJ3OJ2) (fsin xi)) (fadd (L 3 0) (fmul (L 5 0) (fcos xi)))) (fadd (L 1 0) (fcos xi))
    else fdiv (fmul (fmul (fmul (fneg (L 25 2)) kJ3OJ2) (fsin xi)) (fadd (L 3 0) (fmul (L 5 0) (fcos xi)))) sgp4_TEMP4).
  intros. rewrite method_scratch, HD. cbn [method_eqb fst snd].
  destruct (flt (L 15 13) (fabs (fadd (fcos xi) (L 1 0)))); reflexivity.
Qed.
(** ... and the inclination step overwrites the other three. *)
Lemma incl_D s xi : sr_method s = MethodD ->
  { y | forall a x c p q, sgp4_incl_consts (scratch5 a x c p q s) xi
       = scratch5 a x (fst (fst y)) (snd (fst y)) (snd y) s }.
Proof.
  intros HD. unfold sgp4_incl_consts.
  exists (fsub (fmul (L 3 0) (fmul (fcos xi) (fcos xi))) (L 1 0), fsub (L 1 0) (fmul (fcos xi) (fcos xi)),
    fsub (fmul (L 7 0) (fmul (fcos xi) (fcos xi))) (L 1 0)). intros. rewrite method_scratch, HD. cbn [method_eqb fst snd]. reflexivity.
Qed.

Lemma scratch_id s : s = scratch5 (sr_aycof s) (sr_xlcof s) (sr_con41 s) (sr_x1mth2 s) (sr_x7thm1 s) s.
Proof. destruct s; reflexivity. Qed.
Lemma kepler_in_scratch a x c p q c' p' q' s m am :
  sgp4_kepler_in (scratch5 a x c p q s) m am = sgp4_kepler_in (scratch5 a x c' p' q' s) m am.
Proof. reflexivity. Qed.

Lemma tail_scratch1 a x c p q a' x' c' p' q' s m am nm : sr_method s = MethodD ->
  snd (sgp4_tail (scratch5 a x c p q s) m am nm) = snd (sgp4_tail (scratch5 a' x' c' p' q' s) m am nm).
Proof.
  intros HD. unfold sgp4_tail. cbv zeta.
  rewrite !bad_ep_scratch, !xincp_scratch, !sinip_scratch, !cosip_scratch.
  destruct (sgp4_bad_ep s m); [reflexivity|].
  set (xi := sgp4_xincp s m).
  destruct (long_D s xi HD) as [y Hy]. rewrite !Hy.
  destruct (incl_D s xi HD) as [z Hz]. rewrite !Hz.
  rewrite (kepler_in_scratch (fst y) (snd y) c p q c' p' q').
  match goal with |- context [if ?b then (set_error 4 _, _) else _] => destruct b end; [reflexivity|].
  match goal with |- context [if ?b then (set_error 6 _, _) else _] => destruct b end; reflexivity.
Qed.
Lemma tail_scratch a x c p q s m am nm : sr_method s = MethodD ->
  snd (sgp4_tail (scratch5 a x c p q s) m am nm) = snd (sgp4_tail s m am nm).
Proof.
  intros HD. pose proof (scratch_id s) as E.
  rewrite E at 2. now apply tail_scratch1.
Qed.

(** Result of a call, dropping the updated record. *)
Definition outcome_snd {A B} (o : outcome (A * B)) : outcome B :=
  match o with Done (_, b) => Done b | Panic => Panic | NoFuel => NoFuel end.

Lemma start_scratch a x c p q t s :
  set_error 0 (set_t t (scratch5 a x c p q s)) = scratch5 a x c p q (set_error 0 (set_t t s)).
Proof. reflexivity. Qed.
Lemma sgp4_scratch a x c p q fuel s t : sr_method s = MethodD ->
  outcome_snd (sgp4 fuel (scratch5 a x c p q s) t) = outcome_snd (sgp4 fuel s t).
Proof.
  intros HD. unfold sgp4. rewrite start_scratch.
  set (s1 := set_error 0 (set_t t s)).
  assert (HD1 : sr_method s1 = MethodD) by exact HD. clearbody s1. cbv zeta.
  rewrite secular_scratch, em_scratch.
  destruct (sgp4_em fuel s1 (sgp4_secular s1)) as [em| |]; cbn [bindO]; [|reflexivity|reflexivity].
  rewrite no_scratch, am_scratch, mean_scratch.
  destruct (fle (sr_no s1) (L 0 0)); [reflexivity|].
  match goal with |- context [if ?b then Done (set_error 1 _, _) else _] => destruct b end; [reflexivity|].
  pose proof (tail_scratch a x c p q s1 (sgp4_mean s1 (sgp4_secular s1) (fsub em (se_tempe (sgp4_secular s1))))
    (sgp4_am s1 (sgp4_secular s1)) (sgp4_nm (sgp4_am s1 (sgp4_secular s1))) HD1) as H.
  destruct (sgp4_tail (scratch5 a x c p q s1) _ _ _) as [s2 r2].
  destruct (sgp4_tail s1 _ _ _) as [s3 r3]. cbn [snd outcome_snd] in H |- *. now rewrite H.
Qed.

Lemma sgp4_t_error e t0 fuel s t : sgp4 fuel (set_error e (set_t t0 s)) t = sgp4 fuel s t.
Proof.
  unfold sgp4.
  assert (H : set_error 0 (set_t t (set_error e (set_t t0 s))) = set_error 0 (set_t t s)) by reflexivity.
  now rewrite H.
Qed.

(** Frame of one call. *)
Lemma tail_frame s m am nm s' r : sgp4_tail s m am nm = (s', r) ->
  (r = Err Ep \/ r = Err Pl \/ r = Err DecayCondition \/ exists v, r = Ok v) /\
  (sr_method s = MethodN -> s' = match r with Ok _ => s | Err e => set_error (sgp4_error_code e) s end) /\
  (sr_method s = MethodD -> exists a x c p q,
     s' = match r with Ok _ => scratch5 a x c p q s
                     | Err e => set_error (sgp4_error_code e) (scratch5 a x c p q s) end).
Proof.
  unfold sgp4_tail. intros H.
  pose proof (scratch_id s) as Hid.
  assert (HL : forall xi, sr_method s = MethodD -> exists a x,
    sgp4_long s xi = scratch5 a x (sr_con41 s) (sr_x1mth2 s) (sr_x7thm1 s) s).
  { intros xi HD. destruct (long_D s xi HD) as [y Hy].
    pose proof (Hy (sr_aycof s) (sr_xlcof s) (sr_con41 s) (sr_x1mth2 s) (sr_x7thm1 s)) as E.
    rewrite <- Hid in E. rewrite E. exists (fst y), (snd y). reflexivity. }
  assert (HLN : forall xi, sr_method s = MethodN -> sgp4_incl_consts (sgp4_long s xi) xi = s /\ sgp4_long s xi = s).
  { intros xi HN. unfold sgp4_long, sgp4_incl_consts. rewrite HN; cbn [method_eqb]. rewrite HN. now split. }
  destruct (sgp4_bad_ep s m) eqn:E1.
  { injection H as <- <-. split; [tauto|split; [reflexivity|]].
    intros _. do 5 eexists. cbn [sgp4_error_code]. now rewrite <- Hid. }
  cbv zeta in H. set (xi := sgp4_xincp s m) in *.
  match type of H with context [if ?b then (set_error 4 _, _) else _] => destruct b end.
  { injection H as <- <-. split; [tauto|split].
    - intros HN. now destruct (HLN xi HN) as [_ ->].
    - intros HD. destruct (HL xi HD) as (a & x & ->). now do 5 eexists. }
  assert (HI : sr_method s = MethodD -> exists a x c p q, sgp4_incl_consts (sgp4_long s xi) xi = scratch5 a x c p q s).
  { intros HD. destruct (HL xi HD) as (a & x & ->). destruct (incl_D s xi HD) as [z Hz]. rewrite Hz. now do 5 eexists. }
  match type of H with context [if ?b then (set_error 6 _, _) else _] => destruct b end.
  { injection H as <- <-. split; [tauto|split].
    - intros HN. now destruct (HLN xi HN) as [-> _].
    - intros HD. destruct (HI HD) as (a & x & c & p & q & ->). now do 5 eexists. }
  injection H as <- <-. split; [eauto|split].
  - intros HN. now destruct (HLN xi HN) as [-> _].
  - intros HD. destruct (HI HD) as (a & x & c & p & q & ->). now do 5 eexists.
Qed.

(** error field written by an outcome *)
Definition flag_of (r : result (SGP4Result F) SGP4Error) : Z :=
  match r with Ok _ => 0 | Err e => sgp4_error_code e end.

Lemma sgp4_frame fuel s t s' r : sgp4 fuel s t = Done (s', r) ->
  (sr_method s = MethodN -> s' = set_error (flag_of r) (set_t t s)) /\
  (sr_method s = MethodD -> exists a x c p q, s' = set_error (flag_of r) (set_t t (scratch5 a x c p q s))).
Proof.
  unfold sgp4. set (s1 := set_error 0 (set_t t s)). cbv zeta.
  pose proof (scratch_id s) as Hid.
  destruct (sgp4_em fuel s1 (sgp4_secular s1)) as [em| |]; cbn [bindO]; [|discriminate|discriminate].
  destruct (fle (sr_no s1) (L 0 0)).
  { intros H; injection H as <- <-. split; [reflexivity|]. intros _. do 5 eexists. rewrite <- Hid. reflexivity. }
  match goal with |- context [if ?b then Done (set_error 1 _, _) else _] => destruct b end.
  { intros H; injection H as <- <-. split; [reflexivity|]. intros _. do 5 eexists. rewrite <- Hid. reflexivity. }
  match goal with |- Done ?t = _ -> _ => destruct t as [s2 r2] eqn:E end.
  intros H; injection H as <- <-. apply tail_frame in E. destruct E as (_ & HN & HD). split.
  - intros M. rewrite (HN M). destruct r2; reflexivity.
  - intros M. destruct (HD M) as (a & x & c & p & q & ->). exists a, x, c, p, q. destruct r2; reflexivity.
Qed.

Lemma sgp4_history1 fuel fuel' s t0 s' r t : sgp4 fuel s t0 = Done (s', r) ->
  outcome_snd (sgp4 fuel' s' t) = outcome_snd (sgp4 fuel' s t).
Proof.
  intros H. apply sgp4_frame in H. destruct H as [HN HD].
  destruct (sr_method s) eqn:M.
  - rewrite (HN eq_refl). now rewrite sgp4_t_error.
  - destruct (HD eq_refl) as (a & x & c & p & q & ->). rewrite sgp4_t_error. now apply sgp4_scratch.
Qed.
End S.
