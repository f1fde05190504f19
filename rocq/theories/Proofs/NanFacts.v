(** * NaN propagation in the f64 instance *)
From Coq Require Import ZArith Bool List.
From Flocq Require Import IEEE754.BinarySingleNaN.
From Verif.Model Require Import Float Str Satrec Constants Vec3 Dpper Dspace Sgp4 Initl Sgp4init.
From Verif.Inst Require Import B64.
From Verif.Proofs Require Import InitKind.
Local Open Scope Z_scope.

Definition isnan (x : b64) : Prop := x = B754_nan.
(** The libm functions return NaN when given NaN (pow and powi for exponents other than zero). *)
Record keeps_nan (lm : libm) : Prop := MkKeepsNan {
  kn_sin : forall x, isnan x -> isnan (lm_sin lm x);
  kn_cos : forall x, isnan x -> isnan (lm_cos lm x);
  kn_atan2_y : forall x y, isnan x -> isnan (lm_atan2 lm x y);
  kn_atan2_x : forall x y, isnan y -> isnan (lm_atan2 lm x y);
  kn_pow : forall x y, isnan x -> Beqb y (B754_zero false) = false -> isnan (lm_pow lm x y);
  kn_powi : forall x n, isnan x -> n <> 0 -> isnan (lm_powi lm x n) }.

Section S.
Context (lm : libm) (K : keeps_nan lm).
Local Existing Instance B64Ops.
Notation FO := (B64Ops lm).
Lemma n_add_l x y : isnan x -> isnan (@fadd _ FO x y). Proof. intros ->. now destruct y. Qed.
Lemma n_add_r x y : isnan y -> isnan (@fadd _ FO x y). Proof. intros ->. now destruct x. Qed.
Lemma n_sub_l x y : isnan x -> isnan (@fsub _ FO x y). Proof. intros ->. now destruct y. Qed.
Lemma n_sub_r x y : isnan y -> isnan (@fsub _ FO x y). Proof. intros ->. now destruct x. Qed.
Lemma n_mul_l x y : isnan x -> isnan (@fmul _ FO x y). Proof. intros ->. now destruct y. Qed.
Lemma n_mul_r x y : isnan y -> isnan (@fmul _ FO x y). Proof. intros ->. now destruct x. Qed.
Lemma n_div_l x y : isnan x -> isnan (@fdiv _ FO x y). Proof. intros ->. now destruct y. Qed.
Lemma n_div_r x y : isnan y -> isnan (@fdiv _ FO x y). Proof. intros ->. now destruct x. Qed.
Lemma n_rem_l x y : isnan x -> isnan (@frem _ FO x y). Proof. intros ->. now destruct y. Qed.
Lemma n_neg x : isnan x -> isnan (@fneg _ FO x). Proof. now intros ->. Qed.
Lemma n_abs x : isnan x -> isnan (@fabs _ FO x). Proof. now intros ->. Qed.
Lemma n_sqrt x : isnan x -> isnan (@fsqrt _ FO x). Proof. now intros ->. Qed.
Lemma n_sin x : isnan x -> isnan (@fsin _ FO x). Proof. apply K. Qed.
Lemma n_cos x : isnan x -> isnan (@fcos _ FO x). Proof. apply K. Qed.
Lemma n_atan2_l x y : isnan x -> isnan (@fatan2 _ FO x y). Proof. apply K. Qed.
Lemma n_atan2_r x y : isnan y -> isnan (@fatan2 _ FO x y). Proof. apply K. Qed.
Lemma n_pow x y : isnan x -> Beqb y (B754_zero false) = false -> isnan (@fpow _ FO x y). Proof. apply K. Qed.
Lemma n_lt_l x y : isnan x -> @flt _ FO x y = false. Proof. now intros ->. Qed.
Lemma n_lt_r x y : isnan y -> @flt _ FO x y = false. Proof. intros ->. now destruct x. Qed.
Lemma n_le_l x y : isnan x -> @fle _ FO x y = false. Proof. now intros ->. Qed.
Lemma n_le_r x y : isnan y -> @fle _ FO x y = false. Proof. intros ->. now destruct x. Qed.
Lemma n_if (b : bool) x y : isnan x -> isnan y -> isnan (if b then x else y). Proof. now destruct b. Qed.
End S.

(** Finds a path from the root of the expression to a NaN leaf. *)
Ltac nan K :=
  first [assumption |
  lazymatch goal with
  | |- isnan (fadd _ _) => first [apply n_add_l; nan K | apply n_add_r; nan K]
  | |- isnan (fsub _ _) => first [apply n_sub_l; nan K | apply n_sub_r; nan K]
  | |- isnan (fmul _ _) => first [apply n_mul_l; nan K | apply n_mul_r; nan K]
  | |- isnan (fdiv _ _) => first [apply n_div_l; nan K | apply n_div_r; nan K]
  | |- isnan (frem _ _) => apply n_rem_l; nan K
  | |- isnan (fneg _) => apply n_neg; nan K
  | |- isnan (fabs _) => apply n_abs; nan K
  | |- isnan (fsqrt _) => apply n_sqrt; nan K
  | |- isnan (fsin _) => apply (n_sin _ K); nan K
  | |- isnan (fcos _) => apply (n_cos _ K); nan K
  | |- isnan (fatan2 _ _) => first [apply (n_atan2_l _ K); nan K | apply (n_atan2_r _ K); nan K]
  | |- isnan (fpow _ _) => apply (n_pow _ K); [nan K | vm_compute; reflexivity]
  end].

Section T.
Context (lm : libm) (K : keeps_nan lm).
Notation FO := (B64Ops lm).

(** A NaN mean anomaly, node or perigee argument spoils the mean anomaly handed to Kepler's equation. *)
Lemma secular_nan (s : Satrec b64) :
  isnan (sr_t s) \/ isnan (sr_mo s) \/ isnan (sr_argpo s) \/ isnan (sr_nodeo s) ->
  let c := @sgp4_secular _ FO s in isnan (se_mm c) \/ isnan (se_argpm c) \/ isnan (se_nodem c).
Proof.
  intros H. unfold sgp4_secular. destruct (negb (sr_isimp s =? 1)); cbn [se_mm se_argpm se_nodem];
    (destruct H as [H|[H|[H|H]]]; [left; nan K|left; nan K|right; left; nan K|right; right; nan K]).
Qed.
Lemma mean_nan (s : Satrec b64) c em :
  isnan (sr_no s) \/ isnan (se_mm c) \/ isnan (se_argpm c) \/ isnan (se_nodem c) -> isnan (mn_mp (@sgp4_mean _ FO s c em)).
Proof. intros H. unfold sgp4_mean. cbn [mn_mp]. destruct H as [H|[H|[H|H]]]; nan K. Qed.
Lemma kepler_nan (s : Satrec b64) m am : isnan (mn_mp m) -> isnan (ki_u (@sgp4_kepler_in _ FO s m am)).
Proof. intros H. unfold sgp4_kepler_in. cbn [ki_u]. nan K. Qed.
Lemma loop_unfold n a b u t k : @kepler_loop _ FO (S n) a b u t k =
  if @fle _ FO (@L _ FO 1 12) (@fabs _ FO t) then
    let t' := @kepler_correction _ FO a b u (ko_eo1 k) in
    @kepler_loop _ FO n a b u t' (MkKeplerOut (@fsin _ FO (ko_eo1 k)) (@fcos _ FO (ko_eo1 k)) (@fadd _ FO (ko_eo1 k) t'))
  else k.
Proof. reflexivity. Qed.
Lemma start_big : @fle _ FO (@L _ FO 1 12) (@fabs _ FO (@L _ FO 99999 1)) = true.
Proof. vm_compute. reflexivity. Qed.
Lemma solver_nan a b u : isnan u -> let k := @sgp4_kepler _ FO a b u in isnan (ko_sineo1 k) /\ isnan (ko_coseo1 k).
Proof.
  intros H. unfold sgp4_kepler. rewrite loop_unfold, start_big. cbv zeta. cbn [ko_eo1].
  assert (E : isnan (@kepler_correction _ FO a b u u)).
  { unfold kepler_correction. rewrite n_le_r; [nan K|nan K]. }
  rewrite loop_unfold. rewrite n_le_r by nan K. cbn [ko_sineo1 ko_coseo1]. split; nan K.
Qed.
(** A NaN in Kepler's equation, in the inclination or in the semi-major axis reaches every component. *)
Lemma tail_nan (s : Satrec b64) m am nm s' r : isnan (mn_mp m) \/ isnan (sr_inclo s) -> @sgp4_tail _ FO s m am nm = (s', Ok r) ->
  isnan (v_x (g4_position r)) /\ isnan (v_y (g4_position r)) /\ isnan (v_z (g4_position r)) /\
  isnan (v_x (g4_velocity r)) /\ isnan (v_y (g4_velocity r)) /\ isnan (v_z (g4_velocity r)).
Proof.
  intros H. unfold sgp4_tail. destruct (sgp4_bad_ep s m); [discriminate|]. cbv zeta.
  set (xincp := @sgp4_xincp _ FO s m). set (s1 := @sgp4_long _ FO s xincp). set (ki := @sgp4_kepler_in _ FO s1 m am). set (k := @sgp4_kepler _ FO (ki_axnl ki) (ki_aynl ki) (ki_u ki)).
  set (h := @sgp4_short _ FO k (ki_axnl ki) (ki_aynl ki) am). destruct (flt (sh_pl h) (L 0 0)); [discriminate|].
  set (q := @sgp4_shortq _ FO h k (ki_axnl ki) (ki_aynl ki) am). set (s2 := @sgp4_incl_consts _ FO s1 xincp).
  set (o := @sgp4_osc _ FO s2 q (mn_nodep m) xincp (@sgp4_sinip _ FO s xincp) (@sgp4_cosip _ FO s xincp) nm). destruct (flt (os_mrt o) (L 1 0)); [discriminate|].
  intros E. assert (r = @sgp4_posvel _ FO o) as -> by congruence. clear E.
  assert (G : (isnan (os_mrt o) /\ isnan (os_mvt o) /\ isnan (os_rvdot o)) \/ isnan (os_xinc o)).
  { destruct H as [H|H]; [left|right].
    - apply (kepler_nan s1 m am) in H. fold ki in H. apply (solver_nan (ki_axnl ki) (ki_aynl ki)) in H. fold k in H. destruct H as [Hs Hc].
      assert (isnan (sh_ecose h)) by (unfold h, sgp4_short; cbn [sh_ecose]; nan K). assert (isnan (sh_esine h)) by (unfold h, sgp4_short; cbn [sh_esine]; nan K).
      assert (isnan (q_rl q)) by (unfold q, sgp4_shortq; cbn [q_rl]; nan K). assert (isnan (q_rdotl q)) by (unfold q, sgp4_shortq; cbn [q_rdotl]; nan K).
      assert (isnan (q_rvdotl q)) by (unfold q, sgp4_shortq; cbn [q_rvdotl]; nan K).
      unfold o, sgp4_osc; cbn [os_mrt os_mvt os_rvdot]. split; [nan K|]. split; nan K.
    - assert (isnan xincp). { unfold xincp, sgp4_xincp. destruct (method_eqb (sr_method s) MethodD); [|exact H].
        assert (isnan (pr_inclp (@sgp4_dpper _ FO s m))).
        { unfold sgp4_dpper, dpper. cbn [po_init init_eqb po_inclp po_opsmode po_ep po_nodep po_argpp po_mp]. cbv zeta.
          destruct (fle _ _); cbn [dpper_direct dpper_lyddane pr_inclp]; nan K. }
        cbv zeta. rewrite n_lt_l; assumption. }
      unfold o, sgp4_osc; cbn [os_xinc]. nan K. }
  clearbody o. unfold sgp4_posvel. cbn [g4_position g4_velocity v_x v_y v_z].
  destruct G as [(A & B & C)|A]; (split; [nan K|]; split; [nan K|]; split; [nan K|]; split; [nan K|]; split; nan K).
Qed.

(** Whatever the record: a NaN time, mean motion or angle gives no number. *)
Lemma sgp4_nan fuel (s : Satrec b64) t s' r :
  isnan t \/ isnan (sr_no s) \/ isnan (sr_inclo s) \/ isnan (sr_nodeo s) \/ isnan (sr_argpo s) \/ isnan (sr_mo s) ->
  @sgp4 _ FO fuel s t = Done (s', Ok r) ->
  isnan (v_x (g4_position r)) /\ isnan (v_y (g4_position r)) /\ isnan (v_z (g4_position r)) /\
  isnan (v_x (g4_velocity r)) /\ isnan (v_y (g4_velocity r)) /\ isnan (v_z (g4_velocity r)).
Proof.
  intros H. unfold sgp4. cbv zeta. set (s1 := set_error 0 (set_t t s)).
  assert (G : isnan (sr_inclo s1) \/ isnan (sr_no s1) \/ isnan (sr_t s1) \/ isnan (sr_mo s1) \/ isnan (sr_argpo s1) \/ isnan (sr_nodeo s1)).
  { destruct s. unfold s1. cbn. tauto. }
  clearbody s1. destruct (@sgp4_em _ FO fuel s1 (sgp4_secular s1)) as [em| |]; cbn [bindO]; [|discriminate|discriminate].
  destruct (fle _ _); [discriminate|]. destruct (_ || _); [discriminate|].
  intros E. assert (T : @sgp4_tail _ FO s1 (@sgp4_mean _ FO s1 (@sgp4_secular _ FO s1) (@fsub _ FO em (se_tempe (@sgp4_secular _ FO s1)))) (@sgp4_am _ FO s1 (@sgp4_secular _ FO s1)) (@sgp4_nm _ FO (@sgp4_am _ FO s1 (@sgp4_secular _ FO s1))) = (s', Ok r)) by congruence.
  apply tail_nan in T; [exact T|]. destruct G as [G|[G|G]]; [now right|left; apply mean_nan; now left|left; apply mean_nan; right; now apply secular_nan].
Qed.

(** A near-earth record whose mean motion and drag coefficient are NaN passes every check. *)
Definition poisoned (s : Satrec b64) : Prop := sr_method s = MethodN /\ isnan (sr_no s) /\ isnan (sr_cc4 s).
Lemma poisoned_ok fuel (s : Satrec b64) t : poisoned s -> exists r, @sgp4 _ FO fuel s t = Done (set_error 0 (set_t t s), Ok r).
Proof.
  intros (M & N & C). unfold sgp4. cbv zeta. set (s1 := set_error 0 (set_t t s)).
  assert (M1 : sr_method s1 = MethodN) by (destruct s; exact M). assert (N1 : isnan (sr_no s1)) by (destruct s; exact N). assert (C1 : isnan (sr_cc4 s1)) by (destruct s; exact C).
  clearbody s1. unfold sgp4_em. rewrite M1. cbn [method_eqb bindO]. rewrite n_le_l by exact N1.
  set (c := @sgp4_secular _ FO s1).
  assert (Te : isnan (se_tempe c)). { unfold c, sgp4_secular. destruct (negb (sr_isimp s1 =? 1)); cbn [se_tempe]; nan K. }
  clearbody c. set (em := @fsub _ FO (sr_ecco s1) (se_tempe c)). assert (Ne : isnan em) by (unfold em; nan K). clearbody em.
  rewrite n_le_r, n_lt_l by exact Ne. cbn [orb]. unfold sgp4_tail, sgp4_bad_ep, sgp4_long, sgp4_incl_consts, sgp4_sinip, sgp4_cosip, sgp4_xincp. rewrite M1. cbn [method_eqb andb]. cbv zeta.
  set (m := @sgp4_mean _ FO s1 c em). assert (Nm : isnan (mn_mp m)) by (apply mean_nan; now left).
  assert (Np : isnan (mn_ep m)). { unfold m, sgp4_mean. cbn [mn_ep]. now rewrite n_lt_l. }
  clearbody m. set (am := @sgp4_am _ FO s1 c). clearbody am. set (ki := @sgp4_kepler_in _ FO s1 m am).
  assert (Na : isnan (ki_axnl ki)) by (unfold ki, sgp4_kepler_in; cbn [ki_axnl]; nan K). assert (Nu : isnan (ki_u ki)) by now apply kepler_nan.
  clearbody ki. apply (solver_nan (ki_axnl ki) (ki_aynl ki)) in Nu. set (k := @sgp4_kepler _ FO (ki_axnl ki) (ki_aynl ki) (ki_u ki)) in *. cbv zeta in Nu. destruct Nu as [Ns Nc]. clearbody k.
  set (h := @sgp4_short _ FO k (ki_axnl ki) (ki_aynl ki) am).
  assert (Pl : isnan (sh_pl h)) by (unfold h, sgp4_short; cbn [sh_pl]; nan K). assert (Pe : isnan (sh_ecose h)) by (unfold h, sgp4_short; cbn [sh_ecose]; nan K). clearbody h.
  rewrite n_lt_l by exact Pl. set (q := @sgp4_shortq _ FO h k (ki_axnl ki) (ki_aynl ki) am).
  assert (Rl : isnan (q_rl q)) by (unfold q, sgp4_shortq; cbn [q_rl]; nan K). clearbody q.
  match goal with |- context [os_mrt ?o] => assert (Om : isnan (os_mrt o)) by (unfold sgp4_osc; cbn [os_mrt]; nan K) end.
  rewrite n_lt_l by exact Om. eexists. f_equal. f_equal. unfold set_error. rewrite ?M1. reflexivity.
Qed.

Lemma near_cc4 r (s : Satrec b64) : exists a b c d,
  sr_cc4 (ne_s (@sgp4init_near _ FO r s)) = @fmul _ FO (@fmul _ FO (@fmul _ FO (@fmul _ FO (@fmul _ FO (@L _ FO 2 0) (sr_no s)) a) b) c) d.
Proof. do 4 eexists. unfold sgp4init_near. cbv zeta. lazy beta iota delta [ne_s sr_cc4 set_isimp set_eta set_cc1 set_x1mth2 set_cc4 set_cc5 set_mdot set_argpdot set_nodedot set_omgcof set_xmcof set_nodecf set_t2cof set_xlcof set_aycof set_delmo set_sinmao set_x7thm1]. reflexivity. Qed.
(** Initialisation with a NaN mean motion or inclination and an eccentricity up to 1. *)
Lemma init_poisoned o (s : Satrec b64) : isnan (in_xno o) \/ isnan (in_xinclo o) ->
  @fle _ FO (@L _ FO 0 0) (@fsub _ FO (@L _ FO 1 0) (@fmul _ FO (in_xecco o) (in_xecco o))) = true ->
  poisoned (@sgp4init_elements _ FO o s).
Proof.
  intros H E. unfold sgp4init_elements. cbv zeta. set (s0 := @sgp4init_reset _ FO o s). set (r := @sgp4init_initl _ FO o s0).
  assert (I : sr_ecco s0 = in_xecco o /\ sr_inclo s0 = in_xinclo o /\ sr_no s0 = in_xno o /\ sr_method s0 = MethodN) by (destruct s; repeat split; reflexivity).
  destruct I as (Ie & Ii & In & Im).
  assert (Nr : isnan (ir_no r)).
  { unfold r, sgp4init_initl, initl. cbn [ir_no il_ecco il_inclo il_no]. rewrite Ie, Ii, In. destruct H as [H|H]; nan K. }
  assert (Or : ir_omeosq r = @fsub _ FO (@L _ FO 1 0) (@fmul _ FO (in_xecco o) (in_xecco o))).
  { unfold r, sgp4init_initl, initl. cbn [ir_omeosq il_ecco]. now rewrite Ie. }
  rewrite Or, E. cbn [orb]. clearbody r. clear Or E.
  set (s1 := @sgp4init_after_initl _ r s0). assert (Mn : sr_method s1 = MethodN /\ isnan (sr_no s1)) by (destruct s0; cbn in Im; split; [exact Im|exact Nr]).
  clearbody s1. destruct Mn as [Mm Nn].
  assert (P : poisoned (ne_s (@sgp4init_near _ FO r s1))).
  { pose proof (@near_kind _ FO r s1) as Kd. split; [rewrite <- Mm; exact (f_equal kd_method Kd)|]. split; [unfold isnan; rewrite <- Nn; exact (f_equal kd_no Kd)|].
    destruct (near_cc4 r s1) as (a & b & c & d & ->). nan K. }
  set (n := @sgp4init_near _ FO r s1) in *. clearbody n. destruct P as (P1 & P2 & P3).
  assert (D : @sgp4init_deep _ FO (in_epoch o) (ir_eccsq r) (ne_xpidot n) (ne_s n) = ne_s n).
  { unfold sgp4init_deep. rewrite n_le_r by nan K. reflexivity. }
  rewrite D. unfold sgp4init_drag. destruct (negb (sr_isimp (ne_s n) =? 1)); [|exact (conj P1 (conj P2 P3))].
  cbv zeta. destruct (ne_s n). exact (conj P1 (conj P2 P3)).
Qed.
Lemma init_poisoned_ok fuel o (s : Satrec b64) : isnan (in_xno o) \/ isnan (in_xinclo o) ->
  @fle _ FO (@L _ FO 0 0) (@fsub _ FO (@L _ FO 1 0) (@fmul _ FO (in_xecco o) (in_xecco o))) = true ->
  exists s' r, @sgp4init _ FO fuel s o = Done (s', Ok r) /\ poisoned s'.
Proof.
  intros H E. pose proof (init_poisoned o s H E) as P. unfold sgp4init. cbv zeta. set (s1 := @sgp4init_elements _ FO o s) in *. clearbody s1.
  destruct (poisoned_ok fuel s1 (@L _ FO 0 0) P) as [r ->]. cbn [bindO]. eexists. exists r. split; [reflexivity|]. destruct s1. exact P.
Qed.
End T.
