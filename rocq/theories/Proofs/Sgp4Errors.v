(** * The error cascade of [sgp4] *)
From Coq Require Import ZArith List Bool.
From Verif.Model Require Import Float Str Satrec Constants Vec3 Dpper Dspace Sgp4.
From Verif.Spec Require Import Sgp4Spec.
Import ListNotations.
Local Open Scope Z_scope.

Section S.
Context {F : Type} {FO : FloatOps F}.
Implicit Types s : Satrec F.
Implicit Types t : F.

Definition st t s := set_error 0 (set_t t s).

Lemma full_st t s : full_drag (st t s) = full_drag s.
Proof. reflexivity. Qed.

Lemma secular_spec t s : sgp4_secular (st t s) =
  MkSecular (argp_at s t) (M_at s t) (node_at s t) (tempa_at s t) (drag_ecc s t) (templ_at s t).
Proof.
  unfold sgp4_secular, argp_at, drag_ecc, M_at, tempa_at, templ_at.
  change (negb (sr_isimp (st t s) =? 1)) with (full_drag s).
  destruct (full_drag s); reflexivity.
Qed.

Lemma dspace_em fuel (o : DspaceOptions F) r : dspace fuel o = Done r ->
  sx_em r = fadd (so_em o) (fmul (so_dedt o) (so_t o)).
Proof.
  unfold dspace. cbv zeta. destruct (negb _).
  - destruct (dspace_loop _ _ _ _); cbn [bindO]; try discriminate. intros H; injection H as <-; reflexivity.
  - intros H; injection H as <-; reflexivity.
Qed.

Lemma em_spec fuel t s c e : sgp4_em fuel (st t s) c = Done e ->
  e = if deep s then fadd (sr_ecco s) (fmul (sr_dedt s) t) else sr_ecco s.
Proof.
  unfold sgp4_em. cbv zeta. change (method_eqb (sr_method (st t s)) MethodD) with (deep s).
  destruct (deep s).
  - destruct (dspace _ _) eqn:E; cbn [bindO]; try discriminate. intros H; injection H as <-.
    apply dspace_em in E. exact E.
  - intros H; injection H as <-; reflexivity.
Qed.

Lemma am_spec t s : sgp4_am (st t s) (sgp4_secular (st t s)) = a_at s t.
Proof. rewrite secular_spec. reflexivity. Qed.

Lemma mean_spec t s : sgp4_mean (st t s) (sgp4_secular (st t s)) (ecc_at s t) =
  MkMean (ecc_used s t) (argp_red s t) (node_red s t) (M_red s t).
Proof. rewrite secular_spec. reflexivity. Qed.

Definition mn s t : Mean := MkMean (ecc_used s t) (argp_red s t) (node_red s t) (M_red s t).

Lemma mean_def t s : sgp4_mean (st t s) (sgp4_secular (st t s)) (ecc_at s t) = mn s t.
Proof. exact (mean_spec t s). Qed.

Lemma dpper_spec t s : sgp4_dpper (st t s) (mn s t) = periodics s t.
Proof. reflexivity. Qed.

Lemma bad_ep_spec t s : sgp4_bad_ep (st t s) (mn s t) = bad_perturbed_ecc s t.
Proof. unfold sgp4_bad_ep. rewrite dpper_spec. reflexivity. Qed.

Lemma xincp_spec t s : sgp4_xincp (st t s) (mn s t) = incl_at s t.
Proof. unfold sgp4_xincp. rewrite dpper_spec. reflexivity. Qed.

Lemma long_aycof t s : sr_aycof (sgp4_long (st t s) (incl_at s t)) = aycof_at s t.
Proof.
  unfold sgp4_long, aycof_at. cbv zeta. change (method_eqb (sr_method (st t s)) MethodD) with (deep s).
  destruct (deep s); [|reflexivity].
  match goal with |- context [if flt ?u ?v then _ else _] => destruct (flt u v) end; reflexivity.
Qed.
Lemma long_xlcof t s : sr_xlcof (sgp4_long (st t s) (incl_at s t)) = xlcof_at s t.
Proof.
  unfold sgp4_long, xlcof_at. cbv zeta. change (method_eqb (sr_method (st t s)) MethodD) with (deep s).
  destruct (deep s); [|reflexivity].
  match goal with |- context [if flt ?u ?v then _ else _] => destruct (flt u v) end; reflexivity.
Qed.
Lemma kepler_in_spec t s : sgp4_kepler_in (sgp4_long (st t s) (incl_at s t)) (mn s t) (a_at s t) =
  MkKeplerIn (axn s t) (ayn s t) (u_at s t).
Proof. unfold sgp4_kepler_in. cbv zeta. rewrite long_aycof, long_xlcof. reflexivity. Qed.

Lemma long_method t s x : sr_method (sgp4_long (st t s) x) = sr_method s.
Proof.
  unfold sgp4_long. cbv zeta. destruct (method_eqb _ _); [|reflexivity].
  match goal with |- context [if flt ?u ?v then _ else _] => destruct (flt u v) end; reflexivity.
Qed.
Lemma long_con41 t s x : sr_con41 (sgp4_long (st t s) x) = sr_con41 s.
Proof.
  unfold sgp4_long. cbv zeta. destruct (method_eqb _ _); [|reflexivity].
  match goal with |- context [if flt ?u ?v then _ else _] => destruct (flt u v) end; reflexivity.
Qed.
Lemma long_x1mth2 t s x : sr_x1mth2 (sgp4_long (st t s) x) = sr_x1mth2 s.
Proof.
  unfold sgp4_long. cbv zeta. destruct (method_eqb _ _); [|reflexivity].
  match goal with |- context [if flt ?u ?v then _ else _] => destruct (flt u v) end; reflexivity.
Qed.
Lemma incl_con41 t s : sr_con41 (sgp4_incl_consts (sgp4_long (st t s) (incl_at s t)) (incl_at s t)) = con41_at s t.
Proof.
  unfold sgp4_incl_consts, con41_at. rewrite long_method. fold (deep s). destruct (deep s); [reflexivity|].
  apply long_con41.
Qed.
Lemma incl_x1mth2 t s : sr_x1mth2 (sgp4_incl_consts (sgp4_long (st t s) (incl_at s t)) (incl_at s t)) = x1mth2_at s t.
Proof.
  unfold sgp4_incl_consts, x1mth2_at. rewrite long_method. fold (deep s). destruct (deep s); [reflexivity|].
  apply long_x1mth2.
Qed.

Lemma osc_radius t s n a b c :
  os_mrt (sgp4_osc (sgp4_incl_consts (sgp4_long (st t s) (incl_at s t)) (incl_at s t))
    (sgp4_shortq (sgp4_short (kepler s t) (axn s t) (ayn s t) (a_at s t)) (kepler s t) (axn s t) (ayn s t) (a_at s t))
    n (incl_at s t) a b c) = radius s t.
Proof. unfold sgp4_osc. cbv zeta. cbn [os_mrt]. rewrite incl_con41, incl_x1mth2. reflexivity. Qed.

Lemma kepler_def t s : sgp4_kepler (axn s t) (ayn s t) (u_at s t) = kepler s t.
Proof. reflexivity. Qed.
Lemma pl_def t s k : sh_pl (sgp4_short k (axn s t) (ayn s t) (a_at s t)) = semi_latus s t.
Proof. reflexivity. Qed.
Lemma latus_def t s : flt (semi_latus s t) (L 0 0) = bad_latus s t.
Proof. reflexivity. Qed.
Lemma decayed_def t s : flt (radius s t) (L 1 0) = decayed s t.
Proof. reflexivity. Qed.
Lemma bad_ecc_def t s : (fle (L 1 0) (ecc_at s t) || flt (ecc_at s t) (fneg (L 1 3)))%bool = bad_ecc s t.
Proof. reflexivity. Qed.
Lemma bad_motion_def t s : fle (sr_no (st t s)) (L 0 0) = bad_motion s.
Proof. reflexivity. Qed.

Lemma tail_spec t s am nm : am = a_at s t ->
  match first_error s t with
  | Some Nm | Some Eccentricty => True
  | Some e => snd (sgp4_tail (st t s) (mn s t) am nm) = Err e
  | None => bad_motion s = false /\ bad_ecc s t = false -> exists v, snd (sgp4_tail (st t s) (mn s t) am nm) = Ok v
  end.
Proof.
  intros ->. unfold first_error. destruct (bad_motion s); [exact I|]. destruct (bad_ecc s t); [exact I|].
  unfold sgp4_tail. cbv zeta. rewrite bad_ep_spec, xincp_spec, kepler_in_spec. cbn [ki_axnl ki_aynl ki_u].
  rewrite kepler_def, pl_def, latus_def, osc_radius, decayed_def.
  destruct (bad_perturbed_ecc s t); [reflexivity|].
  destruct (bad_latus s t); [reflexivity|].
  destruct (decayed s t); [reflexivity|].
  intros _. eexists. reflexivity.
Qed.

Lemma sgp4_errors fuel s t s' r : sgp4 fuel s t = Done (s', r) ->
  match first_error s t with
  | Some e => r = Err e
  | None => exists v, r = Ok v
  end.
Proof.
  unfold sgp4. fold (st t s). cbv zeta. rewrite am_spec.
  destruct (sgp4_em fuel (st t s) (sgp4_secular (st t s))) as [em| |] eqn:E; cbn [bindO]; try discriminate.
  apply em_spec in E.
  assert (E2 : fsub em (se_tempe (sgp4_secular (st t s))) = ecc_at s t).
  { rewrite E, secular_spec. reflexivity. }
  rewrite E2, mean_def.
  rewrite bad_motion_def, bad_ecc_def.
  pose proof (tail_spec t s (a_at s t) (sgp4_nm (a_at s t)) eq_refl) as T.
  revert T. unfold first_error.
  destruct (bad_motion s). { intros _ H; injection H as <- <-; reflexivity. }
  destruct (bad_ecc s t). { intros _ H; injection H as <- <-; reflexivity. }
  intros T H. injection H as H.
  assert (Hr : r = snd (sgp4_tail (st t s) (mn s t) (a_at s t) (sgp4_nm (a_at s t)))) by now rewrite H.
  rewrite Hr.
  destruct (bad_perturbed_ecc s t); [exact T|]. destruct (bad_latus s t); [exact T|].
  destruct (decayed s t); [exact T|]. exact (T (conj eq_refl eq_refl)).
Qed.
End S.
