(** * Which deep-space coefficients a propagation result depends on (any arithmetic) *)
From Coq Require Import ZArith List Bool.
From Verif.Model Require Import Float Str Satrec Constants Vec3 Dpper Dspace Sgp4.
From Verif.Spec Require Import DeepSpec Sgp4Spec.
From Verif.Proofs Require Import Sgp4Errors.

Section S.
Context {F : Type} {FO : FloatOps F}.
Implicit Types s : Satrec F.
Implicit Types m : Mean (F:=F).

Lemma pr_inclp_N s o : po_init o = InitN ->
  pr_inclp (dpper s o) = fadd (po_inclp o) (fsub (pt_pinc (dpper_terms s InitN)) (sr_pinco s)).
Proof. intros H. unfold dpper. rewrite H. cbn [init_eqb]. destruct (fle _ _); reflexivity. Qed.
Lemma pr_ep_N s o : po_init o = InitN ->
  pr_ep (dpper s o) = fadd (po_ep o) (fsub (pt_pe (dpper_terms s InitN)) (sr_peo s)).
Proof. intros H. unfold dpper. rewrite H. cbn [init_eqb]. destruct (fle _ _); reflexivity. Qed.

(** The result of the part after the eccentricity guard, once its own guard and the inclination are known. *)
Definition tail_of s m am nm (xi : F) : result (SGP4Result F) SGP4Error :=
  let s1 := sgp4_long s xi in
  let ki := sgp4_kepler_in s1 m am in
  let k := sgp4_kepler (ki_axnl ki) (ki_aynl ki) (ki_u ki) in
  let h := sgp4_short k (ki_axnl ki) (ki_aynl ki) am in
  if flt (sh_pl h) (L 0 0) then Err Pl else
  let q := sgp4_shortq h k (ki_axnl ki) (ki_aynl ki) am in
  let o := sgp4_osc (sgp4_incl_consts s1 xi) q (mn_nodep m) xi (sgp4_sinip s xi) (sgp4_cosip s xi) nm in
  if flt (os_mrt o) (L 1 0) then Err DecayCondition else Ok (sgp4_posvel o).
Lemma tail_split s m am nm :
  snd (sgp4_tail s m am nm) = if sgp4_bad_ep s m then Err Ep else tail_of s m am nm (sgp4_xincp s m).
Proof.
  unfold sgp4_tail, tail_of. destruct (sgp4_bad_ep s m); [reflexivity|]. cbv zeta.
  destruct (flt _ (L 0 0)); [reflexivity|]. destruct (flt _ (L 1 0)); reflexivity.
Qed.

(** The whole propagation. *)
Definition result_of s t (em : F) : result (SGP4Result F) SGP4Error :=
  let s := set_error 0 (set_t t s) in
  let c := sgp4_secular s in
  if fle (sr_no s) (L 0 0) then Err Nm else
  let em := fsub em (se_tempe c) in
  if fle (L 1 0) em || flt em (fneg (L 1 3)) then Err Eccentricty else
  let m := sgp4_mean s c em in
  snd (sgp4_tail s m (sgp4_am s c) (sgp4_nm (sgp4_am s c))).
Definition em_of s t : F := if deep s then fadd (sr_ecco s) (fmul (sr_dedt s) t) else sr_ecco s.
Lemma sgp4_result fuel s t s' r : sgp4 fuel s t = Done (s', r) -> r = result_of s t (em_of s t).
Proof.
  unfold sgp4, result_of. set (s1 := set_error 0 (set_t t s)).
  destruct (sgp4_em fuel s1 (sgp4_secular s1)) as [em| |] eqn:E; cbn [bindO]; try discriminate.
  apply em_spec in E. fold (em_of s t) in E. subst em. cbv zeta. clearbody s1.
  destruct (fle (sr_no s1) (L 0 0)); [intros H; injection H as _ <-; reflexivity|].
  destruct (_ || _); [intros H; injection H as _ <-; reflexivity|].
  destruct (sgp4_tail _ _ _ _). intros H; injection H as _ <-; reflexivity.
Qed.

Lemma sgp4_split fuel s t : returned (sgp4 fuel s t) =
  let s1 := set_error 0 (set_t t s) in
  do! em <- sgp4_em fuel s1 (sgp4_secular s1); Done (result_of s t em).
Proof.
  unfold sgp4, result_of. set (s1 := set_error 0 (set_t t s)). clearbody s1. cbv zeta.
  destruct (sgp4_em fuel s1 (sgp4_secular s1)) as [em| |]; cbn [bindO returned]; [|reflexivity|reflexivity].
  destruct (fle (sr_no s1) (L 0 0)); [reflexivity|].
  destruct (_ || _); [reflexivity|].
  destruct (sgp4_tail _ _ _ _). reflexivity.
Qed.

(** ** Overwriting the resonance data *)
Lemma rs_long w s xi : sgp4_long (rs_overwrite w s) xi = rs_overwrite w (sgp4_long s xi).
Proof.
  unfold sgp4_long. change (sr_method (rs_overwrite w s)) with (sr_method s).
  destruct (method_eqb _ _); [|reflexivity]. destruct (flt _ _); reflexivity.
Qed.
Lemma rs_incl w s xi : sgp4_incl_consts (rs_overwrite w s) xi = rs_overwrite w (sgp4_incl_consts s xi).
Proof.
  unfold sgp4_incl_consts. change (sr_method (rs_overwrite w s)) with (sr_method s).
  destruct (method_eqb _ _); reflexivity.
Qed.
Lemma rs_kepler_in w s m am : sgp4_kepler_in (rs_overwrite w s) m am = sgp4_kepler_in s m am.
Proof. reflexivity. Qed.
Lemma rs_osc w s q n xi si ci nm : sgp4_osc (rs_overwrite w s) q n xi si ci nm = sgp4_osc s q n xi si ci nm.
Proof. reflexivity. Qed.
Lemma rs_dpper w s m : sgp4_dpper (rs_overwrite w s) m = sgp4_dpper s m.
Proof. reflexivity. Qed.
Lemma rs_tail w s m am nm : snd (sgp4_tail (rs_overwrite w s) m am nm) = snd (sgp4_tail s m am nm).
Proof.
  rewrite !tail_split. unfold sgp4_bad_ep, sgp4_xincp. rewrite rs_dpper.
  change (sr_method (rs_overwrite w s)) with (sr_method s). change (sr_inclo (rs_overwrite w s)) with (sr_inclo s).
  set (b := method_eqb _ _ && _). set (xi := if method_eqb _ _ then _ else _). clearbody b xi.
  destruct b; [reflexivity|]. unfold tail_of. rewrite rs_long, rs_kepler_in, rs_incl. cbv zeta. rewrite rs_osc. reflexivity.
Qed.
Lemma rs_result w s t em : result_of (rs_overwrite w s) t em = result_of s t em.
Proof.
  unfold result_of.
  change (set_error 0 (set_t t (rs_overwrite w s))) with (rs_overwrite w (set_error 0 (set_t t s))).
  set (s1 := set_error 0 (set_t t s)). clearbody s1. cbv zeta.
  change (sgp4_secular (rs_overwrite w s1)) with (sgp4_secular s1).
  change (sr_no (rs_overwrite w s1)) with (sr_no s1).
  set (c := sgp4_secular s1). clearbody c.
  change (sgp4_am (rs_overwrite w s1) c) with (sgp4_am s1 c).
  change (sgp4_mean (rs_overwrite w s1) c (fsub em (se_tempe c))) with (sgp4_mean s1 c (fsub em (se_tempe c))).
  now rewrite rs_tail.
Qed.

(** ** Overwriting the periodics of the angles *)
Lemma ln_long w s xi : sgp4_long (ln_overwrite w s) xi = ln_overwrite w (sgp4_long s xi).
Proof.
  unfold sgp4_long. change (sr_method (ln_overwrite w s)) with (sr_method s).
  destruct (method_eqb _ _); [|reflexivity]. destruct (flt _ _); reflexivity.
Qed.
Lemma ln_incl w s xi : sgp4_incl_consts (ln_overwrite w s) xi = ln_overwrite w (sgp4_incl_consts s xi).
Proof.
  unfold sgp4_incl_consts. change (sr_method (ln_overwrite w s)) with (sr_method s).
  destruct (method_eqb _ _); reflexivity.
Qed.
Lemma ln_kepler_in w s m am : sgp4_kepler_in (ln_overwrite w s) m am = sgp4_kepler_in s m am.
Proof. reflexivity. Qed.
Lemma ln_osc w s q n xi si ci nm : sgp4_osc (ln_overwrite w s) q n xi si ci nm = sgp4_osc s q n xi si ci nm.
Proof. reflexivity. Qed.
Lemma ln_terms w s : pt_pe (dpper_terms (ln_overwrite w s) InitN) = pt_pe (dpper_terms s InitN) /\
  pt_pinc (dpper_terms (ln_overwrite w s) InitN) = pt_pinc (dpper_terms s InitN).
Proof. split; reflexivity. Qed.
Lemma ln_dpper w s m : pr_inclp (sgp4_dpper (ln_overwrite w s) m) = pr_inclp (sgp4_dpper s m) /\
  pr_ep (sgp4_dpper (ln_overwrite w s) m) = pr_ep (sgp4_dpper s m).
Proof.
  unfold sgp4_dpper. destruct (ln_terms w s) as [A B].
  rewrite !pr_inclp_N, !pr_ep_N by reflexivity. cbn [po_inclp po_ep]. rewrite A, B. split; reflexivity.
Qed.
Lemma ln_tail w s m am nm : snd (sgp4_tail (ln_overwrite w s) m am nm) = snd (sgp4_tail s m am nm).
Proof.
  rewrite !tail_split. unfold sgp4_bad_ep, sgp4_xincp. destruct (ln_dpper w s m) as [A B]. rewrite A, B.
  change (sr_method (ln_overwrite w s)) with (sr_method s). change (sr_inclo (ln_overwrite w s)) with (sr_inclo s).
  set (b := method_eqb _ _ && _). set (xi := if method_eqb _ _ then _ else _). clearbody b xi.
  destruct b; [reflexivity|]. unfold tail_of. rewrite ln_long, ln_kepler_in, ln_incl. cbv zeta. rewrite ln_osc. reflexivity.
Qed.
Lemma ln_result w s t em : result_of (ln_overwrite w s) t em = result_of s t em.
Proof.
  unfold result_of.
  change (set_error 0 (set_t t (ln_overwrite w s))) with (ln_overwrite w (set_error 0 (set_t t s))).
  set (s1 := set_error 0 (set_t t s)). clearbody s1. cbv zeta.
  change (sgp4_secular (ln_overwrite w s1)) with (sgp4_secular s1).
  change (sr_no (ln_overwrite w s1)) with (sr_no s1).
  set (c := sgp4_secular s1). clearbody c.
  change (sgp4_am (ln_overwrite w s1) c) with (sgp4_am s1 c).
  change (sgp4_mean (ln_overwrite w s1) c (fsub em (se_tempe c))) with (sgp4_mean s1 c (fsub em (se_tempe c))).
  now rewrite ln_tail.
Qed.

Lemma ln_start w s t : set_error 0 (set_t t (ln_overwrite w s)) = ln_overwrite w (set_error 0 (set_t t s)).
Proof. reflexivity. Qed.
Lemma ln_em fuel w s : sgp4_em fuel (ln_overwrite w s) (sgp4_secular (ln_overwrite w s)) = sgp4_em fuel s (sgp4_secular s).
Proof. reflexivity. Qed.
Lemma ln_sgp4 fuel w s t : returned (sgp4 fuel (ln_overwrite w s) t) = returned (sgp4 fuel s t).
Proof.
  rewrite !sgp4_split. cbv zeta. rewrite ln_start, ln_em. set (s1 := set_error 0 (set_t t s)). clearbody s1.
  destruct (sgp4_em fuel s1 (sgp4_secular s1)); cbn [bindO]; [|reflexivity|reflexivity]. now rewrite ln_result.
Qed.

(** ** Overwriting the periodics of the eccentricity: only the range check sees them *)
Lemma ec_long w s xi : sgp4_long (ec_overwrite w s) xi = ec_overwrite w (sgp4_long s xi).
Proof.
  unfold sgp4_long. change (sr_method (ec_overwrite w s)) with (sr_method s).
  destruct (method_eqb _ _); [|reflexivity]. destruct (flt _ _); reflexivity.
Qed.
Lemma ec_incl w s xi : sgp4_incl_consts (ec_overwrite w s) xi = ec_overwrite w (sgp4_incl_consts s xi).
Proof.
  unfold sgp4_incl_consts. change (sr_method (ec_overwrite w s)) with (sr_method s).
  destruct (method_eqb _ _); reflexivity.
Qed.
Lemma ec_kepler_in w s m am : sgp4_kepler_in (ec_overwrite w s) m am = sgp4_kepler_in s m am.
Proof. reflexivity. Qed.
Lemma ec_osc w s q n xi si ci nm : sgp4_osc (ec_overwrite w s) q n xi si ci nm = sgp4_osc s q n xi si ci nm.
Proof. reflexivity. Qed.
Lemma ec_dpper w s m : pr_inclp (sgp4_dpper (ec_overwrite w s) m) = pr_inclp (sgp4_dpper s m).
Proof. unfold sgp4_dpper. rewrite !pr_inclp_N by reflexivity. reflexivity. Qed.
Lemma ec_tail w s m am nm :
  let r' := snd (sgp4_tail (ec_overwrite w s) m am nm) in let r := snd (sgp4_tail s m am nm) in
  r' = r \/ r' = Err Ep \/ r = Err Ep.
Proof.
  cbv zeta. rewrite !tail_split. destruct (sgp4_bad_ep (ec_overwrite w s) m); [tauto|].
  destruct (sgp4_bad_ep s m); [tauto|]. left.
  unfold sgp4_xincp. rewrite ec_dpper.
  change (sr_method (ec_overwrite w s)) with (sr_method s). change (sr_inclo (ec_overwrite w s)) with (sr_inclo s).
  set (xi := if method_eqb _ _ then _ else _). clearbody xi.
  unfold tail_of. rewrite ec_long, ec_kepler_in, ec_incl. cbv zeta. rewrite ec_osc. reflexivity.
Qed.
Lemma ec_result w s t em : let r' := result_of (ec_overwrite w s) t em in let r := result_of s t em in
  r' = r \/ r' = Err Ep \/ r = Err Ep.
Proof.
  cbv zeta. unfold result_of.
  change (set_error 0 (set_t t (ec_overwrite w s))) with (ec_overwrite w (set_error 0 (set_t t s))).
  set (s1 := set_error 0 (set_t t s)). clearbody s1. cbv zeta.
  change (sgp4_secular (ec_overwrite w s1)) with (sgp4_secular s1).
  change (sr_no (ec_overwrite w s1)) with (sr_no s1).
  set (c := sgp4_secular s1). clearbody c.
  change (sgp4_am (ec_overwrite w s1) c) with (sgp4_am s1 c).
  change (sgp4_mean (ec_overwrite w s1) c (fsub em (se_tempe c))) with (sgp4_mean s1 c (fsub em (se_tempe c))).
  destruct (fle _ _); [now left|]. destruct (_ || _); [now left|]. apply ec_tail.
Qed.
Lemma rs_em_of w s t : em_of (rs_overwrite w s) t = em_of s t.
Proof. reflexivity. Qed.
Lemma ec_em_of w s t : em_of (ec_overwrite w s) t = em_of s t.
Proof. reflexivity. Qed.
End S.
