(** * Element fields after [sgp4init] (any arithmetic) *)
From Coq Require Import ZArith List Bool.
From Verif.Model Require Import Float Str Satrec Constants Vec3 Initl Dscom Dpper Dsinit Dspace Sgp4 Sgp4init.
From Verif.Proofs Require Import Sgp4Frame InitFrame InitKind.
Import ListNotations.
Local Open Scope Z_scope.

Section S.
Context {F : Type} {FO : FloatOps F}.
Implicit Types s u : Satrec F.

Record elems := MkElems { el_bstar : F; el_ecco : F; el_argpo : F; el_inclo : F; el_mo : F; el_no : F; el_nodeo : F;
  el_mode : DpperOpsMode; el_init : DpperInit; el_gsto : F }.
Definition elems_of s : elems := MkElems (sr_bstar s) (sr_ecco s) (sr_argpo s) (sr_inclo s) (sr_mo s) (sr_no s) (sr_nodeo s)
  (sr_operationmode s) (sr_init s) (sr_gsto s).

Lemma start_elems r o s0 : elems_of (sgp4init_after_initl r (sgp4init_reset o s0)) =
  MkElems (in_xbstar o) (in_xecco o) (in_xargpo o) (in_xinclo o) (in_xmo o) (ir_no r) (in_xnodeo o) (in_opsmode o) InitY (ir_gsto r).
Proof. reflexivity. Qed.
Lemma near_elems r s : elems_of (ne_s (sgp4init_near r s)) = elems_of s.
Proof. reflexivity. Qed.
Lemma copy_dsinit_elems r s : elems_of (sgp4init_copy_dsinit r s) = elems_of s.
Proof. reflexivity. Qed.
Lemma copy_dscom_elems d s : elems_of (sgp4init_copy_dscom d s) = elems_of s.
Proof. reflexivity. Qed.
Lemma set_elems m i s : elems_of (set_isimp i (set_method m s)) = elems_of s.
Proof. reflexivity. Qed.
Lemma init_elems s : sr_init s = el_init (elems_of s).
Proof. reflexivity. Qed.
Lemma deep_elems e c x s : sr_init s = InitY -> elems_of (sgp4init_deep e c x s) = elems_of s.
Proof.
  intros HY. unfold sgp4init_deep. destruct (fle (L 225 0) (fdiv kTWO_PI (sr_no s))); [|reflexivity].
  cbv zeta. rewrite init_dpper_id by (rewrite copy_dscom_init; exact HY).
  now rewrite copy_dsinit_elems, copy_dscom_elems, set_elems.
Qed.
Lemma drag_elems a t f s : elems_of (sgp4init_drag a t f s) = elems_of s.
Proof. unfold sgp4init_drag. destruct (negb (sr_isimp s =? 1)); reflexivity. Qed.
Lemma initl_fields o s0 : let r := sgp4init_initl o (sgp4init_reset o s0) in
  ir_gsto r = initl_gsto (in_opsmode o) (in_epoch o).
Proof. reflexivity. Qed.

(** un-Kozai'd mean motion of an option set *)
Definition brouwer_no (o : SGP4InitOptions F) : F :=
  ir_no (initl (MkInitlOptions (in_opsmode o) MethodN (in_satn o) (in_xecco o) (in_epoch o) (in_xinclo o) (in_xno o))).

Lemma initl_no o s0 : ir_no (sgp4init_initl o (sgp4init_reset o s0)) = brouwer_no o.
Proof. reflexivity. Qed.

Lemma elements_elems o s0 : elems_of (sgp4init_elements o s0) =
  MkElems (in_xbstar o) (in_xecco o) (in_xargpo o) (in_xinclo o) (in_xmo o) (brouwer_no o) (in_xnodeo o) (in_opsmode o) InitY
    (initl_gsto (in_opsmode o) (in_epoch o)).
Proof.
  unfold sgp4init_elements. cbv zeta.
  pose proof (initl_fields o s0) as G. pose proof (initl_no o s0) as N. cbv zeta in G.
  set (r := sgp4init_initl o (sgp4init_reset o s0)) in *. clearbody r.
  pose proof (start_elems r o s0) as K. rewrite G, N in K.
  set (s1 := sgp4init_after_initl r _) in *. clearbody s1.
  match goal with |- context [if ?b then _ else _] => destruct b end; [|exact K].
  rewrite drag_elems, deep_elems, near_elems; [exact K|].
  rewrite init_elems, near_elems, K. reflexivity.
Qed.

Lemma sgp4_elems fuel s t s' r : sgp4 fuel s t = Done (s', r) -> elems_of s' = elems_of s /\ sr_t s' = t.
Proof.
  intros H. apply sgp4_frame in H. destruct H as [HN HD]. destruct (sr_method s).
  - now rewrite (HN eq_refl).
  - destruct (HD eq_refl) as (a & x & c & p & q & ->). split; reflexivity.
Qed.
Lemma set_init_elems i s : elems_of (set_init i s) =
  let e := elems_of s in MkElems (el_bstar e) (el_ecco e) (el_argpo e) (el_inclo e) (el_mo e) (el_no e) (el_nodeo e)
    (el_mode e) i (el_gsto e).
Proof. reflexivity. Qed.
Lemma sgp4init_elems fuel s0 o s r : sgp4init fuel s0 o = Done (s, r) ->
  elems_of s = MkElems (in_xbstar o) (in_xecco o) (in_xargpo o) (in_xinclo o) (in_xmo o) (brouwer_no o) (in_xnodeo o)
    (in_opsmode o) (match r with Ok _ => InitN | Err _ => InitY end) (initl_gsto (in_opsmode o) (in_epoch o)) /\
  sr_t s = L 0 0.
Proof.
  intros H. apply sgp4init_inv in H. destruct H as (s1 & H & ->). apply sgp4_elems in H. destruct H as [H HT].
  rewrite elements_elems in H.
  destruct r; split; try exact HT; [|exact H].
  rewrite set_init_elems, H. reflexivity.
Qed.

(** Epoch propagation repeated on the initialised record gives what initialisation returned. *)
Lemma sgp4_set_init fuel s t i : outcome_snd (sgp4 fuel (set_init i s) t) = outcome_snd (sgp4 fuel s t).
Proof.
  unfold sgp4.
  assert (E1 : set_error 0 (set_t t (set_init i s)) = set_init i (set_error 0 (set_t t s))) by reflexivity.
  rewrite E1. set (s1 := set_error 0 (set_t t s)). clearbody s1. cbv zeta.
  assert (E2 : sgp4_secular (set_init i s1) = sgp4_secular s1) by reflexivity.
  assert (E3 : forall c, sgp4_em fuel (set_init i s1) c = sgp4_em fuel s1 c) by reflexivity.
  assert (E4 : sr_no (set_init i s1) = sr_no s1) by reflexivity.
  assert (E5 : forall c, sgp4_am (set_init i s1) c = sgp4_am s1 c) by reflexivity.
  assert (E6 : forall c e, sgp4_mean (set_init i s1) c e = sgp4_mean s1 c e) by reflexivity.
  rewrite E2, E3, E4, E5.
  destruct (sgp4_em fuel s1 (sgp4_secular s1)) as [em| |]; cbn [bindO]; [|reflexivity|reflexivity].
  rewrite E6.
  destruct (fle (sr_no s1) (L 0 0)); [reflexivity|].
  match goal with |- context [if ?b then Done (set_error 1 _, _) else _] => destruct b end; [reflexivity|].
  generalize (sgp4_mean s1 (sgp4_secular s1) (fsub em (se_tempe (sgp4_secular s1)))).
  generalize (sgp4_am s1 (sgp4_secular s1)). intros am m.
  cbn [outcome_snd].
  assert (T : snd (sgp4_tail (set_init i s1) m am (sgp4_nm am)) = snd (sgp4_tail s1 m am (sgp4_nm am))).
  { unfold sgp4_tail. cbv zeta.
    assert (B1 : sgp4_bad_ep (set_init i s1) m = sgp4_bad_ep s1 m) by reflexivity.
    assert (B2 : sgp4_xincp (set_init i s1) m = sgp4_xincp s1 m) by reflexivity.
    assert (B3 : forall x, sgp4_sinip (set_init i s1) x = sgp4_sinip s1 x) by reflexivity.
    assert (B4 : forall x, sgp4_cosip (set_init i s1) x = sgp4_cosip s1 x) by reflexivity.
    assert (B5 : forall x, sgp4_long (set_init i s1) x = set_init i (sgp4_long s1 x)).
    { intros x. unfold sgp4_long.
      assert (M : sr_method (set_init i s1) = sr_method s1) by reflexivity. rewrite M.
      destruct (method_eqb (sr_method s1) MethodD); [|reflexivity]. cbv zeta.
      destruct (flt (L 15 13) (fabs (fadd (fcos x) (L 1 0)))); reflexivity. }
    rewrite B1, B2, B3, B4, B5. set (x := sgp4_xincp s1 m). set (s2 := sgp4_long s1 x). clearbody s2 x.
    destruct (sgp4_bad_ep s1 m); [reflexivity|].
    assert (B6 : sgp4_kepler_in (set_init i s2) m am = sgp4_kepler_in s2 m am) by reflexivity.
    rewrite B6.
    match goal with |- context [if ?b then (set_error 4 _, _) else _] => destruct b end; [reflexivity|].
    assert (B7 : sgp4_incl_consts (set_init i s2) x = set_init i (sgp4_incl_consts s2 x)).
    { unfold sgp4_incl_consts.
      assert (M : sr_method (set_init i s2) = sr_method s2) by reflexivity. rewrite M.
      destruct (method_eqb (sr_method s2) MethodD); reflexivity. }
    rewrite B7. set (s3 := sgp4_incl_consts s2 x). clearbody s3.
    assert (B8 : forall q n y a b c, sgp4_osc (set_init i s3) q n y a b c = sgp4_osc s3 q n y a b c) by reflexivity.
    rewrite B8.
    match goal with |- context [if ?b then (set_error 6 _, _) else _] => destruct b end; reflexivity. }
  destruct (sgp4_tail (set_init i s1) m am (sgp4_nm am)), (sgp4_tail s1 m am (sgp4_nm am)).
  cbn [snd] in T. now rewrite T.
Qed.
Lemma sgp4init_replay fuel s0 o s r : sgp4init fuel s0 o = Done (s, r) ->
  outcome_snd (sgp4 fuel s (L 0 0)) = Done r.
Proof.
  intros H. apply sgp4init_inv in H. destruct H as (s1 & H & ->).
  assert (E : outcome_snd (sgp4 fuel s1 (L 0 0)) = Done r).
  { rewrite (sgp4_history1 fuel fuel _ _ _ _ (L 0 0) H). now rewrite H. }
  destruct r; [now rewrite sgp4_set_init|exact E].
Qed.
End S.
