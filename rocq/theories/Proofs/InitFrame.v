(** * What [sgp4init] reads and writes (any arithmetic) *)
From Coq Require Import ZArith List Bool.
From Verif.Model Require Import Float Str Satrec Constants Vec3 Initl Dscom Dpper Dsinit Dspace Sgp4 Sgp4init.
From Verif.Proofs Require Import Sgp4Frame.
Import ListNotations.
Local Open Scope Z_scope.

Section S.
Context {F : Type} {FO : FloatOps F}.
Implicit Types s u : Satrec F.

(** [s] with the ten fields initialisation does not own taken from [u]. *)
Definition graft u s : Satrec F :=
  set_name (sr_name u) (set_satnum (sr_satnum u) (set_epochyr (sr_epochyr u) (set_epochdays (sr_epochdays u)
  (set_ndot (sr_ndot u) (set_nddot (sr_nddot u) (set_a (sr_a u) (set_alta (sr_alta u) (set_altp (sr_altp u)
  (set_jdsatepoch (sr_jdsatepoch u) s))))))))).

Lemma initl_reset o u s : sgp4init_initl o (sgp4init_reset o u) = sgp4init_initl o (sgp4init_reset o s).
Proof. reflexivity. Qed.
Lemma reset_graft r o u s :
  sgp4init_after_initl r (sgp4init_reset o u) = graft u (sgp4init_after_initl r (sgp4init_reset o s)).
Proof. reflexivity. Qed.
Lemma no_graft u s : sr_no (graft u s) = sr_no s.
Proof. reflexivity. Qed.
Lemma isimp_graft u s : sr_isimp (graft u s) = sr_isimp s.
Proof. reflexivity. Qed.
Lemma cc1_graft u s : sr_cc1 (graft u s) = sr_cc1 s.
Proof. reflexivity. Qed.
Lemma near_s_graft r u s : ne_s (sgp4init_near r (graft u s)) = graft u (ne_s (sgp4init_near r s)).
Proof. reflexivity. Qed.
Lemma near_tsi_graft r u s : ne_tsi (sgp4init_near r (graft u s)) = ne_tsi (sgp4init_near r s).
Proof. reflexivity. Qed.
Lemma near_sfour_graft r u s : ne_sfour (sgp4init_near r (graft u s)) = ne_sfour (sgp4init_near r s).
Proof. reflexivity. Qed.
Lemma near_xpidot_graft r u s : ne_xpidot (sgp4init_near r (graft u s)) = ne_xpidot (sgp4init_near r s).
Proof. reflexivity. Qed.

Lemma set_method_graft m u s : set_method m (graft u s) = graft u (set_method m s).
Proof. reflexivity. Qed.
Lemma set_isimp_graft m u s : set_isimp m (graft u s) = graft u (set_isimp m s).
Proof. reflexivity. Qed.
Lemma inclo_graft u s : sr_inclo (graft u s) = sr_inclo s.
Proof. reflexivity. Qed.
Lemma dscom_graft e u s : sgp4init_dscom e (graft u s) = sgp4init_dscom e s.
Proof. reflexivity. Qed.
Lemma copy_dscom_graft d u s : sgp4init_copy_dscom d (graft u s) = graft u (sgp4init_copy_dscom d s).
Proof. reflexivity. Qed.
Lemma dpper_graft u s o : dpper (graft u s) o = dpper s o.
Proof. reflexivity. Qed.
Lemma init_dpper_graft i u s : sgp4init_dpper i (graft u s) = graft u (sgp4init_dpper i s).
Proof. unfold sgp4init_dpper. cbv zeta. rewrite dpper_graft. reflexivity. Qed.
Lemma dsinit_options_graft e x i d u s :
  sgp4init_dsinit_options e x i d (graft u s) = sgp4init_dsinit_options e x i d s.
Proof. reflexivity. Qed.
Lemma copy_dsinit_graft r u s : sgp4init_copy_dsinit r (graft u s) = graft u (sgp4init_copy_dsinit r s).
Proof. reflexivity. Qed.
Lemma deep_graft e c x u s : sgp4init_deep e c x (graft u s) = graft u (sgp4init_deep e c x s).
Proof.
  unfold sgp4init_deep. rewrite no_graft. destruct (fle (L 225 0) (fdiv kTWO_PI (sr_no s))); [|reflexivity].
  cbv zeta. rewrite set_method_graft, set_isimp_graft, inclo_graft, dscom_graft, copy_dscom_graft,
    init_dpper_graft, dsinit_options_graft, copy_dsinit_graft. reflexivity.
Qed.
Lemma drag_graft a t f u s : sgp4init_drag a t f (graft u s) = graft u (sgp4init_drag a t f s).
Proof.
  unfold sgp4init_drag. rewrite isimp_graft. destruct (negb (sr_isimp s =? 1)); [|reflexivity].
  cbv zeta. rewrite cc1_graft. reflexivity.
Qed.
Lemma elements_graft o u s : sgp4init_elements o u = graft u (sgp4init_elements o s).
Proof.
  unfold sgp4init_elements. cbv zeta. rewrite (initl_reset o u s), (reset_graft _ o u s), no_graft.
  match goal with |- context [if ?b then _ else _] => destruct b end; [|reflexivity].
  rewrite near_s_graft, near_tsi_graft, near_sfour_graft, near_xpidot_graft, deep_graft, drag_graft. reflexivity.
Qed.

(** [sgp4] does not read the ten fields either. *)
Lemma start_graft t u s : set_error 0 (set_t t (graft u s)) = graft u (set_error 0 (set_t t s)).
Proof. reflexivity. Qed.
Lemma secular_graft u s : sgp4_secular (graft u s) = sgp4_secular s.
Proof. reflexivity. Qed.
Lemma em_graft fuel u s c : sgp4_em fuel (graft u s) c = sgp4_em fuel s c.
Proof. reflexivity. Qed.
Lemma am_graft u s c : sgp4_am (graft u s) c = sgp4_am s c.
Proof. reflexivity. Qed.
Lemma mean_graft u s c e : sgp4_mean (graft u s) c e = sgp4_mean s c e.
Proof. reflexivity. Qed.
Lemma bad_ep_graft u s m : sgp4_bad_ep (graft u s) m = sgp4_bad_ep s m.
Proof. reflexivity. Qed.
Lemma xincp_graft u s m : sgp4_xincp (graft u s) m = sgp4_xincp s m.
Proof. reflexivity. Qed.
Lemma sinip_graft u s x : sgp4_sinip (graft u s) x = sgp4_sinip s x.
Proof. reflexivity. Qed.
Lemma cosip_graft u s x : sgp4_cosip (graft u s) x = sgp4_cosip s x.
Proof. reflexivity. Qed.
Lemma method_graft u s : sr_method (graft u s) = sr_method s.
Proof. reflexivity. Qed.
Lemma long_graft u s x : sgp4_long (graft u s) x = graft u (sgp4_long s x).
Proof.
  unfold sgp4_long. rewrite method_graft. destruct (method_eqb (sr_method s) MethodD); [|reflexivity].
  cbv zeta. destruct (flt (L 15 13) (fabs (fadd (fcos x) (L 1 0)))); reflexivity.
Qed.
Lemma kepler_in_graft u s m am : sgp4_kepler_in (graft u s) m am = sgp4_kepler_in s m am.
Proof. reflexivity. Qed.
Lemma incl_graft u s x : sgp4_incl_consts (graft u s) x = graft u (sgp4_incl_consts s x).
Proof.
  unfold sgp4_incl_consts. rewrite method_graft.
  destruct (method_eqb (sr_method s) MethodD); reflexivity.
Qed.
Lemma osc_graft u s q n x a b c : sgp4_osc (graft u s) q n x a b c = sgp4_osc s q n x a b c.
Proof. reflexivity. Qed.
Lemma set_error_graft e u s : set_error e (graft u s) = graft u (set_error e s).
Proof. reflexivity. Qed.

Lemma tail_graft u s m am nm : sgp4_tail (graft u s) m am nm =
  let '(s', r) := sgp4_tail s m am nm in (graft u s', r).
Proof.
  unfold sgp4_tail. cbv zeta.
  rewrite bad_ep_graft, xincp_graft, sinip_graft, cosip_graft, long_graft, kepler_in_graft, incl_graft, osc_graft.
  rewrite !set_error_graft.
  destruct (sgp4_bad_ep s m); [reflexivity|].
  match goal with |- context [if ?b then (graft u (set_error 4 _), _) else _] => destruct b end; [reflexivity|].
  match goal with |- context [if ?b then (graft u (set_error 6 _), _) else _] => destruct b end; reflexivity.
Qed.

Lemma sgp4_graft fuel u s t : sgp4 fuel (graft u s) t =
  bindO (sgp4 fuel s t) (fun p => Done (graft u (fst p), snd p)).
Proof.
  unfold sgp4. rewrite start_graft. set (s1 := set_error 0 (set_t t s)). clearbody s1. cbv zeta.
  rewrite secular_graft, em_graft, am_graft, no_graft, !set_error_graft.
  destruct (sgp4_em fuel s1 (sgp4_secular s1)) as [em| |]; cbn [bindO]; [|reflexivity|reflexivity].
  rewrite mean_graft, tail_graft.
  destruct (fle (sr_no s1) (L 0 0)); [reflexivity|].
  match goal with |- context [if ?b then Done (graft u (set_error 1 _), _) else _] => destruct b end; [reflexivity|].
  destruct (sgp4_tail s1 _ _ _); reflexivity.
Qed.

Lemma sgp4init_graft fuel u s o : sgp4init fuel u o =
  bindO (sgp4init fuel s o) (fun p => Done (graft u (fst p), snd p)).
Proof.
  unfold sgp4init. rewrite (elements_graft o u s), sgp4_graft.
  destruct (sgp4 fuel (sgp4init_elements o s) (L 0 0)) as [[s1 [r|e]]| |]; reflexivity.
Qed.

(** Initialisation ends like [sgp4] at 0 on the initialised elements. *)
Lemma sgp4init_inv fuel s o s' r : sgp4init fuel s o = Done (s', r) ->
  exists s1, sgp4 fuel (sgp4init_elements o s) (L 0 0) = Done (s1, r) /\
    s' = match r with Ok _ => set_init InitN s1 | Err _ => s1 end.
Proof.
  unfold sgp4init. destruct (sgp4 fuel (sgp4init_elements o s) (L 0 0)) as [[s1 [v|e]]| |]; cbn [bindO]; try discriminate;
    intros H; injection H as <- <-; eauto.
Qed.
End S.
