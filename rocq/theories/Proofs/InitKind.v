(** * What [sgp4init] decides: method, simplified drag, resonance (any arithmetic) *)
From Coq Require Import ZArith List Bool.
From Verif.Model Require Import Float Str Satrec Constants Vec3 Initl Dscom Dpper Dsinit Dspace Sgp4 Sgp4init.
From Verif.Proofs Require Import Sgp4Frame InitFrame.
Import ListNotations.
Local Open Scope Z_scope.

Section S.
Context {F : Type} {FO : FloatOps F}.
Implicit Types s u : Satrec F.

Lemma dpper_init_identity s i m ep ip np ap mp :
  dpper s (MkDpperOptions InitY m i ep ip np ap mp) = MkDpperResult ep ip np ap mp.
Proof. reflexivity. Qed.

Lemma init_dpper_id i s : sr_init s = InitY -> sgp4init_dpper i s = s.
Proof.
  intros H. unfold sgp4init_dpper. rewrite H. rewrite dpper_init_identity. cbn [pr_ep pr_inclp pr_nodep pr_argpp pr_mp].
  destruct s; reflexivity.
Qed.

(** Fields of the record after the deep-space block that concern us. *)
Lemma dsinit_irez_eq o : nr_irez (dsinit o) = dsinit_irez (no_nm o) (no_em o).
Proof.
  unfold dsinit. cbv zeta. match goal with |- context [if ?b then _ else _] => destruct b end; reflexivity.
Qed.
Lemma irez_values nm em : dsinit_irez nm em = L 0 0 \/ dsinit_irez nm em = L 1 0 \/ dsinit_irez nm em = L 2 0.
Proof.
  unfold dsinit_irez. cbv zeta.
  destruct (flt nm (L 52359877 10) && flt (L 34906585 10) nm), (fle (L 826 5) nm && fle nm (L 924 5) && fle (L 5 1) em); auto.
Qed.

(** Summary of a record's kind. *)
Record kind := MkKind { kd_method : InitlMethod; kd_isimp : Z; kd_no : F; kd_ecco : F; kd_irez : F;
  kd_d2 : F; kd_d3 : F; kd_d4 : F; kd_t3 : F; kd_t4 : F; kd_t5 : F }.
Definition kind_of s : kind := MkKind (sr_method s) (sr_isimp s) (sr_no s) (sr_ecco s) (sr_irez s)
  (sr_d2 s) (sr_d3 s) (sr_d4 s) (sr_t3cof s) (sr_t4cof s) (sr_t5cof s).

Lemma copy_dsinit_kind r s : kind_of (sgp4init_copy_dsinit r s) =
  MkKind (sr_method s) (sr_isimp s) (sr_no s) (sr_ecco s) (nr_irez r) (sr_d2 s) (sr_d3 s) (sr_d4 s)
    (sr_t3cof s) (sr_t4cof s) (sr_t5cof s).
Proof. reflexivity. Qed.
Lemma copy_dscom_kind d s : kind_of (sgp4init_copy_dscom d s) = kind_of s.
Proof. reflexivity. Qed.
Lemma copy_dscom_init d s : sr_init (sgp4init_copy_dscom d s) = sr_init s.
Proof. reflexivity. Qed.
Lemma set_kind m i s : kind_of (set_isimp i (set_method m s)) =
  MkKind m i (sr_no s) (sr_ecco s) (sr_irez s) (sr_d2 s) (sr_d3 s) (sr_d4 s)
    (sr_t3cof s) (sr_t4cof s) (sr_t5cof s).
Proof. reflexivity. Qed.
Lemma irez_kind s : sr_irez s = kd_irez (kind_of s).
Proof. reflexivity. Qed.

Lemma deep_kind e c x s : sr_init s = InitY ->
  let s' := sgp4init_deep e c x s in
  if fle (L 225 0) (fdiv kTWO_PI (sr_no s)) then
    kind_of s' = MkKind MethodD 1 (sr_no s) (sr_ecco s) (sr_irez s') (sr_d2 s) (sr_d3 s) (sr_d4 s)
                   (sr_t3cof s) (sr_t4cof s) (sr_t5cof s) /\
    (sr_irez s' = L 0 0 \/ sr_irez s' = L 1 0 \/ sr_irez s' = L 2 0)
  else s' = s.
Proof.
  intros HY. cbv zeta. unfold sgp4init_deep.
  destruct (fle (L 225 0) (fdiv kTWO_PI (sr_no s))); [|reflexivity].
  cbv zeta.
  set (d := sgp4init_dscom e _).
  rewrite init_dpper_id by (rewrite copy_dscom_init; exact HY).
  match goal with |- context [dsinit ?a] => generalize (dsinit_irez_eq a); generalize (dsinit a) end.
  intros r Hr. rewrite (irez_kind (sgp4init_copy_dsinit r _)).
  rewrite copy_dsinit_kind. cbn [kd_irez].
  pose proof (copy_dscom_kind d (set_isimp 1 (set_method MethodD s))) as K. rewrite set_kind in K.
  set (s2 := sgp4init_copy_dscom d (set_isimp 1 (set_method MethodD s))) in *. clearbody s2 d.
  injection K as K1 K2 K3 K4 K5 K6 K7 K8 K9 K10 K11.
  split; [now rewrite K1, K2, K3, K4, K6, K7, K8, K9, K10, K11|].
  rewrite Hr. apply irez_values.
Qed.

Lemma drag_kind a t f s :
  let s' := sgp4init_drag a t f s in
  sr_method s' = sr_method s /\ sr_isimp s' = sr_isimp s /\ sr_no s' = sr_no s /\ sr_ecco s' = sr_ecco s /\
  sr_irez s' = sr_irez s /\
  (sr_isimp s = 1 -> s' = s).
Proof.
  cbv zeta. unfold sgp4init_drag. destruct (sr_isimp s =? 1) eqn:E; cbn [negb].
  - repeat split.
  - apply Z.eqb_neq in E. cbv zeta. repeat split. congruence.
Qed.

(** perigee radius (earth radii) of an initialised record *)
Definition perigee_of s : F := fmul (fpow (fdiv kXKE (sr_no s)) kX2O3) (fsub (L 1 0) (sr_ecco s)).
(** initialisation is attempted *)
Definition attempted s : bool :=
  fle (L 0 0) (fsub (L 1 0) (fmul (sr_ecco s) (sr_ecco s))) || fle (L 0 0) (sr_no s).

Lemma near_kind r s :
  kind_of (ne_s (sgp4init_near r s)) =
  MkKind (sr_method s) (if flt (ir_rp r) (fadd (fdiv (L 220 0) kEARTH_RADIUS) (L 1 0)) then 1 else 0)
    (sr_no s) (sr_ecco s) (sr_irez s) (sr_d2 s) (sr_d3 s) (sr_d4 s) (sr_t3cof s) (sr_t4cof s) (sr_t5cof s).
Proof. reflexivity. Qed.
Lemma near_init r s : sr_init (ne_s (sgp4init_near r s)) = sr_init s.
Proof. reflexivity. Qed.

Lemma start_kind r o s0 : kind_of (sgp4init_after_initl r (sgp4init_reset o s0)) =
  MkKind MethodN 0 (ir_no r) (in_xecco o) (L 0 0) (L 0 0) (L 0 0) (L 0 0) (L 0 0) (L 0 0) (L 0 0).
Proof. reflexivity. Qed.
Lemma start_init r o s0 : sr_init (sgp4init_after_initl r (sgp4init_reset o s0)) = InitY.
Proof. reflexivity. Qed.
Lemma initl_rp o s0 : let r := sgp4init_initl o (sgp4init_reset o s0) in
  ir_rp r = fmul (fpow (fdiv kXKE (ir_no r)) kX2O3) (fsub (L 1 0) (in_xecco o)).
Proof. cbv zeta. unfold sgp4init_initl, initl. cbv zeta. cbn [ir_rp ir_no]. reflexivity. Qed.
Lemma initl_omeosq o s0 : let r := sgp4init_initl o (sgp4init_reset o s0) in
  ir_omeosq r = fsub (L 1 0) (fmul (in_xecco o) (in_xecco o)).
Proof. cbv zeta. unfold sgp4init_initl, initl. cbv zeta. cbn [ir_omeosq]. reflexivity. Qed.

Lemma elements_kind o s0 :
  let s := sgp4init_elements o s0 in
  sr_ecco s = in_xecco o /\
  sr_method s = (if attempted s && fle (L 225 0) (fdiv kTWO_PI (sr_no s)) then MethodD else MethodN) /\
  sr_isimp s = (if attempted s && (fle (L 225 0) (fdiv kTWO_PI (sr_no s)) ||
                 flt (perigee_of s) (fadd (fdiv (L 220 0) kEARTH_RADIUS) (L 1 0))) then 1 else 0) /\
  (sr_isimp s = 1 \/ attempted s = false -> sr_d2 s = L 0 0 /\ sr_d3 s = L 0 0 /\ sr_d4 s = L 0 0 /\
     sr_t3cof s = L 0 0 /\ sr_t4cof s = L 0 0 /\ sr_t5cof s = L 0 0) /\
  (sr_irez s = L 0 0 \/ sr_irez s = L 1 0 \/ sr_irez s = L 2 0) /\
  (sr_method s = MethodN -> sr_irez s = L 0 0).
Proof.
  cbv zeta. unfold sgp4init_elements. cbv zeta.
  pose proof (initl_rp o s0) as Hrp. pose proof (initl_omeosq o s0) as Hom. cbv zeta in Hrp, Hom.
  set (r := sgp4init_initl o (sgp4init_reset o s0)) in *. clearbody r.
  pose proof (start_kind r o s0) as K. pose proof (start_init r o s0) as HY.
  set (s1 := sgp4init_after_initl r _) in *.
  clearbody s1. injection K as K1 K2 K3 K4 K5 K6 K7 K8 K9 K10 K11.
  unfold attempted, perigee_of.
  destruct (fle (L 0 0) (ir_omeosq r) || fle (L 0 0) (sr_no s1)) eqn:G.
  2:{ rewrite Hom in G. rewrite K1, K2, K3, K4, K5, K6, K7, K8, K9, K10, K11. rewrite K3 in G. rewrite G. cbn [andb].
      repeat split; auto. }
  pose proof (near_kind r s1) as KN. pose proof (near_init r s1) as IN. rewrite HY in IN.
  set (n := sgp4init_near r s1) in *. clearbody n.
  pose proof (deep_kind (in_epoch o) (ir_eccsq r) (ne_xpidot n) (ne_s n) IN) as D. cbv zeta in D.
  set (s2 := sgp4init_deep (in_epoch o) (ir_eccsq r) (ne_xpidot n) (ne_s n)) in *. clearbody s2.
  pose proof (drag_kind (ir_ao r) (ne_tsi n) (ne_sfour n) s2) as G2. cbv zeta in G2.
  set (s3 := sgp4init_drag (ir_ao r) (ne_tsi n) (ne_sfour n) s2) in *. clearbody s3.
  rewrite K1, K3, K4, K5, K6, K7, K8, K9, K10, K11 in KN.
  injection KN as N1 N2 N3 N4 N5 N6 N7 N8 N9 N10 N11.
  destruct G2 as (G21 & G22 & G23 & G24 & G25 & G26).
  rewrite K3 in G. rewrite Hom in G.
  destruct (fle (L 225 0) (fdiv kTWO_PI (sr_no (ne_s n)))) eqn:P; rewrite N3 in P.
  - destruct D as [DK DI]. injection DK as D1 D2 D3 D4 D6 D7 D8 D9 D10 D11.
    rewrite G23, G24, G25, D3, D4, N3, N4, G, P. cbn [andb orb].
    split; [reflexivity|]. split; [congruence|]. split; [congruence|].
    split; [|split; [exact DI|congruence]].
    intros _. rewrite (G26 D2). repeat split; congruence.
  - subst s2. rewrite G23, G24, G25, N3, N4, N5, G, P. cbn [andb orb]. rewrite <- Hrp.
    split; [reflexivity|]. split; [congruence|]. split; [congruence|].
    split; [|split; [now left|reflexivity]].
    intros [H|H]; [|discriminate]. rewrite G22 in H. rewrite (G26 H). repeat split; congruence.
Qed.

(** The same for the record [sgp4init] leaves. *)
Lemma sgp4_kind fuel s t s' r : sgp4 fuel s t = Done (s', r) -> kind_of s' = kind_of s.
Proof.
  intros H. apply sgp4_frame in H. destruct H as [HN HD]. destruct (sr_method s).
  - now rewrite (HN eq_refl).
  - destruct (HD eq_refl) as (a & x & c & p & q & ->). reflexivity.
Qed.
Lemma sgp4init_kind fuel s0 o s r : sgp4init fuel s0 o = Done (s, r) ->
  kind_of s = kind_of (sgp4init_elements o s0).
Proof.
  intros H. apply sgp4init_inv in H. destruct H as (s1 & H & ->). apply sgp4_kind in H. rewrite <- H.
  destruct r; reflexivity.
Qed.
Lemma kind_transfer (P : kind -> Prop) s s' : kind_of s = kind_of s' -> P (kind_of s') -> P (kind_of s).
Proof. now intros ->. Qed.

Lemma sgp4init_decides fuel s0 o s r0 : sgp4init fuel s0 o = Done (s, r0) ->
  sr_ecco s = in_xecco o /\
  sr_method s = (if attempted s && fle (L 225 0) (fdiv kTWO_PI (sr_no s)) then MethodD else MethodN) /\
  sr_isimp s = (if attempted s && (fle (L 225 0) (fdiv kTWO_PI (sr_no s)) ||
                 flt (perigee_of s) (fadd (fdiv (L 220 0) kEARTH_RADIUS) (L 1 0))) then 1 else 0) /\
  (sr_isimp s = 1 \/ attempted s = false -> sr_d2 s = L 0 0 /\ sr_d3 s = L 0 0 /\ sr_d4 s = L 0 0 /\
     sr_t3cof s = L 0 0 /\ sr_t4cof s = L 0 0 /\ sr_t5cof s = L 0 0) /\
  (sr_irez s = L 0 0 \/ sr_irez s = L 1 0 \/ sr_irez s = L 2 0) /\
  (sr_method s = MethodN -> sr_irez s = L 0 0).
Proof.
  intros H. apply sgp4init_kind in H.
  pose proof (elements_kind o s0) as E. cbv zeta in E. set (s1 := sgp4init_elements o s0) in *. clearbody s1.
  injection H as H1 H2 H3 H4 H5 H6 H7 H8 H9 H10 H11.
  unfold attempted, perigee_of in *. rewrite H1, H2, H3, H4, H5, H6, H7, H8, H9, H10, H11. exact E.
Qed.
End S.
