(** * What deep-space initialisation leaves in the record (any arithmetic) *)
From Coq Require Import ZArith List Bool.
From Verif.Model Require Import Float Str Satrec Constants Vec3 Initl Dscom Dpper Dsinit Dspace Sgp4 Sgp4init.
From Verif.Proofs Require Import Sgp4Frame InitFrame InitKind InitElems.
Local Open Scope Z_scope.

Section S.
Context {F : Type} {FO : FloatOps F}.
Implicit Types s u : Satrec F.

Record third := MkThird { k_e3 : F; k_ee2 : F; k_peo : F; k_pgho : F; k_pho : F; k_pinco : F; k_plo : F; k_se2 : F; k_se3 : F; k_sgh2 : F; k_sgh3 : F; k_sgh4 : F; k_sh2 : F; k_sh3 : F; k_si2 : F; k_si3 : F; k_sl2 : F; k_sl3 : F; k_sl4 : F; k_xgh2 : F; k_xgh3 : F; k_xgh4 : F; k_xh2 : F; k_xh3 : F; k_xi2 : F; k_xi3 : F; k_xl2 : F; k_xl3 : F; k_xl4 : F; k_zmol : F; k_zmos : F }.
Definition third_of s : third := MkThird (sr_e3 s) (sr_ee2 s) (sr_peo s) (sr_pgho s) (sr_pho s) (sr_pinco s) (sr_plo s) (sr_se2 s) (sr_se3 s) (sr_sgh2 s) (sr_sgh3 s) (sr_sgh4 s) (sr_sh2 s) (sr_sh3 s) (sr_si2 s) (sr_si3 s) (sr_sl2 s) (sr_sl3 s) (sr_sl4 s) (sr_xgh2 s) (sr_xgh3 s) (sr_xgh4 s) (sr_xh2 s) (sr_xh3 s) (sr_xi2 s) (sr_xi3 s) (sr_xl2 s) (sr_xl3 s) (sr_xl4 s) (sr_zmol s) (sr_zmos s).
Definition third_d (d : DscomResult F) : third := MkThird (dr_e3 d) (dr_ee2 d) (dr_peo d) (dr_pgho d) (dr_pho d) (dr_pinco d) (dr_plo d) (dr_se2 d) (dr_se3 d) (dr_sgh2 d) (dr_sgh3 d) (dr_sgh4 d) (dr_sh2 d) (dr_sh3 d) (dr_si2 d) (dr_si3 d) (dr_sl2 d) (dr_sl3 d) (dr_sl4 d) (dr_xgh2 d) (dr_xgh3 d) (dr_xgh4 d) (dr_xh2 d) (dr_xh3 d) (dr_xi2 d) (dr_xi3 d) (dr_xl2 d) (dr_xl3 d) (dr_xl4 d) (dr_zmol d) (dr_zmos d).
Record rez := MkRez { z_irez : F; z_atime : F; z_d2201 : F; z_d2211 : F; z_d3210 : F; z_d3222 : F; z_d4410 : F; z_d4422 : F; z_d5220 : F; z_d5232 : F; z_d5421 : F; z_d5433 : F; z_dedt : F; z_didt : F; z_dmdt : F; z_dnodt : F; z_domdt : F; z_del1 : F; z_del2 : F; z_del3 : F; z_xfact : F; z_xlamo : F; z_xli : F; z_xni : F }.
Definition rez_of s : rez := MkRez (sr_irez s) (sr_atime s) (sr_d2201 s) (sr_d2211 s) (sr_d3210 s) (sr_d3222 s) (sr_d4410 s) (sr_d4422 s) (sr_d5220 s) (sr_d5232 s) (sr_d5421 s) (sr_d5433 s) (sr_dedt s) (sr_didt s) (sr_dmdt s) (sr_dnodt s) (sr_domdt s) (sr_del1 s) (sr_del2 s) (sr_del3 s) (sr_xfact s) (sr_xlamo s) (sr_xli s) (sr_xni s).
Definition rez_r (r : DinitResult F) : rez := MkRez (nr_irez r) (nr_atime r) (nr_d2201 r) (nr_d2211 r) (nr_d3210 r) (nr_d3222 r) (nr_d4410 r) (nr_d4422 r) (nr_d5220 r) (nr_d5232 r) (nr_d5421 r) (nr_d5433 r) (nr_dedt r) (nr_didt r) (nr_dmdt r) (nr_dnodt r) (nr_domdt r) (nr_del1 r) (nr_del2 r) (nr_del3 r) (nr_xfact r) (nr_xlamo r) (nr_xli r) (nr_xni r).
Definition rez_0 : rez := MkRez (L 0 0) (L 0 0) (L 0 0) (L 0 0) (L 0 0) (L 0 0) (L 0 0) (L 0 0) (L 0 0) (L 0 0) (L 0 0) (L 0 0) (L 0 0) (L 0 0) (L 0 0) (L 0 0) (L 0 0) (L 0 0) (L 0 0) (L 0 0) (L 0 0) (L 0 0) (L 0 0) (L 0 0).

(** Secular fields the resonance phase depends on. *)
Record drift := MkDrift { q_mdot : F; q_argpdot : F; q_nodedot : F }.
Definition drift_of s : drift := MkDrift (sr_mdot s) (sr_argpdot s) (sr_nodedot s).

Lemma copy_dsinit_third r s : third_of (sgp4init_copy_dsinit r s) = third_of s /\ rez_of (sgp4init_copy_dsinit r s) = rez_r r /\
  drift_of (sgp4init_copy_dsinit r s) = drift_of s.
Proof. repeat split; reflexivity. Qed.
Lemma copy_dscom_third d s : third_of (sgp4init_copy_dscom d s) = third_d d /\ rez_of (sgp4init_copy_dscom d s) = rez_of s /\
  drift_of (sgp4init_copy_dscom d s) = drift_of s /\ elems_of (sgp4init_copy_dscom d s) = elems_of s /\
  sr_t (sgp4init_copy_dscom d s) = sr_t s.
Proof. repeat split; reflexivity. Qed.
Lemma set_third m i s : let v := set_isimp i (set_method m s) in
  rez_of v = rez_of s /\ drift_of v = drift_of s /\ elems_of v = elems_of s /\ sr_t v = sr_t s.
Proof. repeat split; reflexivity. Qed.
Lemma near_third r s : let n := sgp4init_near r s in
  rez_of (ne_s n) = rez_of s /\ elems_of (ne_s n) = elems_of s /\ sr_t (ne_s n) = sr_t s /\
  ne_xpidot n = fadd (sr_argpdot (ne_s n)) (sr_nodedot (ne_s n)).
Proof. repeat split; reflexivity. Qed.
Lemma start_third r o s0 : let s := sgp4init_after_initl r (sgp4init_reset o s0) in rez_of s = rez_0 /\ sr_t s = L 0 0.
Proof. repeat split; reflexivity. Qed.
Lemma drag_third a t f s : third_of (sgp4init_drag a t f s) = third_of s /\ rez_of (sgp4init_drag a t f s) = rez_of s /\
  drift_of (sgp4init_drag a t f s) = drift_of s.
Proof. unfold sgp4init_drag. destruct (negb (sr_isimp s =? 1)); repeat split; reflexivity. Qed.
Lemma sgp4init_dscom_eq e s : sgp4init_dscom e s =
  dscom (MkDscomOptions e (el_ecco (elems_of s)) (el_argpo (elems_of s)) (L 0 0) (el_inclo (elems_of s)) (el_nodeo (elems_of s)) (el_no (elems_of s))).
Proof. reflexivity. Qed.

(** [u] is the record [dsinit]'s options are taken from. *)
Definition deep_options (o : SGP4InitOptions F) (d : DscomResult F) (k : drift) (u : Satrec F) : DsinitOptions F :=
  sgp4init_dsinit_options (fmul (in_xecco o) (in_xecco o)) (fadd (q_argpdot k) (q_nodedot k)) (in_xinclo o) d u.
Definition deep_dscom (o : SGP4InitOptions F) : DscomResult F :=
  dscom (MkDscomOptions (in_epoch o) (in_xecco o) (in_xargpo o) (L 0 0) (in_xinclo o) (in_xnodeo o) (brouwer_no o)).
Definition deep_source (o : SGP4InitOptions F) (k : drift) (u : Satrec F) : Prop :=
  elems_of u = MkElems (in_xbstar o) (in_xecco o) (in_xargpo o) (in_xinclo o) (in_xmo o) (brouwer_no o) (in_xnodeo o)
    (in_opsmode o) InitY (initl_gsto (in_opsmode o) (in_epoch o)) /\
  drift_of u = k /\ rez_of u = rez_0 /\ sr_t u = L 0 0.

Lemma deep_core o v0 c x : elems_of v0 = MkElems (in_xbstar o) (in_xecco o) (in_xargpo o) (in_xinclo o) (in_xmo o) (brouwer_no o) (in_xnodeo o)
    (in_opsmode o) InitY (initl_gsto (in_opsmode o) (in_epoch o)) ->
  rez_of v0 = rez_0 -> sr_t v0 = L 0 0 -> sr_method v0 = MethodN -> c = fmul (in_xecco o) (in_xecco o) ->
  x = fadd (sr_argpdot v0) (sr_nodedot v0) -> sr_method (sgp4init_deep (in_epoch o) c x v0) = MethodD ->
  exists u, deep_source o (drift_of (sgp4init_deep (in_epoch o) c x v0)) u /\
    third_of (sgp4init_deep (in_epoch o) c x v0) = third_d (deep_dscom o) /\
    rez_of (sgp4init_deep (in_epoch o) c x v0) =
      rez_r (dsinit (deep_options o (deep_dscom o) (drift_of (sgp4init_deep (in_epoch o) c x v0)) u)).
Proof.
  intros NE NZ NT NM -> ->. unfold sgp4init_deep.
  destruct (fle (L 225 0) (fdiv kTWO_PI (sr_no v0))).
  2:{ intros HM. rewrite NM in HM. discriminate. }
  intros _. cbv zeta.
  assert (IY : sr_init v0 = InitY) by exact (f_equal el_init NE).
  rewrite init_dpper_id by (rewrite copy_dscom_init; exact IY).
  pose proof (set_third MethodD 1 v0) as (SZ & SD & SE & ST). cbv zeta in SZ, SD, SE, ST.
  rewrite NE in SE. rewrite NT in ST. rewrite NZ in SZ.
  assert (SO : sgp4init_dscom (in_epoch o) (set_isimp 1 (set_method MethodD v0)) = deep_dscom o).
  { rewrite sgp4init_dscom_eq. rewrite SE. reflexivity. }
  rewrite SO. clear SO.
  assert (SI : sr_inclo (set_isimp 1 (set_method MethodD v0)) = in_xinclo o) by exact (f_equal el_inclo SE).
  rewrite SI. clear SI.
  generalize (deep_dscom o). intros dd.
  set (w := set_isimp 1 (set_method MethodD v0)) in *. clearbody w.
  destruct (copy_dscom_third dd w) as (CT & CZ & CD & CE & CS).
  set (v := sgp4init_copy_dscom dd w) in *. clearbody v.
  assert (OP : sgp4init_dsinit_options (fmul (in_xecco o) (in_xecco o)) (fadd (sr_argpdot v0) (sr_nodedot v0)) (in_xinclo o) dd v =
    deep_options o dd (drift_of v0) v) by reflexivity.
  rewrite OP. clear OP. remember (dsinit (deep_options o dd (drift_of v0) v)) as rr eqn:RR.
  destruct (copy_dsinit_third rr v) as (-> & -> & ->).
  rewrite SD in CD. rewrite CD.
  exists v. split; [|split; [exact CT|now rewrite RR]].
  unfold deep_source. rewrite CE, SE, CD, CZ, SZ, CS, ST. repeat split.
Qed.
Lemma elements_deep o s0 s : s = sgp4init_elements o s0 -> sr_method s = MethodD ->
  exists u, deep_source o (drift_of s) u /\ third_of s = third_d (deep_dscom o) /\
    rez_of s = rez_r (dsinit (deep_options o (deep_dscom o) (drift_of s) u)).
Proof.
  intros ES HM. revert ES. unfold sgp4init_elements. cbv zeta.
  pose proof (initl_fields o s0) as G. pose proof (initl_no o s0) as N. cbv zeta in G.
  assert (EQ : ir_eccsq (sgp4init_initl o (sgp4init_reset o s0)) = fmul (in_xecco o) (in_xecco o)) by reflexivity.
  set (r := sgp4init_initl o (sgp4init_reset o s0)) in *. clearbody r.
  pose proof (start_elems r o s0) as K. rewrite G, N in K.
  pose proof (start_third r o s0) as [KZ KT].
  pose proof (start_kind r o s0) as KK.
  set (s1 := sgp4init_after_initl r _) in *. clearbody s1.
  assert (M1 : sr_method s1 = MethodN) by exact (f_equal kd_method KK). clear KK.
  match goal with |- context [if ?b then sgp4init_drag _ _ _ _ else _] => destruct b end.
  2:{ intros ->. congruence. }
  pose proof (near_third r s1) as (NZ & NE & NT & NX).
  assert (NM : sr_method (ne_s (sgp4init_near r s1)) = sr_method s1) by exact (f_equal kd_method (near_kind r s1)).
  set (n := sgp4init_near r s1) in *. clearbody n.
  rewrite K in NE. rewrite KZ in NZ. rewrite KT in NT. rewrite M1 in NM.
  pose proof (deep_core o (ne_s n) (ir_eccsq r) (ne_xpidot n) NE NZ NT NM EQ NX) as DC.
  set (v := sgp4init_deep (in_epoch o) (ir_eccsq r) (ne_xpidot n) (ne_s n)) in *. clearbody v.
  intros ES.
  pose proof (drag_kind (ir_ao r) (ne_tsi n) (ne_sfour n) v) as (DM & _). rewrite <- ES, HM in DM.
  destruct (drag_third (ir_ao r) (ne_tsi n) (ne_sfour n) v) as (A & B & C). rewrite <- ES in A, B, C.
  destruct (DC (eq_sym DM)) as (u & D1 & D2 & D3). exists u. rewrite A, B, C. auto.
Qed.

Lemma sgp4_third fuel s t s' r : sgp4 fuel s t = Done (s', r) ->
  third_of s' = third_of s /\ drift_of s' = drift_of s /\ rez_of s' = rez_of s.
Proof.
  intros H. apply sgp4_frame in H. destruct H as [HN HD]. destruct (sr_method s).
  - now rewrite (HN eq_refl).
  - destruct (HD eq_refl) as (a & x & c & p & q & ->). repeat split.
Qed.
Lemma sgp4init_deep_fields fuel s0 o s r : sgp4init fuel s0 o = Done (s, r) -> sr_method s = MethodD ->
  exists u, deep_source o (drift_of s) u /\ third_of s = third_d (deep_dscom o) /\
    rez_of s = rez_r (dsinit (deep_options o (deep_dscom o) (drift_of s) u)).
Proof.
  intros H HM. pose proof (sgp4init_kind _ _ _ _ _ H) as K. pose proof (f_equal kd_method K) as KM. cbn [kind_of kd_method] in KM.
  apply sgp4init_inv in H. destruct H as (s1 & H & E). apply sgp4_third in H. destruct H as (H1 & H2 & H3).
  rewrite HM in KM. destruct (elements_deep o s0 _ eq_refl (eq_sym KM)) as (u & A & B & C).
  assert (X : third_of s = third_of s1 /\ drift_of s = drift_of s1 /\ rez_of s = rez_of s1).
  { rewrite E. destruct r; repeat split. }
  destruct X as (X1 & X2 & X3). exists u. rewrite X1, X2, X3, H1, H2, H3. auto.
Qed.
End S.
