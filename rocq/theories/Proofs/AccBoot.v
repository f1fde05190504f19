(** * Binary64 accuracy of the initialisation as a whole *)
From Coq Require Import ZArith QArith Reals Qreals Bool Lra Lia Psatz.
From Flocq Require Import Core IEEE754.BinarySingleNaN.
From Verif.Model Require Import Float Str Satrec Constants Vec3 Initl Sgp4 Sgp4init.
From Verif.Spec Require Import LibmAccuracy Sgp4Spec NearAccuracy.
From Verif.Inst Require Import RInst RTac B64 B64Facts B64Calc ApxCalc.
From Verif.Proofs Require Import CalcFun CalcPow ApxFun AccInit AccNear AccSecular AccKepler AccLow AccState AccTail Sgp4Errors AccSgp4.
Local Open Scope R_scope.

Section G.
Context {F : Type} {FO : FloatOps F}.
Definition il (o : SGP4InitOptions F) : InitlReturn F := initl (MkInitlOptions (in_opsmode o) MethodN (in_satn o) (in_xecco o) (in_epoch o) (in_xinclo o) (in_xno o)).
Lemma il_def o : il o = initl (MkInitlOptions (in_opsmode o) MethodN (in_satn o) (in_xecco o) (in_epoch o) (in_xinclo o) (in_xno o)).
Proof. reflexivity. Qed.
Lemma initl_at o (s0 : Satrec F) : sgp4init_initl o (sgp4init_reset o s0) = il o.
Proof. reflexivity. Qed.
Definition s1 (o : SGP4InitOptions F) (s0 : Satrec F) : Satrec F := sgp4init_after_initl (il o) (sgp4init_reset o s0).
Lemma s1_fields o s0 : let s := s1 o s0 in let r := il o in
  sr_ecco s = in_xecco o /\ sr_no s = ir_no r /\ sr_con41 s = ir_con41 r /\ sr_bstar s = in_xbstar o /\ sr_argpo s = in_xargpo o /\ sr_mo s = in_xmo o /\
  sr_nodeo s = in_xnodeo o /\ sr_inclo s = in_xinclo o /\ sr_method s = MethodN.
Proof. cbv zeta. unfold s1, sgp4init_after_initl. generalize (il o). intros r. split; [reflexivity|]. do 7 (split; [reflexivity|]). reflexivity. Qed.
Lemma near_fields r (s : Satrec F) : let n := ne_s (sgp4init_near r s) in
  sr_ecco n = sr_ecco s /\ sr_no n = sr_no s /\ sr_con41 n = sr_con41 s /\ sr_bstar n = sr_bstar s /\ sr_argpo n = sr_argpo s /\ sr_mo n = sr_mo s /\
  sr_nodeo n = sr_nodeo s /\ sr_inclo n = sr_inclo s /\ sr_method n = sr_method s.
Proof. cbv zeta. split; [reflexivity|]. do 7 (split; [reflexivity|]). reflexivity. Qed.
(** what the last step, the higher drag terms, leaves alone *)
Record kept := Kept { k_isimp : Z; k_method : InitlMethod; k_f : list F }.
Definition keep (s : Satrec F) : kept := Kept (sr_isimp s) (sr_method s)
  (sr_ecco s :: sr_no s :: sr_con41 s :: sr_bstar s :: sr_argpo s :: sr_mo s :: sr_nodeo s :: sr_inclo s ::
   sr_eta s :: sr_cc1 s :: sr_cc4 s :: sr_cc5 s :: sr_mdot s :: sr_argpdot s :: sr_nodedot s :: sr_omgcof s :: sr_xmcof s :: sr_nodecf s :: sr_t2cof s :: sr_delmo s :: sr_sinmao s ::
   sr_x1mth2 s :: sr_xlcof s :: sr_aycof s :: sr_x7thm1 s :: nil).
Lemma drag_keep a t f s : keep (sgp4init_drag a t f s) = keep s.
Proof. unfold sgp4init_drag. destruct (negb (sr_isimp s =? 1)%Z); reflexivity. Qed.
Lemma init_eq o s0 : fle (L 0 0) (ir_omeosq (il o)) = true -> fle (L 225 0) (fdiv kTWO_PI (ir_no (il o))) = false ->
  let n := sgp4init_near (il o) (s1 o s0) in sgp4init_elements o s0 = sgp4init_drag (ir_ao (il o)) (ne_tsi n) (ne_sfour n) (ne_s n).
Proof.
  intros H1 H2 n. unfold sgp4init_elements. cbv zeta. rewrite initl_at. fold (s1 o s0). rewrite H1. cbn [orb]. fold n. f_equal.
  unfold sgp4init_deep. pose proof (near_fields (il o) (s1 o s0)) as (_ & N & _). pose proof (s1_fields o s0) as (_ & N1 & _). fold n in N. cbv zeta in N. rewrite N, N1, H2. reflexivity.
Qed.
End G.

Lemma exact_apx x l h : is_finite x = true -> Q2R l <= B2R x <= Q2R h -> apx x (B2R x) (Eb l h 0 0).
Proof.
  intros Fx I. split; [exact Fx|]. split; [exact I|]. cbn [rr ab]. rewrite Q2R_0. split; [lra|]. rewrite Rminus_eq_0, Rabs_R0. pose proof (Rabs_pos (B2R x)). lra.
Qed.

(** a record field by field, once the time is set *)
Lemma sec_intro T E nb db (s x : Satrec b64) (s' x' : Satrec R) t t' : keep s = keep x -> keep s' = keep x' -> (sr_isimp x = 0%Z /\ sr_isimp x' = 0%Z) ->
  apx t t' T -> apx (sr_bstar x) (sr_bstar x') in_bst ->
  apx (sr_mo x) (sr_mo x') in_ang -> apx (sr_argpo x) (sr_argpo x') in_ang -> apx (sr_nodeo x) (sr_nodeo x') in_ang ->
  apx (sr_ecco x) (sr_ecco x') E -> apx (sr_no x) (sr_no x') noB ->
  apx (sr_eta x) (sr_eta x') (nb_eta nb) -> apx (sr_cc1 x) (sr_cc1 x') (nb_cc1 nb) -> apx (sr_cc4 x) (sr_cc4 x') (nb_cc4 nb) -> apx (sr_cc5 x) (sr_cc5 x') (nb_cc5 nb) ->
  apx (sr_mdot x) (sr_mdot x') (nb_mdot nb) -> apx (sr_argpdot x) (sr_argpdot x') (nb_argpdot nb) -> apx (sr_nodedot x) (sr_nodedot x') (nb_nodedot nb) ->
  apx (sr_omgcof x) (sr_omgcof x') (nb_omgcof nb) -> apx (sr_xmcof x) (sr_xmcof x') (nb_xmcof nb) -> apx (sr_nodecf x) (sr_nodecf x') (nb_nodecf nb) ->
  apx (sr_t2cof x) (sr_t2cof x') (nb_t2cof nb) -> apx (sr_delmo x) (sr_delmo x') (nb_delmo nb) -> apx (sr_sinmao x) (sr_sinmao x') (nb_sinmao nb) -> drag_ok db s s' ->
  sec_in T E nb db (st t s) (st t' s').
Proof.
  intros K K'. unfold keep in K, K'. injection K as K0 K1 K2 K3 K4 K5 K6 K7 K8 K9 K10 K11 K12 K13 K14 K15 K16 K17 K18 K19 K20 K21 K22 K23 K24 K25 K26. injection K' as J0 J1 J2 J3 J4 J5 J6 J7 J8 J9 J10 J11 J12 J13 J14 J15 J16 J17 J18 J19 J20 J21 J22 J23 J24 J25 J26. intros H0 H1 H2 H3 H4 H5 H6 H7 H8 H9 H10 H11 H12 H13 H14 H15 H16 H17 H18 H19 H20 HD. unfold sec_in.
  split; [change (sr_isimp s = 0%Z /\ sr_isimp s' = 0%Z); rewrite K0, J0; exact H0|]. split; [exact H1|].
  split; [match goal with |- apx _ _ ?A => change (apx (sr_bstar s) (sr_bstar s') A) end; rewrite K5, J5; exact H2|].
  split; [match goal with |- apx _ _ ?A => change (apx (sr_mo s) (sr_mo s') A) end; rewrite K7, J7; exact H3|].
  split; [match goal with |- apx _ _ ?A => change (apx (sr_argpo s) (sr_argpo s') A) end; rewrite K6, J6; exact H4|].
  split; [match goal with |- apx _ _ ?A => change (apx (sr_nodeo s) (sr_nodeo s') A) end; rewrite K8, J8; exact H5|].
  split; [match goal with |- apx _ _ ?A => change (apx (sr_ecco s) (sr_ecco s') A) end; rewrite K2, J2; exact H6|].
  split; [match goal with |- apx _ _ ?A => change (apx (sr_no s) (sr_no s') A) end; rewrite K3, J3; exact H7|].
  split; [match goal with |- apx _ _ ?A => change (apx (sr_eta s) (sr_eta s') A) end; rewrite K10, J10; exact H8|].
  split; [match goal with |- apx _ _ ?A => change (apx (sr_cc1 s) (sr_cc1 s') A) end; rewrite K11, J11; exact H9|].
  split; [match goal with |- apx _ _ ?A => change (apx (sr_cc4 s) (sr_cc4 s') A) end; rewrite K12, J12; exact H10|].
  split; [match goal with |- apx _ _ ?A => change (apx (sr_cc5 s) (sr_cc5 s') A) end; rewrite K13, J13; exact H11|].
  split; [match goal with |- apx _ _ ?A => change (apx (sr_mdot s) (sr_mdot s') A) end; rewrite K14, J14; exact H12|].
  split; [match goal with |- apx _ _ ?A => change (apx (sr_argpdot s) (sr_argpdot s') A) end; rewrite K15, J15; exact H13|].
  split; [match goal with |- apx _ _ ?A => change (apx (sr_nodedot s) (sr_nodedot s') A) end; rewrite K16, J16; exact H14|].
  split; [match goal with |- apx _ _ ?A => change (apx (sr_omgcof s) (sr_omgcof s') A) end; rewrite K17, J17; exact H15|].
  split; [match goal with |- apx _ _ ?A => change (apx (sr_xmcof s) (sr_xmcof s') A) end; rewrite K18, J18; exact H16|].
  split; [match goal with |- apx _ _ ?A => change (apx (sr_nodecf s) (sr_nodecf s') A) end; rewrite K19, J19; exact H17|].
  split; [match goal with |- apx _ _ ?A => change (apx (sr_t2cof s) (sr_t2cof s') A) end; rewrite K20, J20; exact H18|].
  split; [match goal with |- apx _ _ ?A => change (apx (sr_delmo s) (sr_delmo s') A) end; rewrite K21, J21; exact H19|].
  split; [match goal with |- apx _ _ ?A => change (apx (sr_sinmao s) (sr_sinmao s') A) end; rewrite K22, J22; exact H20|].
  exact HD.
Qed.
Lemma low_intro E b (s x : Satrec b64) (s' x' : Satrec R) t t' : keep s = keep x -> keep s' = keep x' -> (sr_isimp x = 1%Z /\ sr_isimp x' = 1%Z) ->
  apx t t' (Eb (-1440) 1440 0 0) ->
  apx (sr_bstar x) (sr_bstar x') in_bst ->
  apx (sr_mo x) (sr_mo x') in_ang ->
  apx (sr_argpo x) (sr_argpo x') in_ang ->
  apx (sr_nodeo x) (sr_nodeo x') in_ang ->
  apx (sr_ecco x) (sr_ecco x') E ->
  apx (sr_no x) (sr_no x') noB ->
  apx (sr_cc1 x) (sr_cc1 x') (lb_cc1 b) ->
  apx (sr_cc4 x) (sr_cc4 x') (lb_cc4 b) ->
  apx (sr_mdot x) (sr_mdot x') (lb_mdot b) ->
  apx (sr_argpdot x) (sr_argpdot x') (lb_argpdot b) ->
  apx (sr_nodedot x) (sr_nodedot x') (lb_nodedot b) ->
  apx (sr_nodecf x) (sr_nodecf x') (lb_nodecf b) ->
  apx (sr_t2cof x) (sr_t2cof x') (lb_t2cof b) ->
  low_in E b (st t s) (st t' s').
Proof.
  intros K K'. unfold keep in K, K'. injection K as K0 K1 K2 K3 K4 K5 K6 K7 K8 K9 K10 K11 K12 K13 K14 K15 K16 K17 K18 K19 K20 K21 K22 K23 K24 K25 K26. injection K' as J0 J1 J2 J3 J4 J5 J6 J7 J8 J9 J10 J11 J12 J13 J14 J15 J16 J17 J18 J19 J20 J21 J22 J23 J24 J25 J26. intros H0 H1 G0 G1 G2 G3 G4 G5 G6 G7 G8 G9 G10 G11 G12. unfold low_in.
  split; [change (sr_isimp s = 1%Z /\ sr_isimp s' = 1%Z); rewrite K0, J0; exact H0|]. split; [exact H1|].
  split; [match goal with |- apx _ _ ?A => change (apx (sr_bstar s) (sr_bstar s') A) end; rewrite K5, J5; exact G0|].
  split; [match goal with |- apx _ _ ?A => change (apx (sr_mo s) (sr_mo s') A) end; rewrite K7, J7; exact G1|].
  split; [match goal with |- apx _ _ ?A => change (apx (sr_argpo s) (sr_argpo s') A) end; rewrite K6, J6; exact G2|].
  split; [match goal with |- apx _ _ ?A => change (apx (sr_nodeo s) (sr_nodeo s') A) end; rewrite K8, J8; exact G3|].
  split; [match goal with |- apx _ _ ?A => change (apx (sr_ecco s) (sr_ecco s') A) end; rewrite K2, J2; exact G4|].
  split; [match goal with |- apx _ _ ?A => change (apx (sr_no s) (sr_no s') A) end; rewrite K3, J3; exact G5|].
  split; [match goal with |- apx _ _ ?A => change (apx (sr_cc1 s) (sr_cc1 s') A) end; rewrite K11, J11; exact G6|].
  split; [match goal with |- apx _ _ ?A => change (apx (sr_cc4 s) (sr_cc4 s') A) end; rewrite K12, J12; exact G7|].
  split; [match goal with |- apx _ _ ?A => change (apx (sr_mdot s) (sr_mdot s') A) end; rewrite K14, J14; exact G8|].
  split; [match goal with |- apx _ _ ?A => change (apx (sr_argpdot s) (sr_argpdot s') A) end; rewrite K15, J15; exact G9|].
  split; [match goal with |- apx _ _ ?A => change (apx (sr_nodedot s) (sr_nodedot s') A) end; rewrite K16, J16; exact G10|].
  split; [match goal with |- apx _ _ ?A => change (apx (sr_nodecf s) (sr_nodecf s') A) end; rewrite K19, J19; exact G11|].
  match goal with |- apx _ _ ?A => change (apx (sr_t2cof s) (sr_t2cof s') A) end; rewrite K20, J20; exact G12.
Qed.
Lemma per_intro (s x : Satrec b64) (s' x' : Satrec R) : keep s = keep x -> keep s' = keep x' -> per_ok x x' -> per_ok s s'.
Proof. intros K K'. unfold keep in K, K'. injection K as K0 K1 K2 K3 K4 K5 K6 K7 K8 K9 K10 K11 K12 K13 K14 K15 K16 K17 K18 K19 K20 K21 K22 K23 K24 K25 K26. injection K' as J0 J1 J2 J3 J4 J5 J6 J7 J8 J9 J10 J11 J12 J13 J14 J15 J16 J17 J18 J19 J20 J21 J22 J23 J24 J25 J26. unfold per_ok. rewrite K25, J25, K24, J24, K4, J4, K23, J23, K26, J26, K9, J9. trivial. Qed.

Definition per_same (nb : nbounds) : Prop := nb_aycof nb = nb_aycof nb1 /\ nb_xlcof nb = nb_xlcof nb1 /\ nb_x1mth2 nb = nb_x1mth2 nb1 /\ nb_x7thm1 nb = nb_x7thm1 nb1.

Definition lper_same (b : lbounds) : Prop := lb_aycof b = nb_aycof nb1 /\ lb_xlcof b = nb_xlcof nb1 /\ lb_x1mth2 b = nb_x1mth2 nb1 /\ lb_x7thm1 b = nb_x7thm1 nb1.

Section S.
Context (lm : libm) (ACC : accurate lm).
Notation B := (B64Ops lm).

Definition near_same (P0 : R) (E : eb) (nb : nbounds) : Prop := forall (r : InitlReturn b64) (r' : InitlReturn R) (s : Satrec b64) (s' : Satrec R),
  apx (ir_ao r) (ir_ao r') aoB -> apx (ir_cosio r) (ir_cosio r') cosB -> apx (ir_cosio2 r) (ir_cosio2 r') cos2B ->
  apx (ir_con42 r) (ir_con42 r') con42B -> apx (ir_rteosq r) (ir_rteosq r') rteB ->
  apx (ir_omeosq r) (ir_omeosq r') omeB -> apx (ir_sinio r) (ir_sinio r') sinB -> apx (ir_posq r) (ir_posq r') posqB -> apx (ir_rp r) (ir_rp r') rpB ->
  P0 <= ir_rp r' -> ir_rp r' = ir_ao r' * (1 - sr_ecco s') -> ir_rp r' * ir_rp r' <= ir_posq r' ->
  @flt _ B (@L _ B 1 4) (sr_ecco s) = @flt _ ROps (@L _ ROps 1 4) (sr_ecco s') ->
  apx (sr_ecco s) (sr_ecco s') E -> apx (sr_no s) (sr_no s') noB -> apx (sr_con41 s) (sr_con41 s') con41B ->
  apx (sr_bstar s) (sr_bstar s') in_bst -> apx (sr_argpo s) (sr_argpo s') in_ang -> apx (sr_mo s) (sr_mo s') in_ang ->
  near_ok nb (@sgp4init_near _ B r s) (@sgp4init_near _ ROps r' s').
(** [br]: is the eccentricity above 1e-4? *)
Definition near_spec (P0 : R) (br : bool) (E : eb) (nb : nbounds) : Prop := forall (r : InitlReturn b64) (r' : InitlReturn R) (s : Satrec b64) (s' : Satrec R),
  apx (ir_ao r) (ir_ao r') aoB -> apx (ir_cosio r) (ir_cosio r') cosB -> apx (ir_cosio2 r) (ir_cosio2 r') cos2B ->
  apx (ir_con42 r) (ir_con42 r') con42B -> apx (ir_rteosq r) (ir_rteosq r') rteB ->
  apx (ir_omeosq r) (ir_omeosq r') omeB -> apx (ir_sinio r) (ir_sinio r') sinB -> apx (ir_posq r) (ir_posq r') posqB -> apx (ir_rp r) (ir_rp r') rpB ->
  P0 <= ir_rp r' -> ir_rp r' = ir_ao r' * (1 - sr_ecco s') -> ir_rp r' * ir_rp r' <= ir_posq r' ->
  @flt _ B (@L _ B 1 4) (sr_ecco s) = br -> @flt _ ROps (@L _ ROps 1 4) (sr_ecco s') = br ->
  apx (sr_ecco s) (sr_ecco s') E -> apx (sr_no s) (sr_no s') noB -> apx (sr_con41 s) (sr_con41 s') con41B ->
  apx (sr_bstar s) (sr_bstar s') in_bst -> apx (sr_argpo s) (sr_argpo s') in_ang -> apx (sr_mo s) (sr_mo s') in_ang ->
  near_ok nb (@sgp4init_near _ B r s) (@sgp4init_near _ ROps r' s').
Lemma near_either P0 br E nb : near_same P0 E nb -> near_spec P0 br E nb.
Proof. intros H r r' s s' H1 H2 H3 H4 H5 H6 H7 H8 H9 H10 H11 H12 H13 H14. apply H; try assumption. now rewrite H13, H14. Qed.
Definition low_spec (E : eb) (b : lbounds) : Prop := forall (r : InitlReturn b64) (r' : InitlReturn R) (s : Satrec b64) (s' : Satrec R),
  apx (ir_ao r) (ir_ao r') aoB -> apx (ir_cosio r) (ir_cosio r') cosB -> apx (ir_cosio2 r) (ir_cosio2 r') cos2B ->
  apx (ir_con42 r) (ir_con42 r') con42B -> apx (ir_rteosq r) (ir_rteosq r') rteB ->
  apx (ir_omeosq r) (ir_omeosq r') omeB -> apx (ir_sinio r) (ir_sinio r') sinB -> apx (ir_posq r) (ir_posq r') posqB -> apx (ir_rp r) (ir_rp r') rpB ->
  10246 / 10000 <= ir_rp r' <= 103434 / 100000 -> ir_rp r' = ir_ao r' * (1 - sr_ecco s') -> ir_rp r' * ir_rp r' <= ir_posq r' ->
  apx (sr_ecco s) (sr_ecco s') E -> apx (sr_no s) (sr_no s') noB -> apx (sr_con41 s) (sr_con41 s') con41B ->
  apx (sr_bstar s) (sr_bstar s') in_bst -> apx (sr_argpo s) (sr_argpo s') in_ang ->
  low_ok b (@sgp4init_near _ B r s) (@sgp4init_near _ ROps r' s').
Definition drag_spec (lo : R) (nb : nbounds) (db : dbounds) : Prop := forall ao ao' tsi tsi' sfour sfour' (s : Satrec b64) (s' : Satrec R),
  sr_isimp s = 0%Z -> sr_isimp s' = 0%Z -> apx ao ao' aoB -> lo <= ao' -> apx tsi tsi' (nb_tsi nb) -> apx sfour sfour' (nb_sfour nb) ->
  apx (sr_cc1 s) (sr_cc1 s') (nb_cc1 nb) ->
  drag_ok db (@sgp4init_drag _ B ao tsi sfour s) (@sgp4init_drag _ ROps ao' tsi' sfour' s').

Lemma boot_rest P0 T br E nb db lo r r' a a' s s' : near_spec P0 br E nb -> drag_spec lo nb db -> per_same nb ->
  apx (ir_ao r) (ir_ao r') aoB -> apx (ir_cosio r) (ir_cosio r') cosB -> apx (ir_cosio2 r) (ir_cosio2 r') cos2B ->
  apx (ir_con42 r) (ir_con42 r') con42B -> apx (ir_rteosq r) (ir_rteosq r') rteB ->
  apx (ir_omeosq r) (ir_omeosq r') omeB -> apx (ir_sinio r) (ir_sinio r') sinB -> apx (ir_posq r) (ir_posq r') posqB -> apx (ir_rp r) (ir_rp r') rpB ->
  P0 <= ir_rp r' -> ir_rp r' = ir_ao r' * (1 - sr_ecco a') -> ir_rp r' * ir_rp r' <= ir_posq r' ->
  @flt _ B (@L _ B 1 4) (sr_ecco a) = br -> @flt _ ROps (@L _ ROps 1 4) (sr_ecco a') = br ->
  apx (sr_ecco a) (sr_ecco a') E -> apx (sr_no a) (sr_no a') noB -> apx (sr_con41 a) (sr_con41 a') con41B ->
  apx (sr_bstar a) (sr_bstar a') in_bst -> apx (sr_argpo a) (sr_argpo a') in_ang -> apx (sr_mo a) (sr_mo a') in_ang ->
  apx (sr_nodeo a) (sr_nodeo a') in_ang -> apx (sr_inclo a) (sr_inclo a') in_inc -> sr_method a = MethodN -> sr_method a' = MethodN ->
  sr_ecco a' < 1 -> lo * (1 - sr_ecco a') <= P0 ->
  (let n := @sgp4init_near _ B r a in s = @sgp4init_drag _ B (ir_ao r) (ne_tsi n) (ne_sfour n) (ne_s n)) ->
  (let n := @sgp4init_near _ ROps r' a' in s' = @sgp4init_drag _ ROps (ir_ao r') (ne_tsi n) (ne_sfour n) (ne_s n)) ->
  sr_method s = MethodN /\ sr_method s' = MethodN /\ per_ok s s' /\ (forall t t', apx t t' T -> sec_in T E nb db (st t s) (st t' s')).
Proof.
  intros NEAR DRAG (PS1 & PS2 & PS3 & PS4) Jao Jci Jci2 J42 Jrt Jom Jsi Jpo Jrp RPc RE RS BR BR2 HeE Jno J41 Hbs Harg Hmo Hnode Hi M M' E1 LO.
  pose proof (NEAR r r' a a' Jao Jci Jci2 J42 Jrt Jom Jsi Jpo Jrp RPc RE RS BR BR2 HeE Jno J41 Hbs Harg Hmo) as N.
  pose proof (near_fields (FO := B) r a) as FB. pose proof (near_fields (FO := ROps) r' a') as FR. cbv zeta in FB, FR.
  generalize dependent (@sgp4init_near _ B r a). generalize dependent (@sgp4init_near _ ROps r' a'). intros n' FR n N FB EQ EQ'. cbv zeta in EQ, EQ'.
  destruct FB as (C1 & C2 & C3 & C4 & C5 & C6 & C7 & C8 & C9). destruct FR as (D1 & D2 & D3 & D4 & D5 & D6 & D7 & D8 & D9). rewrite <- C1, <- D1 in HeE. rewrite <- C2, <- D2 in Jno. rewrite <- C3, <- D3 in J41.
  rewrite <- C4, <- D4 in Hbs. rewrite <- C5, <- D5 in Harg. rewrite <- C6, <- D6 in Hmo. rewrite <- C7, <- D7 in Hnode. rewrite <- C8, <- D8 in Hi. rewrite M in C9. rewrite M' in D9.
  destruct N as (N1 & N2 & N3 & N4 & N5 & N6 & N7 & N8 & N9 & N10 & N11 & N12 & N13 & N14 & N15 & N16 & N17 & N18 & N19 & Z1 & Z2).
  assert (AL : lo <= ir_ao r') by (rewrite RE in RPc; apply (Rmult_le_reg_r (1 - sr_ecco a')); [lra|lra]).
  pose proof (DRAG (ir_ao r) (ir_ao r') (ne_tsi n) (ne_tsi n') (ne_sfour n) (ne_sfour n') (ne_s n) (ne_s n') Z1 Z2 Jao AL N18 N19 N2) as DR.
  pose proof (drag_keep (FO := B) (ir_ao r) (ne_tsi n) (ne_sfour n) (ne_s n)) as KB. pose proof (drag_keep (FO := ROps) (ir_ao r') (ne_tsi n') (ne_sfour n') (ne_s n')) as KR.
  rewrite <- EQ in DR, KB. rewrite <- EQ' in DR, KR. clear EQ EQ'.
  pose proof (f_equal k_method KB) as MB. pose proof (f_equal k_method KR) as MR. cbn [k_method keep] in MB, MR.
  split; [now rewrite MB|]. split; [now rewrite MR|]. split.
  - apply (per_intro s (ne_s n) s' (ne_s n') KB KR). unfold per_ok. rewrite <- PS1, <- PS2, <- PS3, <- PS4. repeat (split; [assumption|]). assumption.
  - intros t t' Ht. apply (sec_intro T E nb db s (ne_s n) s' (ne_s n') t t' KB KR); try assumption. now split.
Qed.

Lemma low_rest E b r r' a a' s s' : low_spec E b -> lper_same b ->
  apx (ir_ao r) (ir_ao r') aoB -> apx (ir_cosio r) (ir_cosio r') cosB -> apx (ir_cosio2 r) (ir_cosio2 r') cos2B ->
  apx (ir_con42 r) (ir_con42 r') con42B -> apx (ir_rteosq r) (ir_rteosq r') rteB ->
  apx (ir_omeosq r) (ir_omeosq r') omeB -> apx (ir_sinio r) (ir_sinio r') sinB -> apx (ir_posq r) (ir_posq r') posqB -> apx (ir_rp r) (ir_rp r') rpB ->
  10246 / 10000 <= ir_rp r' <= 103434 / 100000 -> ir_rp r' = ir_ao r' * (1 - sr_ecco a') -> ir_rp r' * ir_rp r' <= ir_posq r' ->
  apx (sr_ecco a) (sr_ecco a') E -> apx (sr_no a) (sr_no a') noB -> apx (sr_con41 a) (sr_con41 a') con41B ->
  apx (sr_bstar a) (sr_bstar a') in_bst -> apx (sr_argpo a) (sr_argpo a') in_ang -> apx (sr_mo a) (sr_mo a') in_ang ->
  apx (sr_nodeo a) (sr_nodeo a') in_ang -> apx (sr_inclo a) (sr_inclo a') in_inc -> sr_method a = MethodN -> sr_method a' = MethodN ->
  (let n := @sgp4init_near _ B r a in s = @sgp4init_drag _ B (ir_ao r) (ne_tsi n) (ne_sfour n) (ne_s n)) ->
  (let n := @sgp4init_near _ ROps r' a' in s' = @sgp4init_drag _ ROps (ir_ao r') (ne_tsi n) (ne_sfour n) (ne_s n)) ->
  sr_method s = MethodN /\ sr_method s' = MethodN /\ per_ok s s' /\ (forall t t', apx t t' (Eb (-1440) 1440 0 0) -> low_in E b (st t s) (st t' s')).
Proof.
  intros NEAR (PS1 & PS2 & PS3 & PS4) Jao Jci Jci2 J42 Jrt Jom Jsi Jpo Jrp RPc RE RS HeE Jno J41 Hbs Harg Hmo Hnode Hi M M'.
  pose proof (NEAR r r' a a' Jao Jci Jci2 J42 Jrt Jom Jsi Jpo Jrp RPc RE RS HeE Jno J41 Hbs Harg) as N.
  pose proof (near_fields (FO := B) r a) as FB. pose proof (near_fields (FO := ROps) r' a') as FR. cbv zeta in FB, FR.
  generalize dependent (@sgp4init_near _ B r a). generalize dependent (@sgp4init_near _ ROps r' a'). intros n' FR n N FB EQ EQ'. cbv zeta in EQ, EQ'.
  destruct FB as (C1 & C2 & C3 & C4 & C5 & C6 & C7 & C8 & C9). destruct FR as (D1 & D2 & D3 & D4 & D5 & D6 & D7 & D8 & D9). rewrite <- C1, <- D1 in HeE. rewrite <- C2, <- D2 in Jno. rewrite <- C3, <- D3 in J41.
  rewrite <- C4, <- D4 in Hbs. rewrite <- C5, <- D5 in Harg. rewrite <- C6, <- D6 in Hmo. rewrite <- C7, <- D7 in Hnode. rewrite <- C8, <- D8 in Hi. rewrite M in C9. rewrite M' in D9.
  destruct N as (N1 & N2 & N3 & N4 & N5 & N6 & N7 & N8 & N9 & N10 & N11 & Z1 & Z2).
  pose proof (drag_keep (FO := B) (ir_ao r) (ne_tsi n) (ne_sfour n) (ne_s n)) as KB. pose proof (drag_keep (FO := ROps) (ir_ao r') (ne_tsi n') (ne_sfour n') (ne_s n')) as KR.
  rewrite <- EQ in KB. rewrite <- EQ' in KR. clear EQ EQ'.
  pose proof (f_equal k_method KB) as MB. pose proof (f_equal k_method KR) as MR. cbn [k_method keep] in MB, MR.
  split; [now rewrite MB|]. split; [now rewrite MR|]. split.
  - apply (per_intro s (ne_s n) s' (ne_s n') KB KR). unfold per_ok. rewrite <- PS1, <- PS2, <- PS3, <- PS4. repeat (split; [assumption|]). assumption.
  - intros t t' Ht. apply (low_intro E b s (ne_s n) s' (ne_s n') t t' KB KR); try assumption. now split.
Qed.

Lemma guards (r : InitlReturn b64) (r' : InitlReturn R) : apx (ir_omeosq r) (ir_omeosq r') omeB -> apx (ir_no r) (ir_no r') noB ->
  (@fle _ B (@L _ B 0 0) (ir_omeosq r) = true /\ @fle _ ROps (@L _ ROps 0 0) (ir_omeosq r') = true) /\
  (@fle _ B (@L _ B 225 0) (@fdiv _ B (@kTWO_PI _ B) (ir_no r)) = false /\ @fle _ ROps (@L _ ROps 225 0) (@fdiv _ ROps (@kTWO_PI _ ROps) (ir_no r')) = false).
Proof.
  intros Jom Jno. split.
  - eapply apx_le_true; [arel|exact Jom|vm_compute; reflexivity].
  - pose proof (rel_flat _ _ _ (rel_two_pi lm)) as HT. eapply apx_le_false; [arel|arel|vm_compute; reflexivity].
Qed.

Lemma il_acc (o : SGP4InitOptions b64) (o' : SGP4InitOptions R) : in_opsmode o = in_opsmode o' -> in_satn o = in_satn o' ->
  apx (in_xno o) (in_xno o') in_no -> apx (in_xinclo o) (in_xinclo o') in_inc -> apx (in_xecco o) (in_xecco o') in_ecc ->
  init_ok (in_xecco o') (@il _ B o) (@il _ ROps o').
Proof.
  intros X1 X2 Hno Hi He. rewrite (il_def (FO := B)), (il_def (FO := ROps)), X1, X2. apply (initl_acc lm ACC); assumption.
Qed.

Lemma boot P0 T br E nb db lo (o : SGP4InitOptions b64) (o' : SGP4InitOptions R) s0 s0' : near_spec P0 br E nb -> drag_spec lo nb db -> per_same nb -> 10346 / 10000 <= P0 ->
  in_opsmode o = in_opsmode o' -> in_satn o = in_satn o' ->
  apx (in_xno o) (in_xno o') in_no -> apx (in_xinclo o) (in_xinclo o') in_inc ->
  apx (in_xecco o) (in_xecco o') in_ecc -> apx (in_xecco o) (in_xecco o') E ->
  apx (in_xbstar o) (in_xbstar o') in_bst -> apx (in_xargpo o) (in_xargpo o') in_ang ->
  apx (in_xmo o) (in_xmo o') in_ang -> apx (in_xnodeo o) (in_xnodeo o') in_ang ->
  @flt _ B (@L _ B 1 4) (in_xecco o) = br -> @flt _ ROps (@L _ ROps 1 4) (in_xecco o') = br ->
  P0 <= ir_rp (@il _ ROps o') -> lo * (1 - in_xecco o') <= P0 ->
  forall s s', s = @sgp4init_elements _ B o s0 -> s' = @sgp4init_elements _ ROps o' s0' ->
  sr_method s = MethodN /\ sr_method s' = MethodN /\ per_ok s s' /\ (forall t t', apx t t' T -> sec_in T E nb db (st t s) (st t' s')).
Proof.
  intros NEAR DRAG PS PP X1 X2 Hno Hi He HeE Hbs Harg Hmo Hnode BR BR2 RP LO s s' ES ES'.
  pose proof (il_acc o o' X1 X2 Hno Hi He) as IA.
  pose proof (init_eq (FO := B) o s0) as EQ. pose proof (init_eq (FO := ROps) o' s0') as EQ'.
  pose proof (s1_fields (FO := B) o s0) as FB. pose proof (s1_fields (FO := ROps) o' s0') as FR. cbv zeta in FB, FR.
  rewrite <- ES in EQ. rewrite <- ES' in EQ'. clear ES ES'.
  revert IA EQ EQ' FB FR RP.
  generalize (@s1 _ B o s0). intros a. generalize (@s1 _ ROps o' s0'). intros a'. generalize (@il _ B o). intros r. generalize (@il _ ROps o'). intros r'.
  intros IA EQ EQ' FB FR RP. specialize (IA ltac:(lra)).
  destruct IA as (Jno & Jao & Jci & Jci2 & J41 & J42 & Jrt & Jom & Jsi & Jpo & Jrp & RE & RS).
  destruct (guards r r' Jom Jno) as ((T1 & T1') & T2 & T2'). specialize (EQ T1 T2). specialize (EQ' T1' T2').
  destruct FB as (B1 & B2 & B3 & B4 & B5 & B6 & B7 & B8 & B9). destruct FR as (R1 & R2 & R3 & R4 & R5 & R6 & R7 & R8 & R9).
  assert (E1 : in_xecco o' < 1) by (destruct He as (_ & I & _); cbn [el eh in_ecc] in I; unfold Q2R in I; cbn [Qnum Qden] in I; lra).
  rewrite <- R1 in HeE, RE, LO, E1, BR2. rewrite <- B1 in HeE, BR. rewrite <- R2 in Jno. rewrite <- B2 in Jno. rewrite <- R3 in J41. rewrite <- B3 in J41. rewrite <- R4, <- B4 in Hbs.
  rewrite <- R5, <- B5 in Harg. rewrite <- R6, <- B6 in Hmo. rewrite <- R7, <- B7 in Hnode. rewrite <- R8, <- B8 in Hi.
  apply (boot_rest P0 T br E nb db lo r r' a a' s s'); assumption.
Qed.

Lemma boot_low E b (o : SGP4InitOptions b64) (o' : SGP4InitOptions R) s0 s0' : low_spec E b -> lper_same b ->
  in_opsmode o = in_opsmode o' -> in_satn o = in_satn o' ->
  apx (in_xno o) (in_xno o') in_no -> apx (in_xinclo o) (in_xinclo o') in_inc ->
  apx (in_xecco o) (in_xecco o') in_ecc -> apx (in_xecco o) (in_xecco o') E ->
  apx (in_xbstar o) (in_xbstar o') in_bst -> apx (in_xargpo o) (in_xargpo o') in_ang ->
  apx (in_xmo o) (in_xmo o') in_ang -> apx (in_xnodeo o) (in_xnodeo o') in_ang ->
  10246 / 10000 <= ir_rp (@il _ ROps o') <= 103434 / 100000 ->
  forall s s', s = @sgp4init_elements _ B o s0 -> s' = @sgp4init_elements _ ROps o' s0' ->
  sr_method s = MethodN /\ sr_method s' = MethodN /\ per_ok s s' /\ (forall t t', apx t t' (Eb (-1440) 1440 0 0) -> low_in E b (st t s) (st t' s')).
Proof.
  intros NEAR PS X1 X2 Hno Hi He HeE Hbs Harg Hmo Hnode RP s s' ES ES'.
  pose proof (il_acc o o' X1 X2 Hno Hi He) as IA.
  pose proof (init_eq (FO := B) o s0) as EQ. pose proof (init_eq (FO := ROps) o' s0') as EQ'.
  pose proof (s1_fields (FO := B) o s0) as FB. pose proof (s1_fields (FO := ROps) o' s0') as FR. cbv zeta in FB, FR.
  rewrite <- ES in EQ. rewrite <- ES' in EQ'. clear ES ES'.
  revert IA EQ EQ' FB FR RP.
  generalize (@s1 _ B o s0). intros a. generalize (@s1 _ ROps o' s0'). intros a'. generalize (@il _ B o). intros r. generalize (@il _ ROps o'). intros r'.
  intros IA EQ EQ' FB FR RP. specialize (IA ltac:(lra)).
  destruct IA as (Jno & Jao & Jci & Jci2 & J41 & J42 & Jrt & Jom & Jsi & Jpo & Jrp & RE & RS).
  destruct (guards r r' Jom Jno) as ((T1 & T1') & T2 & T2'). specialize (EQ T1 T2). specialize (EQ' T1' T2').
  destruct FB as (B1 & B2 & B3 & B4 & B5 & B6 & B7 & B8 & B9). destruct FR as (R1 & R2 & R3 & R4 & R5 & R6 & R7 & R8 & R9).
  rewrite <- R1 in HeE, RE. rewrite <- B1 in HeE. rewrite <- R2 in Jno. rewrite <- B2 in Jno. rewrite <- R3 in J41. rewrite <- B3 in J41. rewrite <- R4, <- B4 in Hbs.
  rewrite <- R5, <- B5 in Harg. rewrite <- R6, <- B6 in Hmo. rewrite <- R7, <- B7 in Hnode. rewrite <- R8, <- B8 in Hi.
  apply (low_rest E b r r' a a' s s'); assumption.
Qed.

End S.
