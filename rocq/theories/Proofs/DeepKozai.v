(** * Binary64 accuracy of the initialisation of deep-space orbits: mean motion, semi-major axis and their companions *)
From Coq Require Import ZArith QArith Reals Qreals Bool Lra Lia Psatz.
From Flocq Require Import Core IEEE754.BinarySingleNaN.
From Verif.Model Require Import Float Str Satrec Constants Initl.
From Verif.Spec Require Import LibmAccuracy.
From Verif.Inst Require Import RInst RTac B64 B64Facts B64Calc ApxCalc.
From Verif.Proofs Require Import CalcFun CalcPow ApxFun AccInit.
Local Open Scope R_scope.

Lemma cos_28 : - (9423 / 10000) <= cos (28 / 10).
Proof.
  pose proof pi_num as P. assert (E : cos (28 / 10) = - cos (PI - 28 / 10)) by (replace (PI - 28 / 10) with (Ropp (28 / 10) + PI) by ring; rewrite neg_cos, cos_neg; ring).
  rewrite E. pose proof (pre_cos_bound (PI - 28 / 10) 0 ltac:(lra) ltac:(lra)) as [_ U]. cbn in U. unfold cos_approx, cos_term in U. cbn in U.
  set (x := PI - 28 / 10) in *. assert (34159 / 100000 <= x <= 3416 / 10000) by (unfold x; lra). clearbody x. assert (Q : 116683 / 1000000 <= x * x <= 1167 / 10000) by nra. replace (x * (x * (x * (x * 1)))) with ((x * x) * (x * x)) in U by ring. replace (x * (x * 1)) with (x * x) in U by ring. set (q := x * x) in *. clearbody q. assert (q * q <= 1362 / 100000) by nra. lra.
Qed.

(** elements, up to what rounding decimals and converting units costs *)
Definition din_no := Eb (4 # 1000) (279 # 10000) (6 # 10 ^ 16) 0.
Definition din_ecc := Eb 0 (42 # 100) (12 # 10 ^ 17) (1 # 10 ^ 60).
Definition din_inc := Eb 0 (28 # 10) (6 # 10 ^ 16) (1 # 10 ^ 60).

(** bounds on what [initl] returns *)
Definition dnoB := Eb (39976 # 10000000) (279083 # 10000000) (86 # 10 ^ 17) 0.
Definition daoB := Eb (1922 # 1000) (7021 # 1000) (31 # 10 ^ 16) 0.
Definition dcosB := Eb (- 9423 # 10000) 1 0 (20 # 10 ^ 16).
Definition drteB := Eb (9075 # 10000) (1000001 # 1000000) (31 # 10 ^ 17) 0.
Definition domeB := Eb (8235 # 10000) (1000001 # 1000000) (20 # 10 ^ 17) 0.
Definition dposqB := Eb (25 # 10) (493 # 10) (70 # 10 ^ 16) 0.
Definition drpB := Eb (11147 # 10000) (7021 # 1000) (35 # 10 ^ 16) 0.
Definition dinit_ok (e' : R) (r : InitlReturn b64) (r' : InitlReturn R) : Prop :=
  apx (ir_no r) (ir_no r') dnoB /\ apx (ir_ao r) (ir_ao r') daoB /\ apx (ir_cosio r) (ir_cosio r') dcosB /\ apx (ir_cosio2 r) (ir_cosio2 r') cos2B /\
  apx (ir_con41 r) (ir_con41 r') con41B /\ apx (ir_con42 r) (ir_con42 r') con42B /\ apx (ir_rteosq r) (ir_rteosq r') drteB /\
  apx (ir_omeosq r) (ir_omeosq r') domeB /\ apx (ir_sinio r) (ir_sinio r') sinB /\ apx (ir_posq r) (ir_posq r') dposqB /\ apx (ir_rp r) (ir_rp r') drpB /\
  ir_rp r' = ir_ao r' * (1 - e') /\ ir_omeosq r' = 1 - e' * e'.

Section S.
Context (lm : libm) (ACC : accurate lm).
Notation B := (B64Ops lm).
Lemma initl_deep (ecco inclo no epoch : b64) (ecco' inclo' no' epoch' : R) om sn :
  apx ecco ecco' din_ecc -> apx inclo inclo' din_inc -> apx no no' din_no ->
  dinit_ok ecco' (@initl _ B (MkInitlOptions om MethodN sn ecco epoch inclo no)) (@initl _ ROps (MkInitlOptions om MethodN sn ecco' epoch' inclo' no')).
Proof.
  intros He Hi Hn. cbv beta iota delta [initl il_ecco il_epoch il_inclo il_opsmode il_no].
  set (P := dinit_ok ecco').
  do 5 astep. lets eccsq. lets omeosq. lets rteosq. lets cosio.
  assert (cosio' <= 1) by (rewrite Ecosio; apply COS_bound).
  assert (- (9423 / 10000) <= cosio').
  { destruct Hi as (_ & I & _). rewrite Ecosio. eapply Rle_trans; [apply cos_28|]. cbn [fcos ROps]. pose proof pi_num. cbn [el eh din_inc] in I. unfold Q2R in I. cbn [Qnum Qden] in I. apply cos_decr_1; lra. }
  ashrink Hcosio (- 9423 # 10000)%Q 1%Q. lets cosio2.
  assert (0 <= cosio2' <= 1) by (rewrite Ecosio2; cbn [fmul ROps]; nra). ashrink Hcosio2 0%Q 1%Q.
  lets ak. lets d1. lets delp. lets adel. lets del. lets no1. lets ao. lets sinio. lets po. lets con42. lets con41. lets ainv. lets posq. lets rp. askip. askip.
  unfold P, dinit_ok. cbn [ir_no ir_ao ir_cosio ir_cosio2 ir_con41 ir_con42 ir_rteosq ir_omeosq ir_sinio ir_posq ir_rp].
  assert (RE : rp' = ao' * (1 - ecco')) by (rewrite Erp; rops; reflexivity).
  assert (OE : omeosq' = 1 - ecco' * ecco') by (rewrite Eomeosq, Eeccsq; rops; reflexivity).
  asplit. split; [exact RE|exact OE].
Qed.
End S.
