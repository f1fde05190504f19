(** * Binary64 accuracy of the initialisation: mean motion, semi-major axis and their companions *)
From Coq Require Import ZArith QArith Reals Qreals Bool Lra Lia Psatz.
From Flocq Require Import Core IEEE754.BinarySingleNaN.
From Verif.Model Require Import Float Str Satrec Constants Initl.
From Verif.Spec Require Import LibmAccuracy.
From Verif.Inst Require Import RInst RTac B64 B64Facts B64Calc ApxCalc.
From Verif.Proofs Require Import CalcFun CalcPow ApxFun.
Local Open Scope R_scope.

Lemma cos_3 : - (9901 / 10000) <= cos 3.
Proof.
  pose proof pi_num as P. assert (E : cos 3 = - cos (PI - 3)) by (replace (PI - 3) with (Ropp 3 + PI) by ring; rewrite neg_cos, cos_neg; ring).
  rewrite E. pose proof (pre_cos_bound (PI - 3) 0 ltac:(lra) ltac:(lra)) as [_ U]. cbn in U. unfold cos_approx, cos_term in U. cbn in U.
  set (x := PI - 3) in *. assert (14159 / 100000 <= x <= 1416 / 10000) by (unfold x; lra). clearbody x. assert (Q : 2004 / 100000 <= x * x <= 2006 / 100000) by nra. replace (x * (x * (x * (x * 1)))) with ((x * x) * (x * x)) in U by ring. replace (x * (x * 1)) with (x * x) in U by ring. set (q := x * x) in *. clearbody q. assert (q * q <= 41 / 100000) by nra. lra.
Qed.

(** Elements: the binary64 ones and the exact ones, which may differ by what rounding the decimals of a
    two-line element set and converting their units costs. *)
Definition in_no := Eb (28 # 1000) (73 # 1000) (6 # 10 ^ 16) 0.
Definition in_ecc := Eb 0 (451 # 1000) (12 # 10 ^ 17) (1 # 10 ^ 60).
Definition in_inc := Eb 0 3 (6 # 10 ^ 16) (1 # 10 ^ 60).
Definition in_ang := Eb (-7) 7 (6 # 10 ^ 16) (1 # 10 ^ 60).
Definition in_bst := Eb (-1 # 1000) (1 # 1000) (12 # 10 ^ 17) (1 # 10 ^ 60).

(** bounds on what [initl] returns, on orbits with perigee above 98.9 km *)
Definition noB := Eb (27936 # 1000000) (73085 # 1000000) (86 # 10 ^ 17) 0.
Definition aoB := Eb (101160 # 100000) (192080 # 100000) (20 # 10 ^ 16) 0.
Definition cosB := Eb (- 9901 # 10000) 1 0 (205 # 10 ^ 17).
Definition cos2B := Eb 0 1 (12 # 10 ^ 17) (410 # 10 ^ 17).
Definition con41B := Eb (-3000001 # 1000000) (4000001 # 1000000) (12 # 10 ^ 17) (310 # 10 ^ 16).
Definition con42B := Eb (-4000001 # 1000000) (1000001 # 1000000) (12 # 10 ^ 17) (220 # 10 ^ 16).
Definition rteB := Eb (8925 # 10000) (1000001 # 1000000) (34 # 10 ^ 17) 0.
Definition omeB := Eb (79659 # 100000) (1000001 # 1000000) (22 # 10 ^ 17) 0.
Definition sinB := Eb (-1) 1 0 (205 # 10 ^ 17).
Definition posqB := Eb (103 # 100) (36896 # 10000) (46 # 10 ^ 16) 0.
Definition rpB := Eb (10155 # 10000) (192080 # 100000) (23 # 10 ^ 16) 0.
Definition init_ok (e' : R) (r : InitlReturn b64) (r' : InitlReturn R) : Prop :=
  10155 / 10000 <= ir_rp r' ->
  apx (ir_no r) (ir_no r') noB /\ apx (ir_ao r) (ir_ao r') aoB /\ apx (ir_cosio r) (ir_cosio r') cosB /\ apx (ir_cosio2 r) (ir_cosio2 r') cos2B /\
  apx (ir_con41 r) (ir_con41 r') con41B /\ apx (ir_con42 r) (ir_con42 r') con42B /\ apx (ir_rteosq r) (ir_rteosq r') rteB /\
  apx (ir_omeosq r) (ir_omeosq r') omeB /\ apx (ir_sinio r) (ir_sinio r') sinB /\ apx (ir_posq r) (ir_posq r') posqB /\ apx (ir_rp r) (ir_rp r') rpB /\
  ir_rp r' = ir_ao r' * (1 - e') /\ ir_rp r' * ir_rp r' <= ir_posq r'.

Section S.
Context (lm : libm) (ACC : accurate lm).
Notation B := (B64Ops lm).
Lemma initl_acc (ecco inclo no epoch : b64) (ecco' inclo' no' epoch' : R) om sn :
  apx ecco ecco' in_ecc -> apx inclo inclo' in_inc -> apx no no' in_no ->
  init_ok ecco' (@initl _ B (MkInitlOptions om MethodN sn ecco epoch inclo no)) (@initl _ ROps (MkInitlOptions om MethodN sn ecco' epoch' inclo' no')).
Proof.
  intros He Hi Hn. cbv beta iota delta [initl il_ecco il_epoch il_inclo il_opsmode il_no].
  set (P := init_ok ecco').
  do 5 astep. lets eccsq. lets omeosq. lets rteosq. lets cosio.
  assert (cosio' <= 1) by (rewrite Ecosio; apply COS_bound).
  assert (- (9901 / 10000) <= cosio').
  { destruct Hi as (_ & I & _). rewrite Ecosio. eapply Rle_trans; [apply cos_3|]. cbn [fcos ROps]. pose proof pi_num. cbn [el eh in_inc] in I. unfold Q2R in I. cbn [Qnum Qden] in I. apply cos_decr_1; lra. }
  ashrink Hcosio (- 9901 # 10000)%Q 1%Q. lets cosio2.
  assert (0 <= cosio2' <= 1) by (rewrite Ecosio2; cbn [fmul ROps]; nra). ashrink Hcosio2 0%Q 1%Q.
  lets ak. lets d1. lets delp. lets adel. lets del. lets no1. lets ao. lets sinio. lets po. lets con42. lets con41. lets ainv. lets posq. lets rp. askip. askip.
  unfold P, init_ok. cbn [ir_no ir_ao ir_cosio ir_cosio2 ir_con41 ir_con42 ir_rteosq ir_omeosq ir_sinio ir_posq ir_rp]. intros RP.
  pose proof He as (_ & [I0 I1] & _). cbn [el eh in_ecc] in I0, I1. unfold Q2R in I0, I1. cbn [Qnum Qden] in I0, I1.
  assert (RE : rp' = ao' * (1 - ecco')) by (rewrite Erp; rops; reflexivity).
  pose proof Hao as (_ & [A0 A1] & _). cbn [el eh] in A0, A1. unfold Q2R in A0, A1. cbn [Qnum Qden] in A0, A1.
  assert (AO : 1 <= ao') by lra.
  assert (PO : 10155 / 10000 <= po' <= 192080 / 100000).
  { rewrite Epo, Eomeosq, Eeccsq. rops. replace (ao' * (1 - ecco' * ecco')) with (ao' * (1 - ecco') * (1 + ecco')) by ring. split; nra. }
  assert (PQ : 103 / 100 <= posq' <= 36896 / 10000) by (rewrite Eposq; cbn [fmul ROps]; nra).
  assert (RQ : 10155 / 10000 <= rp' <= 192080 / 100000) by (rewrite RE; split; [rewrite <- RE; exact RP|nra]).
  ashrink Hposq (103 # 100)%Q (36896 # 10000)%Q. ashrink Hrp (10155 # 10000)%Q (192080 # 100000)%Q.
  assert (RS : rp' * rp' <= posq').
  { assert (rp' <= po') by (rewrite RE, Epo, Eomeosq, Eeccsq; rops; replace (ao' * (1 - ecco' * ecco')) with (ao' * (1 - ecco') * (1 + ecco')) by ring; nra).
    rewrite Eposq. cbn [fmul ROps]. apply Rmult_le_compat; lra. }
  asplit. split; [exact RE|exact RS].
Qed.
End S.
