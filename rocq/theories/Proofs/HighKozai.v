(** * Deep-space orbits of high eccentricity: binary64 accuracy of mean motion, semi-major axis and their companions *)
From Coq Require Import ZArith QArith Reals Qreals Bool Lra Lia Psatz.
From Flocq Require Import Core IEEE754.BinarySingleNaN.
From Verif.Model Require Import Float Str Satrec Constants Initl.
From Verif.Spec Require Import LibmAccuracy.
From Verif.Inst Require Import RInst RTac B64 B64Facts B64Calc ApxCalc.
From Verif.Proofs Require Import CalcFun CalcPow ApxFun AccInit AccNear Str3Init DeepKozai.
From Verif.Spec Require Str3.
Local Open Scope R_scope.

Definition hin_ecc := Eb (40 # 100) (745 # 1000) (12 # 10 ^ 17) (1 # 10 ^ 60).

Definition hnoB := Eb (39938 # 10 ^ 7) (279216 # 10 ^ 7) (86 # 10 ^ 17) 0.
Definition haoB := Eb (19214 # 10 ^ 4) (70252 # 10 ^ 4) (31 # 10 ^ 16) 0.
Definition hrteB := Eb (6614 # 10 ^ 4) (91653 # 10 ^ 5) (69 # 10 ^ 17) 0.
Definition homeB := Eb (43749 # 10 ^ 5) (84001 # 10 ^ 5) (57 # 10 ^ 17) 0.
Definition hposqB := Eb (70666 # 10 ^ 5) (34824 # 10 ^ 3) (76 # 10 ^ 16) (1 # 10 ^ 60).
Definition hrpB := Eb (48035 # 10 ^ 5) (42152 # 10 ^ 4) (37 # 10 ^ 16) 0.
Definition hinit_ok (e' : R) (r : InitlReturn b64) (r' : InitlReturn R) : Prop :=
  apx (ir_no r) (ir_no r') hnoB /\ apx (ir_ao r) (ir_ao r') haoB /\ apx (ir_cosio r) (ir_cosio r') dcosB /\ apx (ir_cosio2 r) (ir_cosio2 r') cos2B /\
  apx (ir_con41 r) (ir_con41 r') con41B /\ apx (ir_con42 r) (ir_con42 r') con42B /\ apx (ir_rteosq r) (ir_rteosq r') hrteB /\
  apx (ir_omeosq r) (ir_omeosq r') homeB /\ apx (ir_sinio r) (ir_sinio r') sinB /\ apx (ir_posq r) (ir_posq r') hposqB /\ apx (ir_rp r) (ir_rp r') hrpB /\
  ir_rp r' = ir_ao r' * (1 - e') /\ ir_omeosq r' = 1 - e' * e' /\ ir_no r' * ir_ao r' <= 54 / 1000 /\ ir_posq r' = (ir_rp r' * (1 + e')) * (ir_rp r' * (1 + e')) /\
  0 <= ir_cosio2 r' <= 1 /\ -1 <= ir_con41 r' <= 2.

(** mean motion times semi-major axis, from Kepler's third law *)
Lemma third_law n a : 0 < @kXKE _ ROps <= 744 / 10000 -> 0 < n -> 19 / 10 <= a -> a = @fpow _ ROps (@fdiv _ ROps (@kXKE _ ROps) n) (@kX2O3 _ ROps) -> n * a <= 54 / 1000.
Proof.
  intros K N A E. rewrite xke_T in K, E. replace (@kX2O3 _ ROps) with (2 / 3) in E by (symmetry; exact xo3_R). cbn [fpow fdiv ROps] in E.
  set (k := Str3.ke) in *. clearbody k. assert (X : 0 < k / n) by (apply Rdiv_lt_0_compat; lra).
  rewrite (pow23 _ X) in E. unfold Str3.two_thirds in E.
  assert (C : a ^ 3 = (k / n) ^ 2).
  { rewrite E. rewrite <- !Rpower_pow by (try apply exp_pos; exact X). rewrite Rpower_mult. f_equal. cbn. lra. }
  assert (Q : (n * a) ^ 2 * a = k ^ 2) by (replace ((n * a) ^ 2 * a) with (n ^ 2 * a ^ 3) by ring; rewrite C; field; lra).
  assert (P0 : 0 < n * a) by (apply Rmult_lt_0_compat; lra). set (p := n * a) in *. clearbody p.
  apply Rnot_lt_le. intros L. assert (p ^ 2 > 54 / 1000 * (54 / 1000)) by nra. assert (k ^ 2 <= 744 / 10000 * (744 / 10000)) by nra. nra.
Qed.

Section S.
Context (lm : libm) (ACC : accurate lm).
Notation B := (B64Ops lm).
Lemma initl_high (ecco inclo no epoch : b64) (ecco' inclo' no' epoch' : R) om sn :
  apx ecco ecco' hin_ecc -> apx inclo inclo' din_inc -> apx no no' din_no ->
  hinit_ok ecco' (@initl _ B (MkInitlOptions om MethodN sn ecco epoch inclo no)) (@initl _ ROps (MkInitlOptions om MethodN sn ecco' epoch' inclo' no')).
Proof.
  intros He Hi Hn. cbv beta iota delta [initl il_ecco il_epoch il_inclo il_opsmode il_no].
  set (P := hinit_ok ecco').
  do 5 astep. lets eccsq. lets omeosq. lets rteosq. lets cosio.
  assert (cosio' <= 1) by (rewrite Ecosio; apply COS_bound).
  assert (- (9423 / 10000) <= cosio').
  { destruct Hi as (_ & I & _). rewrite Ecosio. eapply Rle_trans; [apply cos_28|]. cbn [fcos ROps]. pose proof pi_num. cbn [el eh din_inc] in I. unfold Q2R in I. cbn [Qnum Qden] in I. apply cos_decr_1; lra. }
  ashrink Hcosio (- 9423 # 10000)%Q 1%Q. lets cosio2.
  assert (0 <= cosio2' <= 1) by (rewrite Ecosio2; cbn [fmul ROps]; nra). ashrink Hcosio2 0%Q 1%Q.
  lets ak. lets d1. lets delp. lets adel. lets del. lets no1. lets ao. lets sinio. lets po. lets con42. lets con41. lets ainv. lets posq. lets rp. askip. askip.
  unfold P, hinit_ok. cbn [ir_no ir_ao ir_cosio ir_cosio2 ir_con41 ir_con42 ir_rteosq ir_omeosq ir_sinio ir_posq ir_rp].
  assert (RE : rp' = ao' * (1 - ecco')) by (rewrite Erp; rops; reflexivity).
  assert (OE : omeosq' = 1 - ecco' * ecco') by (rewrite Eomeosq, Eeccsq; rops; reflexivity).
  assert (NA : no1' * ao' <= 54 / 1000).
  { ivl Hno1 I1. ivl Hao I2. aconst @kXKE. match goal with H : apx (@kXKE _ B) _ _ |- _ => ivl H I3 end. apply third_law; [lra|lra|lra|exact Eao]. }
  assert (PQ : posq' = rp' * (1 + ecco') * (rp' * (1 + ecco'))) by (rewrite Eposq, Epo, OE, RE; rops; ring).
  asplit. split; [exact RE|]. split; [exact OE|]. split; [exact NA|]. split; [exact PQ|]. split; [assumption|]. rewrite Econ41, Econ42. rops. lra.
Qed.
End S.
