(** * The orbital frame in exact arithmetic *)
From Coq Require Import ZArith List Bool Reals Lra.
From Flocq Require Import Core.Raux.
From Verif.Model Require Import Float Str Satrec Constants Vec3 Sgp4.
From Verif.Inst Require Import RInst RTac.
From Verif.Spec Require Import Sgp4Spec StateSpec Vectors3.
Local Open Scope R_scope.

Lemma sc2 x : sin x * sin x + cos x * cos x = 1.
Proof. exact (sin2_cos2 x). Qed.
Lemma c2s x : cos x * cos x = 1 - sin x * sin x.
Proof. pose proof (sc2 x); lra. Qed.

(** normal of the plane of node [om], inclination [i] *)
Definition normal (om i : R) : Vec3 R := MkVec3 (sin i * sin om) (- (sin i * cos om)) (cos i).

Section V.
Variables w om i : R.
Notation U := (@radial R ROps w om i).
Notation V := (@transverse R ROps w om i).

Ltac vec := unfold dot, cross, radial, transverse, normal; cbn [v_x v_y v_z]; rops.
Lemma frame_uu : dot U U = 1.
Proof. vec. pose proof (sc2 w); pose proof (sc2 om); pose proof (sc2 i).
  transitivity ((sin w * sin w) * (cos i * cos i * (sin om * sin om + cos om * cos om) + sin i * sin i)
    + cos w * cos w * (sin om * sin om + cos om * cos om)); [ring|]. rewrite H0.
  replace (cos i * cos i * 1 + sin i * sin i) with 1 by lra. lra. Qed.
Lemma frame_vv : dot V V = 1.
Proof. vec. pose proof (sc2 w); pose proof (sc2 om); pose proof (sc2 i).
  transitivity ((cos w * cos w) * (cos i * cos i * (sin om * sin om + cos om * cos om) + sin i * sin i)
    + sin w * sin w * (sin om * sin om + cos om * cos om)); [ring|]. rewrite H0.
  replace (cos i * cos i * 1 + sin i * sin i) with 1 by lra. lra. Qed.
Lemma frame_uv : dot U V = 0.
Proof. vec. pose proof (sc2 om); pose proof (sc2 i).
  transitivity ((sin w * cos w) * (cos i * cos i * (sin om * sin om + cos om * cos om) + sin i * sin i
    - (sin om * sin om + cos om * cos om))); [ring|]. rewrite H.
  replace (cos i * cos i * 1 + sin i * sin i - 1) with 0 by lra. ring. Qed.
Lemma frame_cross : cross U V = normal om i.
Proof. vec. pose proof (sc2 om) as A; pose proof (sc2 w) as B. f_equal.
  - transitivity (sin i * sin om * (sin w * sin w + cos w * cos w)); [ring|]. rewrite B. ring.
  - transitivity (- (sin i * cos om) * (sin w * sin w + cos w * cos w)); [ring|]. rewrite B. ring.
  - transitivity (cos i * (sin om * sin om + cos om * cos om) * (sin w * sin w + cos w * cos w)); [ring|].
    rewrite A, B. ring.
Qed.
Lemma frame_nn : dot (normal om i) (normal om i) = 1.
Proof. vec. pose proof (sc2 om) as A; pose proof (sc2 i) as B.
  transitivity (sin i * sin i * (sin om * sin om + cos om * cos om) + cos i * cos i); [ring|]. rewrite A. lra. Qed.
End V.

Lemma dot_scale_r k a b : dot a (scale k b) = k * dot a b.
Proof. unfold dot, scale; cbn [v_x v_y v_z]; ring. Qed.
Lemma dot_scale_l k a b : dot (scale k a) b = k * dot a b.
Proof. unfold dot, scale; cbn [v_x v_y v_z]; ring. Qed.
Lemma dot_plus_r a b c : dot a (plus b c) = dot a b + dot a c.
Proof. unfold dot, plus; cbn [v_x v_y v_z]; ring. Qed.
Lemma dot_plus_l a b c : dot (plus b c) a = dot b a + dot c a.
Proof. unfold dot, plus; cbn [v_x v_y v_z]; ring. Qed.
Lemma dot_comm a b : dot a b = dot b a.
Proof. unfold dot; ring. Qed.
Lemma norm_scale k a : norm (scale k a) = Rabs k * norm a.
Proof.
  unfold norm. rewrite dot_scale_l, dot_scale_r, <- Rmult_assoc. fold (Rsqr k).
  rewrite sqrt_mult_alt by apply Rle_0_sqr. rewrite sqrt_Rsqr_abs. reflexivity.
Qed.
Lemma cross_lin k a b u v : cross (scale k u) (plus (scale a u) (scale b v)) = scale (k * b) (cross u v).
Proof. unfold cross, scale, plus; cbn [v_x v_y v_z]; f_equal; ring. Qed.

(** position and velocity in vector form *)
Lemma position_vec r w om i : position_of r w om i = scale (6378137 / 1000 * r) (radial w om i).
Proof. unfold position_of, scale. cbv zeta. cbn [v_x v_y v_z]. rewrite kEARTH_RADIUS_R. rops. f_equal; ring. Qed.
Definition kmps : R := 6378137 / 1000 * (7436685316871385 / 100000000000000000) / 60.
Lemma velocity_vec a b w om i :
  velocity_of a b w om i = scale kmps (plus (scale a (radial w om i)) (scale b (transverse w om i))).
Proof.
  unfold velocity_of, scale, plus, kmps. cbv zeta. cbn [v_x v_y v_z]. rewrite kEARTH_RADIUS_R, kXKE_R. rops. f_equal; ring.
Qed.
