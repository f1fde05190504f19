(** * C11: position and velocity share one orbital plane and frame *)
From Coq Require Import ZArith List Bool Reals Lra.
From Flocq Require Import Core.Raux.
From Verif.Model Require Import Float Str Satrec Constants Vec3 Sgp4.
From Verif.Inst Require Import RInst RTac B64.
From Verif.Proofs Require Import Sgp4Errors StateFacts FrameR.
From Verif.Spec Require Import Sgp4Spec StateSpec Vectors3.
From Verif.Golden Require Import RSat Sats.
Local Open Scope R_scope.

(** In every arithmetic the returned state is the state of the theory's osculating elements
    (Spec/StateSpec.v) at that time, operation for operation. *)
Theorem C11_state_formula :
  forall (F : Type) (FO : FloatOps F) fuel (s s' : Satrec F) (t : F) v,
    sgp4 fuel s t = Done (s', Ok v) ->
    g4_position v = position_at s t /\ g4_velocity v = velocity_at s t.
Proof. intros F FO fuel s s' t v H. apply sgp4_state in H. destruct H as [-> _]. split; reflexivity. Qed.
Print Assumptions C11_state_formula.

(** Exact arithmetic: there is an orthonormal pair (u, v), the radial and transverse direction, with
    u x v the normal of the plane of the osculating node and inclination; the position is along u, the
    velocity in the plane of u and v. *)
Theorem C11_one_frame :
  forall fuel (s s' : Satrec R) (t : R) g,
    sgp4 fuel s t = Done (s', Ok g) ->
    exists u v : Vec3 R,
      dot u u = 1 /\ dot v v = 1 /\ dot u v = 0 /\
      cross u v = normal (osc_node s t) (osc_incl s t) /\
      g4_position g = scale (6378137 / 1000 * osc_radius s t) u /\
      g4_velocity g = scale kmps (plus (scale (osc_rdot s t) u) (scale (osc_rfdot s t) v)).
Proof.
  intros fuel s s' t g H. apply sgp4_state in H. destruct H as [-> D]. cbn [g4_position g4_velocity].
  exists (radial (osc_arglat s t) (osc_node s t) (osc_incl s t)), (transverse (osc_arglat s t) (osc_node s t) (osc_incl s t)).
  split; [apply frame_uu|]. split; [apply frame_vv|]. split; [apply frame_uv|]. split; [apply frame_cross|].
  split; [apply position_vec|apply velocity_vec].
Qed.
Print Assumptions C11_one_frame.

(** Consequences in terms of the returned vectors alone: their lengths, their inner product, and the
    angular momentum, which is along the plane's normal, so both lie in that plane. *)
Theorem C11_plane :
  forall fuel (s s' : Satrec R) (t : R) g,
    sgp4 fuel s t = Done (s', Ok g) ->
    let p := g4_position g in let w := g4_velocity g in
    let n := normal (osc_node s t) (osc_incl s t) in
    let re := 6378137 / 1000 in
    norm p = re * osc_radius s t /\
    norm w = kmps * sqrt (osc_rdot s t * osc_rdot s t + osc_rfdot s t * osc_rfdot s t) /\
    dot p w = re * kmps * osc_radius s t * osc_rdot s t /\
    cross p w = scale (re * kmps * osc_radius s t * osc_rfdot s t) n /\
    dot p n = 0 /\ dot w n = 0 /\ dot n n = 1.
Proof.
  intros fuel s s' t g H. pose proof H as H0. apply sgp4_state in H0. destruct H0 as [_ D].
  unfold decayed in D. rewrite radius_osc in D. rops_in D. apply Rlt_bool_iff_f in D.
  apply C11_one_frame in H. destruct H as (u & v & UU & VV & UV & N & P & W). cbv zeta. rewrite P, W, <- N.
  assert (K : 0 <= kmps) by (unfold kmps; lra).
  split; [rewrite norm_scale; unfold norm; rewrite UU, sqrt_1, Rmult_1_r, Rabs_pos_eq; lra|].
  split.
  { rewrite norm_scale, Rabs_pos_eq by exact K. f_equal. unfold norm. f_equal.
    rewrite dot_plus_l, !dot_plus_r, !dot_scale_l, !dot_scale_r, UU, VV, UV, (dot_comm v u), UV. ring. }
  split. { rewrite dot_scale_l, dot_scale_r, dot_plus_r, !dot_scale_r, UU, UV. ring. }
  split. { unfold cross, scale, plus; cbn [v_x v_y v_z]; f_equal; ring. }
  split; [unfold dot, cross, scale; cbn [v_x v_y v_z]; ring|].
  split; [unfold dot, cross, scale, plus; cbn [v_x v_y v_z]; ring|].
  rewrite N. apply frame_nn.
Qed.
Print Assumptions C11_plane.

(** Non-vacuity: the record of Golden/RSat.v in exact arithmetic, and a low orbit and a deep-space orbit
    in binary64, are propagated successfully. *)
Example C11_example :
  (exists s' v, sgp4 0 rsat 0 = Done (s', Ok v)) /\
  (is_ok (returned (sgp4 0 leo (lit 60 0))), is_ok (returned (sgp4 10 ds (lit 1000 0)))) = (true, true).
Proof. split; [exact rsat_ok|]. vm_compute. reflexivity. Qed.
