(** * Derivatives of the prime-vertical radius *)
From Coq Require Import Reals Lra Psatz.
From Coquelicot Require Import Coquelicot.
Local Open Scope R_scope.
Section S.
Context (A E : R).
Definition w (x : R) := 1 - E * (sin x * sin x).
Definition N (x : R) := A / sqrt (w x).
Lemma dN x : 0 < w x -> is_derive N x (N x * E * sin x * cos x / w x).
Proof.
 intros H. pose proof (sqrt_lt_R0 _ H) as Q. pose proof (sqrt_sqrt (w x) (Rlt_le _ _ H)) as QQ.
 unfold N, w. auto_derive; fold (w x). split; [exact H|split; [|trivial]]. 
 replace (1 + - (E * (sin x * sin x))) with (w x) by (unfold w; ring). lra.
 replace (1 + - (E * (sin x * sin x))) with (w x) by (unfold w; ring). 
 set (q := sqrt (w x)) in *. set (ww := w x) in *. replace (q * (q*1)) with ww by lra.
 rewrite <- QQ. field. lra.
Qed.
Lemma dx h c x : 0 < w x -> is_derive (fun l => (N l + h) * cos l * c) x ((N x * (1 - E) / w x + h) * - (sin x * c)).
Proof.
 intros H. evar_last. 
 - apply (is_derive_ext (fun l => scal c (scal (N l + h) (cos l)))). intros; unfold scal; cbn. unfold mult; cbn. ring.
   apply is_derive_scal. apply (is_derive_mult (fun l => N l + h) cos).
   apply (is_derive_plus N (fun _ => h)). apply dN; exact H. apply is_derive_const. apply is_derive_cos. intros; apply Rmult_comm.
 - unfold plus, mult, zero; cbn. unfold plus, mult, zero; cbn.
   pose proof (sin2_cos2 x) as S. unfold Rsqr in S.
   transitivity (- (sin x) * c * (N x * (w x - E * (cos x * cos x)) / w x + h)). field; lra.
   unfold w at 1. replace (sin x * sin x) with (1 - cos x * cos x) by lra. field. lra.
Qed.
Lemma dz h x : 0 < w x -> is_derive (fun l => (N l * (1 - E) + h) * sin l) x ((N x * (1 - E) / w x + h) * cos x).
Proof.
 intros H. evar_last. 
 - apply (is_derive_mult (fun l => N l * (1 - E) + h) sin).
   apply (is_derive_plus (fun l => N l * (1 - E)) (fun _ => h)). 
   apply (is_derive_ext (fun l => scal (1 - E) (N l))). intros; unfold scal; cbn. unfold mult; cbn. ring.
   apply is_derive_scal. apply dN; exact H. apply is_derive_const. apply is_derive_sin. intros; apply Rmult_comm.
 - unfold plus, mult, zero; cbn. unfold plus, mult, zero; cbn.
   transitivity (cos x * (N x * (1 - E) * (w x + E * (sin x * sin x)) / w x + h)). field; lra.
   unfold w at 1. field. lra.
Qed.
End S.
