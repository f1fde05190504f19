(** * pi to seventeen decimals, from Machin's formula *)
From Coq Require Import Reals Lra Machin Ratan SeqSeries.
Local Open Scope R_scope.

Lemma atan_partial x n : 0 < x < 1 ->
  sum_f_R0 (tg_alt (Ratan_seq x)) (S (2 * n)) <= atan x <= sum_f_R0 (tg_alt (Ratan_seq x)) (2 * n).
Proof.
  intros H. rewrite atan_eq_ps_atan by exact H. unfold ps_atan.
  destruct (in_int x) as [B|B]; [|exfalso; apply B; lra].
  destruct (ps_atan_exists_1 x B) as [l Hl].
  apply alternated_series_ineq; [apply Ratan_seq_decreasing; lra|apply Ratan_seq_converging; lra|exact Hl].
Qed.

Ltac alt := cbn [sum_f_R0 Nat.mul Nat.add]; unfold tg_alt, Ratan_seq; cbn [INR Nat.mul Nat.add pow]; lra.
Lemma pi_bounds : 3141592653589793238 / 1000000000000000000 < PI < 3141592653589793239 / 1000000000000000000.
Proof.
  pose proof Machin_4_5_239 as M. destruct (atan_partial (/ 5) 8 ltac:(lra)) as [A1 A2]. destruct (atan_partial (/ 239) 3 ltac:(lra)) as [B1 B2].
  assert (U1 : sum_f_R0 (tg_alt (Ratan_seq (/ 5))) (2 * 8) <= 197395559849880758371 / 1000000000000000000000) by alt.
  assert (U2 : 197395559849880758369 / 1000000000000000000000 <= sum_f_R0 (tg_alt (Ratan_seq (/ 5))) (S (2 * 8))) by alt.
  assert (V1 : sum_f_R0 (tg_alt (Ratan_seq (/ 239))) (2 * 3) <= 4184076002074723865 / 1000000000000000000000) by alt.
  assert (V2 : 4184076002074723864 / 1000000000000000000000 <= sum_f_R0 (tg_alt (Ratan_seq (/ 239))) (S (2 * 3))) by alt.
  lra.
Qed.
