(** Examples for C145. *)
From Coq Require Import Reals Lra.
Open Scope R_scope.

Lemma power_between x : 0 < x -> x < 1 -> x <= Rpower x (3 / 4) <= 1.
Proof.
  intros H L. assert (N : ln x < 0) by (rewrite <- ln_1; now apply ln_increasing). unfold Rpower. split.
  - rewrite <- (exp_ln x H) at 1. left. apply exp_increasing. lra.
  - rewrite <- exp_0. left. apply exp_increasing. lra.
Qed.

Lemma slope_late : 1 / 3 <= 1 / 1000 * (3000 * 2) * Rpower (1 - 3000 ^ 2 / (3000 * 2) ^ 2) (3 / 4).
Proof. replace (1 - 3000 ^ 2 / (3000 * 2) ^ 2) with (3 / 4) by field. pose proof (power_between (3 / 4) ltac:(lra) ltac:(lra)). lra. Qed.

Lemma slope_early : 1 / 100000 * (3000 * 2) * Rpower (1 - 3000 ^ 2 / (3000 * 2) ^ 2) (3 / 4) <= 1 / 4.
Proof. replace (1 - 3000 ^ 2 / (3000 * 2) ^ 2) with (3 / 4) by field. pose proof (power_between (3 / 4) ltac:(lra) ltac:(lra)). lra. Qed.

Lemma root_4 : sqrt (1000 ^ 2 * 5 ^ 2 - 3000 ^ 2) = 4000.
Proof. replace (1000 ^ 2 * 5 ^ 2 - 3000 ^ 2) with (4000 * 4000) by ring. apply sqrt_square. lra. Qed.
