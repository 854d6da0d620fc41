(** Examples for C146. *)
From Coq Require Import Reals Lra.
Open Scope R_scope.

Lemma fade_late : 1 / 500 * 6000 ^ 2 / 2 <= sqrt ((3000 * 20) ^ 2 - 6000 ^ 2).
Proof.
  replace (1 / 500 * 6000 ^ 2 / 2) with (sqrt (36000 * 36000)) by (rewrite sqrt_square by lra; field).
  apply sqrt_le_1_alt. lra.
Qed.
