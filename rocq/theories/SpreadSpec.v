(** Mean square of the distance that energy has travelled. *)
From Coq Require Import Reals.
Open Scope R_scope.

(** Mean square of the distance of a random walk after the path T: steps in random directions whose
    lengths are exponentially distributed with the mean 1 / g0, in any dimension. *)
Definition walk_square (g0 T : R) : R := 2 / g0 ^ 2 * (g0 * T - 1 + exp (- (g0 * T))).
