(** Frequency bands in another unit of frequency. *)
From Coq Require Import List Reals.
Open Scope R_scope.

(** a band with its central frequency in another unit *)
Definition rescaled (k : R) (b : R * (R * R)) : R * (R * R) := (k * fst b, (k * fst (snd b), k * snd (snd b))).
Definition rescaled_corners (k : R) (b : R * R) : R * R := (k * fst b, k * snd b).
