(** Independent specification for the weighted errors of geometric means. *)
From Coq Require Import List Reals.
From Verif Require Import StatSpec.
Import ListNotations.
Open Scope R_scope.

(** standard deviation of the logarithms of positive numbers with weights (pairs of weight and
    number), corrected for the effective number of data *)
Definition weighted_log_deviation (l : list (R * R)) : R :=
  let sum f := fold_right Rplus 0 (map f l) in
  let m := ln (weighted_geometric_mean l) in
  let total := sum (fun p => fst p) in
  sqrt (sum (fun p => fst p * (ln (snd p) - m) ^ 2) / total / (1 - sum (fun p => fst p ^ 2) / total ^ 2)).
