(** Specification vocabulary for the command "qopen rt". *)
From Coq Require Import List Reals.
From Verif Require Import Base.
Import ListNotations.
Open Scope R_scope.

(** energy left after a time with an absorption length *)
Definition absorbed (la : option R) (c t g : R) : R :=
  match la with Some la => g * exp (- (c * t) / la) | None => g end.
