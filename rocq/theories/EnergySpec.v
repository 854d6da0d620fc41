(** Specification of the observed energy density. *)
From Coq Require Import List Reals.
Import ListNotations.
Open Scope R_scope.

(** the energy density at sample k: the sum over the components of
    rho (v^2 + H(v)^2) / (2 df fs) *)
Definition energy_at (hilbert : list R -> list R) (stream : list (list R))
    (rho df fs : R) (k : nat) : R :=
  rho / (2 * df * fs) *
  fold_right Rplus 0
    (map (fun v => (nth k v 0) ^ 2 + (nth k (hilbert v) 0) ^ 2) stream).

(** n is the length of the shortest component *)
Definition shortest (stream : list (list R)) (n : nat) : Prop :=
  (exists v, In v stream /\ length v = n) /\
  (forall v, In v stream -> (n <= length v)%nat).

(** the lengths differ by more than tol samples *)
Definition lengths_differ (stream : list (list R)) (tol : Z) : Prop :=
  exists v w, In v stream /\ In w stream /\
    (tol < Z.of_nat (length v) - Z.of_nat (length w))%Z.

(** multiplying all data *)
Definition scale_stream (c : R) (stream : list (list R)) : list (list R) :=
  map (map (Rmult c)) stream.
