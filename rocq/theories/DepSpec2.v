(** Independent specification of arrays of different lengths in derived quantities. *)
From Coq Require Import List.
From Verif Require Import Pyf.
Import ListNotations.

(** axes of lengths n and m are combined to one of length k *)
Definition axis (n m k : nat) : Prop := ((n = m /\ k = n) \/ (n = 1 /\ k = m) \/ (m = 1 /\ k = n))%nat.

(** entry i along an axis, a single entry is used everywhere *)
Definition along {A} (l : list A) (i : nat) (x : A) : Prop :=
  nth_error l i = Some x \/ l = [x].

(** entry of the rows *)
Definition along2 (rows : list (list pyf)) (i j : nat) (x : pyf) : Prop :=
  exists row, along rows i row /\ along row j x.
