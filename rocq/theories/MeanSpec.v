(** Specification for C139: mean values of data with errors. *)
From Coq Require Import List Reals.
From Verif Require Import Base Pyf StatSpec NoiseSpec.
Import ListNotations.
Open Scope R_scope.

(** two data: neither is a finite positive number, or both are and the first one is the second one up to a
    factor between exp(-d) and exp(d) *)
Definition near_datum (d : R) (x y : pyf) : Prop :=
  match valid x, valid y with
  | Some a, Some b => up_to d a b
  | None, None => True
  | _, _ => False
  end.

(** the same with an order instead *)
Definition below_datum (x y : pyf) : Prop :=
  match valid x, valid y with
  | Some a, Some b => a <= b
  | None, None => True
  | _, _ => False
  end.

(** two means: both are missing, or P *)
Definition both_means (P : R -> R -> Prop) (m m' : option R) : Prop :=
  match m, m' with
  | Some a, Some b => P a b
  | None, None => True
  | _, _ => False
  end.

(** weights that are not negative, or no weights *)
Definition weights_ok (ws : option (list R)) : Prop :=
  match ws with Some l => forall w, In w l -> 0 <= w | None => True end.

(** the robust mean falls back to the plain one for few data *)
Definition plain (robust : bool) (ws : option (list R)) (n fb : nat) : Prop :=
  robust = false \/ (ws = None /\ (n < fb)%nat).
