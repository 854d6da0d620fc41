(** Superposition of signals. *)
From Coq Require Import List Reals.
Import ListNotations.
Open Scope R_scope.

(** the signal a x + b y of two signals of the same length *)
Fixpoint mix (a b : R) (x y : list R) : list R :=
  match x, y with
  | u :: x', v :: y' => (a * u + b * v) :: mix a b x' y'
  | _, _ => []
  end.

(** signals of the same length which differ nowhere by more than e *)
Definition within (e : R) (x y : list R) : Prop := Forall2 (fun u v => Rabs (u - v) <= e) x y.
