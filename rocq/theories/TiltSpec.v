(** C150: straight line fits of the same data in another form. *)
From Coq Require Import List Reals.
From Verif Require Import LineSpec.
Import ListNotations.
Open Scope R_scope.

(** Values times k, on a line with slope s and intercept h; places times l, shifted by e *)
Definition moved (k s h l e : R) (p : datum) : datum :=
  let '(y, x, w) := p in (k * y + s * x + h, l * x + e, w).

(** Weights times q *)
Definition reweighted (q : R) (p : datum) : datum := let '(y, x, w) := p in (y, x, q * w).

(** Data at the same places with the same weights: values of the third are p times the first plus q times the second *)
Inductive mixed (p q : R) : list datum -> list datum -> list datum -> Prop :=
  | mixed_nil : mixed p q [] [] []
  | mixed_cons y y' x w d d' d'' : mixed p q d d' d'' ->
      mixed p q ((y, x, w) :: d) ((y', x, w) :: d') ((p * y + q * y', x, w) :: d'').

(** Data at the same places with the same weights, values differ by at most eps *)
Inductive near (eps : R) : list datum -> list datum -> Prop :=
  | near_nil : near eps [] []
  | near_cons y y' x w d d' : Rabs (y' - y) <= eps -> near eps d d' -> near eps ((y, x, w) :: d) ((y', x, w) :: d').
