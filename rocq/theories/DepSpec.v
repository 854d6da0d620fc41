(** Independent specification for the data drawn by plots. *)
From Coq Require Import String List Bool Reals.
From Verif Require Import Base Pyf DepModel.
Import ListNotations.
Open Scope R_scope.

(** value of event i at frequency j *)
Definition at2 (rows : list (list pyf)) (i j : nat) : option pyf :=
  match nth_error rows i with Some row => nth_error row j | None => None end.

(** [ne] rows of [nf] values *)
Definition shape2 (ne nf : nat) (rows : list (list pyf)) : Prop :=
  length rows = ne /\ forall row, In row rows -> length row = nf.

(** velocity used for event i *)
Definition velocity_at (v0 : arg) (i : nat) : option R :=
  match v0 with
  | AScalar v => Some v
  | AArray l => nth_error l i
  | _ => None
  end.

(** a velocity for each of [ne] events, or one for all *)
Definition velocities (ne : nat) (v0 : arg) : Prop :=
  match v0 with
  | AScalar _ => True
  | AArray l => length l = ne
  | _ => False
  end.

(** [y] is the quantity [q] in its unit (1, km) for scattering coefficient or
    absorption parameter [x] at frequency [f] with velocity [v] *)
Definition derived (q : string) (x f v y : R) : Prop :=
  match q with
  | "lsc" => x * (1000 * y) = 1
  | "Qsc" => y * (2 * PI * f) = x * v
  | "li" => x * (1000 * y) = v
  | "Qi" => y * (2 * PI * f) = x
  | _ => y = x
  end%string.

(** the known quantities *)
Definition quantities : list string := ["g0"; "b"; "W"; ""; "error"; "lsc"; "Qsc"; "li"; "Qi"]%string.

(** increasing and decreasing lists *)
Fixpoint increasing (l : list R) : Prop :=
  match l with
  | a :: (b :: _) as t => a < b /\ increasing t
  | _ => True
  end.
Fixpoint decreasing (l : list R) : Prop :=
  match l with
  | a :: (b :: _) as t => b < a /\ decreasing t
  | _ => True
  end.

(** the first value that is given and not 0, or a default *)
Definition first_given (a b : option R) (d : R) : R -> Prop := fun r =>
  (exists x, a = Some x /\ x <> 0 /\ r = x) \/
  ((a = None \/ a = Some 0) /\ ((exists x, b = Some x /\ r = x) \/ (b = None /\ r = d))).

(** methods that fit a source model *)
Definition fit_method (m : option string) : Prop := m = Some "fit"%string \/ m = Some "robust_fit"%string.
