(** Specification for C137: source spectra with errors. *)
From Coq Require Import String List Reals.
From Verif Require Import Base SourceModel SourceSpec NoiseSpec.
Import ListNotations.
Open Scope list_scope.
Open Scope R_scope.

(** two values of a spectrum: both are missing, or the first one is the second one up to a factor
    between exp(-d) and exp(d) *)
Definition near_value (d : R) (x y : option R) : Prop :=
  match x, y with
  | Some a, Some b => 0 < b /\ up_to d a b
  | None, None => True
  | _, _ => False
  end.

Definition near_spectrum (d : R) : list (option R) -> list (option R) -> Prop := Forall2 (near_value d).

(** the optimisers stay in the search range *)
Definition stays1 (min1 : (R -> R) -> option (R * R) -> res R) : Prop :=
  forall f b x, min1 f b = Ok x -> within1 b x.
Definition staysN (minN : (list R -> R) -> list R -> list (option (R * R)) -> res (list R)) : Prop :=
  forall f x0 bs x, minN f x0 bs = Ok x -> Forall2 within1 bs x.

(** two moments in the results of two fits *)
Definition near_moments (d : R) (f f' : fitdict) : Prop :=
  exists M M', dget String.eqb f "M0" = Some (Some M) /\ dget String.eqb f' "M0" = Some (Some M') /\
    0 < M' /\ up_to d M M'.

(** two results of a fit: the same exception, no result at all, or moments up to a factor *)
Definition near_results (d : R) (r r' : res (option fitdict)) : Prop :=
  match r, r' with
  | Ok (Some f), Ok (Some f') => near_moments d f f'
  | Ok None, Ok None => True
  | Err e, Err e' => e = e'
  | _, _ => False
  end.
