(** Specification vocabulary for site responses. *)
From Coq Require Import String List Bool Reals Arith Relation_Operators.
From Verif Require Import Base StatModel SiteModel.
Import ListNotations.
Open Scope list_scope.

(** two stations in one of the sets *)
Definition together (sets : list (list string)) (a b : string) : Prop :=
  exists s, In s sets /\ In a s /\ In b s.

(** a chain of overlapping sets leads from a to b *)
Definition chained (sets : list (list string)) : string -> string -> Prop :=
  clos_refl_trans string (together sets).

(** no station is in two of the sets *)
Definition disjoint_sets (sets : list (list string)) : Prop :=
  ForallOrdPairs (fun a b => forall x, ~ (In x a /\ In x b)) sets.

(** value of a station's site response in an event at frequency i *)
Definition response_of (ev : evres) (i : nat) (sta : string) : option R :=
  match dget String.eqb (evR ev) sta with
  | Some l => match at_ l i with ENum r => Some r | _ => None end
  | None => None
  end.

(** source energy of an event at frequency i *)
Definition energy_of (ev : evres) (i : nat) : option R :=
  match at_ (evW ev) i with ENum r => Some r | _ => None end.

Definition ignored (ignore : option (list string)) (sta : string) : Prop :=
  match ignore with None => False | Some l => In sta l end.

(** stations with a site response that count *)
Definition observed (evs : list evres) (ignore : option (list string)) (i : nat) (sta : string) : Prop :=
  ~ ignored ignore sta /\ exists ev, In ev evs /\ response_of ev i sta <> None.

(** two such stations observed the same event *)
Definition common_event (evs : list evres) (ignore : option (list string)) (i : nat) (a b : string) : Prop :=
  ~ ignored ignore a /\ ~ ignored ignore b /\
  exists ev, In ev evs /\ response_of ev i a <> None /\ response_of ev i b <> None.

(** connected by a chain of common events *)
Definition connected (evs : list evres) (ignore : option (list string)) (i : nat) : string -> string -> Prop :=
  clos_refl_trans string (common_event evs ignore i).

(** a set of stations which is an area: all stations connected to one of them *)
Definition is_area (evs : list evres) (ignore : option (list string)) (i : nat) (a : list string) : Prop :=
  NoDup a /\ a <> [] /\
  forall s, In s a -> observed evs ignore i s /\ forall t, In t a <-> connected evs ignore i s t.

(** an area with the most stations *)
Definition is_largest_area (evs : list evres) (ignore : option (list string)) (i : nat) (a : list string) : Prop :=
  is_area evs ignore i a /\ forall b, is_area evs ignore i b -> (List.length b <= List.length a)%nat.

(** the dictionaries of an event have unique keys and Nf entries everywhere *)
Definition well_formed (Nf : nat) (ev : evres) : Prop :=
  NoDup (map fst (evR ev)) /\ List.length (evW ev) = Nf /\
  Forall (fun p => List.length (snd p) = Nf) (evR ev).

Open Scope R_scope.

(** all site responses of a station at frequency i *)
Definition responses (evs : list evres) (i : nat) (sta : string) : list R :=
  flat_map (fun ev => match response_of ev i sta with Some r => [r] | None => [] end) evs.

(** logarithm of the geometric mean *)
Definition mean_ln (l : list R) : R := rsum (map ln l) / INR (List.length l).

(** sum of squared residuals of rows (coefficients by column, right hand side) *)
Definition row_value (row : list (nat * R) * R) (x : nat -> R) : R :=
  rsum (map (fun p => snd p * x (fst p)) (fst row)) - snd row.
Definition sse (rows : list (list (nat * R) * R)) (x : nat -> R) : R :=
  rsum (map (fun row => row_value row x * row_value row x) rows).

(** a solver returning a least squares solution for every system in n unknowns *)
Definition least_squares (lsq : nat -> list (list (nat * R) * R) -> nat -> R) : Prop :=
  forall n rows, (forall row p, In row rows -> In p (fst row) -> (fst p < n)%nat) ->
  forall y, sse rows (lsq n rows) <= sse rows y.

(** stations whose response is pinned *)
Definition selected (station : staopt) (sta : string) : Prop :=
  match station with StaNone => True | StaStr s => sta = s | StaList l => In sta l end.

(** an arbitrary member of a set *)
Definition chooses_member (pick : list string -> string) : Prop := forall a, a <> [] -> In (pick a) a.

(** the requested response at frequency i *)
Definition requested (resp : response) (i : nat) (r : R) : Prop :=
  match resp with RScalar x => r = x | RList l => nth_error l i = Some r end.

(** events with a result *)
Definition present_events (events : list (string * option evres)) : list (string * evres) :=
  flat_map (fun p => match snd p with Some ev => [(fst p, ev)] | None => [] end) events.

(** an event with a site response has a source energy *)
Definition complete (i : nat) (evs : list evres) : Prop :=
  forall ev s, In ev evs -> response_of ev i s <> None -> energy_of ev i <> None.

Definition positive_responses (i : nat) (evs : list evres) : Prop :=
  forall ev s r, In ev evs -> response_of ev i s = Some r -> 0 < r.

(** t occurs in the string s *)
Definition occurs_in (t s : string) : Prop := exists a b, s = (a ++ t ++ b)%string.
