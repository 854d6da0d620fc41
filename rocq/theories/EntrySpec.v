(** Specification for C138: entries of the event catalogue. *)
From Coq Require Import String List Bool Reals ZArith.
From Verif Require Import Base PairsModel EntryModel.
Import ListNotations.
Open Scope list_scope.
Open Scope R_scope.

(** the entry that counts: the preferred one, otherwise the first one *)
Definition counts {A} (preferred : option A) (all : list A) (x : A) : Prop :=
  preferred = Some x \/ (preferred = None /\ exists rest, all = x :: rest).

(** no entry at all *)
Definition nothing {A} (preferred : option A) (all : list A) : Prop := preferred = None /\ all = [].

(** an event whose origin has a depth, or not *)
Definition has_depth (e : entry) : Prop :=
  exists o z, counts (e_pref_origin e) (e_origins e) o /\ eo_depth o = Some z.
Definition lacks_depth (e : entry) : Prop :=
  exists o, counts (e_pref_origin e) (e_origins e) o /\ eo_depth o = None.

(** an origin with all coordinates, as a point, and without *)
Definition point_of (o : eorigin) (p : origin) : Prop :=
  or_time p = eo_time o /\ eo_lat o = Some (or_lat p) /\ eo_lon o = Some (or_lon p) /\ eo_depth o = Some (or_depth p).
Definition whole (o : eorigin) : bool :=
  match eo_lat o, eo_lon o, eo_depth o with Some _, Some _, Some _ => true | _, _, _ => false end.
(** the event of a pair has an origin with all coordinates *)
Definition whole_pair (origins : list (string * eorigin)) (p : string * string) : bool :=
  match dget String.eqb origins (fst p) with Some o => whole o | None => false end.

(** the look-up of coordinates and the calculation of distances do not exit the program *)
Definition no_exit {T} (o : popts T) : Prop :=
  (forall ch t e, p_coords o ch t = Err e -> e <> KeyboardInterrupt /\ e <> SystemExit) /\
  (forall a b c d e, p_gps o a b c d = Err e -> e <> KeyboardInterrupt /\ e <> SystemExit).
