(** Specification of fixed parameters, distribution of bands and arrangement of
    results. *)
From Coq Require Import String List Bool Reals.
From Verif Require Import Base InvModel.
Import ListNotations.
Open Scope string_scope.
Open Scope list_scope.
Open Scope R_scope.

(** l has the entries of xs, transformed by f: one per band and in the same order *)
Definition aligned {A B} (f : A -> B) (xs : list A) (l : list B) : Prop :=
  List.length l = List.length xs /\
  forall i x, nth_error xs i = Some x -> nth_error l i = Some (f x).

(** a value of the result of a band; None without result *)
Definition of_band {V B} (f : bandres V -> option B) (r : option (bandres V)) : option B :=
  match r with Some r => f r | None => None end.

(** an entry of one of its dictionaries *)
Definition of_dict {V} (f : bandres V -> option (list (string * V))) (k : string)
    (r : option (bandres V)) : option V :=
  of_band (fun r => match f r with Some d => dget String.eqb d k | None => None end) r.

(** the number of stations *)
Definition count_of {V} (r : option (bandres V)) : nat :=
  match r with Some r => br_n r | None => 0%nat end.

(** the value of v0 is that of the last band with a result *)
Definition last_v0 {V} (rs : list (option (bandres V))) (v0 : R) : Prop :=
  exists l1 r l2, rs = l1 ++ Some r :: l2 /\ br_v0 r = v0 /\ forall x, In x l2 -> x = None.

(** the results of the bands, each calculated with the original streams *)
Definition each_alone {B S A} (work : B -> S -> S * res A) (s : S) (bs : list B) (l : list A) : Prop :=
  Forall2 (fun b x => snd (work b s) = Ok x) bs l.

(** a band has no values that were fixed for the command or are meaningless with
    coda normalisation *)
Definition expected {V} (cmd : command) (coda_norm : bool) (r : option (bandres V)) : Prop :=
  match r with
  | None => True
  | Some r => (cmd <> Go -> br_g0 r = None /\ br_b r = None) /\
              (cmd = Source \/ coda_norm = true -> br_R r = None) /\
              (coda_norm = true -> br_W r = None)
  end.
