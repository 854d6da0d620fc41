(** C141: vocabulary for factors of the events before the alignment. *)
From Coq Require Import String List Reals.
From Verif Require Import Base StatModel SiteModel SiteSpec.
Import ListNotations.
Open Scope list_scope.
Open Scope R_scope.

(** missing values stay missing *)
Definition times_entry (e : entry) (k : R) : entry := match e with ENum r => ENum (r * k) | ENone => ENone | ENan => ENan end.

(** the value at frequency i times f i *)
Definition by_freq (f : nat -> R) (l : list entry) : list entry :=
  map (fun p => times_entry (snd p) (f (fst p))) (combine (seq 0 (List.length l)) l).

(** the same event with its site responses times and its energies divided by factors f *)
Definition regauged (f : nat -> R) (ev : evres) : evres :=
  {| evW := by_freq (fun i => / f i) (evW ev); evR := map (fun p => (fst p, by_freq f (snd p))) (evR ev) |}.

(** factors for all events *)
Definition regauged_events (a : string -> nat -> R) (events : list (string * option evres)) : list (string * option evres) :=
  map (fun p => (fst p, option_map (regauged (a (fst p))) (snd p))) events.

(** the same events with the same values *)
Definition same_values (Nf : nat) (out out' : list (string * evres)) : Prop :=
  Forall2 (fun p q => fst p = fst q /\ forall i, (i < Nf)%nat ->
    energy_of (snd p) i = energy_of (snd q) i /\ forall s, response_of (snd p) i s = response_of (snd q) i s) out out'.
