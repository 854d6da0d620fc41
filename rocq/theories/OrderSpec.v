(** C143: vocabulary for the order of events and stations. *)
From Coq Require Import String List Permutation.
From Verif Require Import Base SiteModel SiteSpec.
Import ListNotations.

(** the same event with its stations in another order *)
Definition same_event (p q : string * option evres) : Prop :=
  fst p = fst q /\
  match snd p, snd q with
  | Some e, Some e' => evW e = evW e' /\ Permutation (evR e) (evR e')
  | None, None => True
  | _, _ => False
  end.

(** the same events in another order, with their stations in another order *)
Definition reordered (events events' : list (string * option evres)) : Prop :=
  exists mid, Permutation events mid /\ Forall2 same_event mid events'.
