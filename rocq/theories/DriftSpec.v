(** C140: vocabulary for the alignment of site responses with errors. *)
From Coq Require Import String List Reals.
From Verif Require Import Base StatModel SiteModel SiteSpec.
Import ListNotations.
Open Scope list_scope.

(** number of site responses of all events at frequency i *)
Definition number_of_responses (evs : list evres) (i : nat) : nat :=
  List.length (flat_map (fun ev => flat_map (fun p => match at_ (snd p) i with ENum r => [r] | _ => [] end) (evR ev)) evs).

(** n common events lead from station s to station t *)
Inductive steps (evs : list evres) (ignore : option (list string)) (i : nat) : nat -> string -> string -> Prop :=
| steps_0 s : steps evs ignore i 0 s s
| steps_S n s t u : common_event evs ignore i s t -> steps evs ignore i n t u -> steps evs ignore i (Datatypes.S n) s u.

(** a robust estimate of the location lies between two of the data, as an average with weights does *)
Definition between_data (rlm : list R -> R * R) : Prop :=
  forall v, v <> [] -> exists lo hi, In lo v /\ In hi v /\ (lo <= fst (rlm v) <= hi)%R.
