(** Specification of station names and picks. *)
From Coq Require Import String Ascii List ZArith.
From Verif Require Import EventModel.
Import ListNotations.
Open Scope string_scope.

(** codes without a dot *)
Definition dot_free (s : string) : Prop :=
  forall a b, s <> (a ++ "." ++ b)%string.

(** a phase name of an onset: S or Sg, P or Pg, in any case *)
Definition names_onset (onset ph : string) : bool :=
  existsb (String.eqb ph)
    (if String.eqb onset "P" then ["P"; "p"; "PG"; "Pg"; "pG"; "pg"]
     else if String.eqb onset "S" then ["S"; "s"; "SG"; "Sg"; "sG"; "sg"]
     else []).

(** arrival a is a pick of the onset at the station *)
Definition is_pick (station onset : string) (a : arrival) : bool :=
  match pick a with
  | Some (seedid, _) =>
      String.eqb (get_station seedid) station && names_onset onset (phase a)
  | None => false
  end.

(** the time of the pick belonging to an arrival *)
Definition pick_time (a : arrival) : option Z := option_map snd (pick a).

(** the last item of a list *)
Definition last_item {A} (l : list A) : option A :=
  match rev l with [] => None | x :: _ => Some x end.

(** arrivals whose pick is looked at: onsets and the odd phases "" and "PS" *)
Definition followed (a : arrival) : Prop :=
  names_onset "P" (phase a) = true \/ names_onset "S" (phase a) = true
  \/ In (phase a) [""; "PS"; "Ps"; "pS"; "ps"].
