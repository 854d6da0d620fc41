(** Independent specification for the choice of values by plots. *)
From Coq Require Import String List ZArith Reals.
From Verif Require Import Base RunModel.
Import ListNotations.
Open Scope string_scope.

(** the value [k] of event [id] in a result *)
Definition event_value (result : json) (id k : string) : res json :=
  match jget result "events" with
  | Ok evs => match jget evs id with
              | Ok e => jget e k
              | Err x => Err x
              end
  | Err x => Err x
  end.

(** the two settings of recalc_source *)
Definition settings : list string := ["seismic_moment_method"; "seismic_moment_options"].

(** the velocity is given by a number *)
Definition velocity_in (d : list (string * json)) (v : json) : Prop :=
  exists z, z <> 0%Z /\ v = JNum z /\ dget String.eqb d "v0" = Some v.

(** the velocity is missing, None or 0 *)
Definition no_velocity (d : list (string * json)) : Prop :=
  dget String.eqb d "v0" = None \/ dget String.eqb d "v0" = Some JNull \/ dget String.eqb d "v0" = Some (JNum 0).

(** the velocities of the events in the same order *)
Definition event_velocities (evs : list (string * json)) (l : list json) : Prop :=
  Forall2 (fun kv v => exists e, snd kv = JDict e /\ dget String.eqb e "v0" = Some v) evs l.

(** the results of the events and the configuration of a result *)
Definition parts (result : list (string * json)) (e : list (string * json)) (evs conf : list (string * json)) : Prop :=
  (exists id rest, evs = (id, JDict e) :: rest) /\
  dget String.eqb result "events" = Some (JDict evs) /\ dget String.eqb result "config" = Some (JDict conf).
