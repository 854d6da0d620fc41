(** Specification of collected results. *)
From Coq Require Import String List Arith.
From Verif Require Import Base Pyf CollectModel.
Import ListNotations.
Open Scope string_scope.
Open Scope list_scope.

(** the events that have a result, in order *)
Fixpoint with_result (events : list (string * option evdict)) : list (string * evdict) :=
  match events with
  | [] => []
  | (id, Some r) :: l => (id, r) :: with_result l
  | (_, None) :: l => with_result l
  end.

(** the value of key c of an event, at frequency number freqi if given (v0 has
    no frequencies) *)
Definition value_at (freqi : option nat) (c : string) (r v : rval) : Prop :=
  match freqi with
  | None => v = r
  | Some i => if String.eqb c "v0" then v = r
              else exists l x, r = VList l /\ nth_error l i = Some x /\ v = VNum x
  end.

(** the stations of an event result and the list of a station *)
Definition site_of (r : evdict) (sta : string) : option (list pyf) :=
  match dget String.eqb r "R" with
  | Some (VSites d) => dget String.eqb d sta
  | _ => None
  end.

(** the events with result that have a value at the station *)
Definition with_site (events : list (string * option evdict)) (sta : string)
  : list (string * evdict) :=
  filter (fun e => match site_of (snd e) sta with Some _ => true | None => false end)
         (with_result events).

(** the events with result that have key c *)
Definition with_key (events : list (string * option evdict)) (c : string)
  : list (string * evdict) :=
  filter (fun e => dmem String.eqb (snd e) c) (with_result events).

(** dictionaries of stations have distinct keys *)
Definition sites_nodup (events : list (string * option evdict)) : Prop :=
  forall id r d, In (id, r) (with_result events) ->
    dget String.eqb r "R" = Some (VSites d) -> NoDup (map fst d).

(** a result as written by the inversion: lists over Nf frequencies, a number
    for v0, and such a list for each station *)
Definition well_formed (Nf : nat) (r : evdict) : Prop :=
  forall c v, dget String.eqb r c = Some v ->
    if String.eqb c "v0" then exists x, v = VNum x
    else if String.eqb c "R" then
      exists d, v = VSites d /\ forall sta l, In (sta, l) d -> List.length l = Nf
    else exists l, v = VList l /\ List.length l = Nf.

(** the collected keys *)
Definition collected (only : option (list string)) : list string :=
  match only with
  | None => ["g0"; "b"; "error"; "R"; "W"; "eventid"; "v0"]
  | Some l => l
  end.
