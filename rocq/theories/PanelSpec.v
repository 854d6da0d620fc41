(** Independent specification for the contents of the plots of results and of site responses. *)
From Coq Require Import String List Bool Reals.
From Verif Require Import Base Pyf StatSpec CollectModel CollectSpec DepSpec WrapSpec.
Import ListNotations.
Open Scope string_scope.
Open Scope list_scope.

(** complete results of one or more events at [nf] frequencies *)
Definition full (nf : nat) (evs : list (string * evdict)) : Prop :=
  evs <> [] /\ forall id r, In (id, r) evs ->
    (forall c, In c ["g0"; "b"; "error"] -> exists l, dget String.eqb r c = Some (VList l) /\ List.length l = nf) /\
    exists v, dget String.eqb r "v0" = Some (VNum (FNum v)).

(** quantity [q] is calculated from the value [c] of the inversion *)
Definition calculated_from (q c : string) : Prop :=
  In (q, c) [("g0", "g0"); ("lsc", "g0"); ("Qsc", "g0"); ("b", "b"); ("li", "b"); ("Qi", "b"); ("error", "error")].

(** a missing number: not given or 0 *)
Definition missing (x : option R) : Prop := x = None \/ x = Some 0%R.
(** a given number *)
Definition given (x : option R) (v : R) : Prop := x = Some v /\ v <> 0%R.

(** the velocity for an event: the argument, else the one of the configuration, else the one used
    in the inversion of this event *)
Definition velocity_for (v0 conf : option R) (r : evdict) (v : R) : Prop :=
  given v0 v \/ (missing v0 /\ given conf v) \/
  (missing v0 /\ missing conf /\ dget String.eqb r "v0" = Some (VNum (FNum v))).

(** number of values that are not NaN *)
Definition count (l : list pyf) : nat := List.length (filter (fun x => match x with FNan => false | _ => true end) l).

(** standard deviation of the logarithms of positive numbers *)
Definition log_deviation (l : list R) : R :=
  let m := ln (geometric_mean l) in
  sqrt (fold_right Rplus 0 (map (fun x => (ln x - m) ^ 2) l) / (INR (List.length l) - 1)).

(** complete site responses of one or more events at [nf] frequencies *)
Definition full_sites (nf : nat) (evs : list (string * evdict)) : Prop :=
  evs <> [] /\ forall id r, In (id, r) evs ->
    (exists l, dget String.eqb r "error" = Some (VList l) /\ List.length l = nf) /\
    exists d, dget String.eqb r "R" = Some (VSites d) /\ NoDup (map fst d) /\ forall sta l, In (sta, l) d -> List.length l = nf.

(** a station has a site response at some frequency in some event *)
Definition has_value (sta : string) (evs : list (string * evdict)) : Prop :=
  exists l x, In l (site_lists sta evs) /\ In x l /\ x <> FNan.

(** the largest number of events with a site response at the same station and frequency *)
Definition most_observations (nf : nat) (evs : list (string * evdict)) (n : nat) : Prop :=
  (exists sta j, (j < nf)%nat /\ count (at_freq j (site_lists sta evs)) = n) /\
  forall sta j, (j < nf)%nat -> (count (at_freq j (site_lists sta evs)) <= n)%nat.
