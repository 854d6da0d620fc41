(** Specification of the wrapper of the inversion. *)
From Coq Require Import String List Bool Reals ZArith Arith Sorting.Sorted.
From Verif Require Import Base Pyf StatSpec CollectModel CollectSpec WrapModel.
Import ListNotations.
Open Scope string_scope.
Open Scope list_scope.
Open Scope R_scope.

Section Order.
  Context {Ev : Type}.
  Variable time : Ev -> option Z.

  (** events with an origin *)
  Definition located (ev : Ev) : bool := match time ev with Some _ => true | None => false end.

  (** not after *)
  Definition not_after (a b : Ev) : Prop :=
    match time a, time b with Some s, Some t => (s <= t)%Z | _, _ => False end.

  (** strictly before *)
  Definition before (a b : Ev) : Prop :=
    match time a, time b with Some s, Some t => (s < t)%Z | _, _ => False end.
End Order.

(** the result of an event: the values of its own dictionary, or of the result of
    its inversion without the frequencies *)
Definition event_result (r : ires) (id : string) (d : evdict) : Prop :=
  forall k, dget String.eqb d k =
    match dget String.eqb (match dget String.eqb (ir_events r) id with Some e => e | None => [] end) k with
    | Some v => Some v
    | None => if String.eqb k "freq" then None else dget String.eqb (ir_items r) k
    end.

(** Python dictionaries have each key once *)
Definition proper (r : ires) : Prop :=
  NoDup (map fst (ir_items r)) /\
  (forall id e, dget String.eqb (ir_events r) id = Some e -> NoDup (map fst e)) /\
  (forall d, dget String.eqb (ir_items r) "R" = Some (VSites d) -> NoDup (map fst d)) /\
  (forall id e d, dget String.eqb (ir_events r) id = Some e -> dget String.eqb e "R" = Some (VSites d) -> NoDup (map fst d)).

(** the lists of a key over the events that have it *)
Definition lists_of (c : string) (evs : list (string * evdict)) : list (list pyf) :=
  flat_map (fun e => match dget String.eqb (snd e) c with Some (VList l) => [l] | _ => [] end) evs.

(** the site responses of a station over the events that have it *)
Definition site_lists (sta : string) (evs : list (string * evdict)) : list (list pyf) :=
  flat_map (fun e => match site_of (snd e) sta with Some l => [l] | None => [] end) evs.

(** values of frequency number j *)
Definition at_freq (j : nat) (rows : list (list pyf)) : list pyf := map (fun row => nth j row FNan) rows.

(** The plain or robust geometric mean.  Robust means need at least five
    values that are not all the same. *)
Definition mean_of (rlm : list R -> R * R) (robust : bool) (data : list pyf) (m : option R) : Prop :=
  match valid_data data with
  | [] => m = None
  | x :: l =>
      (robust = false \/ (List.length (x :: l) < 5)%nat \/ (forall y, In y l -> y = x) ->
        m = Some (geometric_mean (x :: l))) /\
      (robust = true -> (5 <= List.length (x :: l))%nat -> (exists y, In y l /\ y <> x) ->
        m = Some (exp (fst (rlm (map ln (x :: l))))))
  end.

(** means of a table, one per frequency *)
Definition means_of (rlm : list R -> R * R) (robust : bool) (rows : list (list pyf)) (l : list (option R)) : Prop :=
  (forall row, In row rows -> List.length row = List.length l) /\
  forall j, (j < List.length l)%nat -> mean_of rlm robust (at_freq j rows) (nth j l None).

(** the weights of the values are the inverse errors *)
Definition weights_at (errors : list pyf) : list R :=
  map (fun e => match e with FNum x => 1 / x | _ => 0 end) errors.

(** the weighted geometric mean *)
Definition weighted_mean_of (data errors : list pyf) (m : option R) : Prop :=
  match valid_weighted data (weights_at errors) with
  | [] => m = None
  | l => m = Some (weighted_geometric_mean l)
  end.

(** errors of the valid values are positive numbers *)
Definition errors_positive (data errors : list pyf) : Prop :=
  forall i x, valid (nth i data FNan) = Some x -> exists e, nth i errors FNan = FNum e /\ 0 < e.

(** Means as configured: weighted with the inverse errors, where the errors of
    valid values are positive; robust; or plain. *)
Definition averaged (rlm : list R -> R * R) (mean : option string) (errors rows : list (list pyf))
    (l : list (option R)) : Prop :=
  (mean <> Some "weighted" ->
     (mean = Some "robust" -> means_of rlm true rows l) /\ (mean <> Some "robust" -> means_of rlm false rows l)) /\
  (mean = Some "weighted" ->
     (forall row, In row rows -> List.length row = List.length l) /\
     forall j, (j < List.length l)%nat -> errors_positive (at_freq j rows) (at_freq j errors) ->
       weighted_mean_of (at_freq j rows) (at_freq j errors) (nth j l None)).

(** the result of an inversion can be used: frequencies, the event or coda
    normalization, known keys *)
Definition usable (coda_norm : bool) (id : string) (r : ires) : Prop :=
  dget String.eqb (ir_items r) "freq" <> None /\
  (dget String.eqb (ir_events r) id <> None \/ coda_norm = true) /\
  (forall k, In k (map fst (ir_items r)) -> In k SortModel.DUMP_ORDER) /\
  (forall e k, dget String.eqb (ir_events r) id = Some e -> In k (map fst e) -> In k SortModel.DUMP_ORDER).

(** the result of an event is complete *)
Definition complete (d : evdict) : Prop :=
  dget String.eqb d "error" <> None /\ (dget String.eqb d "g0" <> None -> dget String.eqb d "b" <> None).

(** two events have g0 and b and the same stations *)
Definition same_stations (d e : evdict) : Prop := forall sta, site_of d sta <> None -> site_of e sta <> None.

(** the averaged values have one number per frequency *)
Definition mean_values (Nf : nat) (d : evdict) : Prop :=
  (forall c v, In c ["g0"; "b"; "error"] -> dget String.eqb d c = Some v ->
     exists l, v = VList l /\ List.length l = Nf) /\
  (forall v, dget String.eqb d "R" = Some v ->
     exists s, v = VSites s /\ forall sta l, In (sta, l) s -> List.length l = Nf).

(** options of an inversion that are recorded in the configuration of its result *)
Definition recorded_options : list string :=
  ["invert_events_simultaneously"; "mean";
   "v0"; "rho0"; "R0"; "free_surface";
   "freqs"; "filter"; "optimize"; "g0_bounds"; "b_bounds";
   "seismic_moment_method"; "seismic_moment_options";
   "bulk_window"; "coda_normalization";
   "coda_window"; "noise_windows";
   "weight"; "remove_noise";
   "adjust_sonset"; "adjust_sonset_options";
   "remove_response"; "remove_response_options";
   "correct_for_elevation"; "skip";
   "G_module"].

(** names of values in a result *)
Definition result_names : list string :=
  ["M0"; "Mw"; "Mcat"; "fc"; "n"; "gamma"; "freq"; "g0"; "b"; "nstations"; "error";
   "W"; "sds"; "sds_error"; "fit_error"; "R"; "events"; "v0"; "config"].
