(** Properties C35, C63, C65, C66, C67: order of the events, separate inversion and
    mean results (/repo/qopen/core.py:1445-1538).  Theorems only. *)
From Coq Require Import String List Bool Reals Lra Lia ZArith Arith Permutation Sorting.Sorted.
From Verif Require Import Base Pyf SortModel StatSpec CollectModel CollectSpec WrapModel WrapSpec
  WrapProof WrapProof2 WrapProof3 WrapProof4 WrapEx.
Import ListNotations.
Open Scope string_scope.
Open Scope list_scope.
Open Scope R_scope.

(** C65: all events with origin, once, ordered by time.  The full property is for all
    catalogues; it is false for equal times and without any origin (see below) *)
Theorem C65_order_partial : forall Ev (time : Ev -> option Z) same events,
  (forall l1 a l2 b l3 t, events = l1 ++ a :: l2 ++ b :: l3 -> time a = Some t -> time b = Some t -> same a b = true) ->
  (exists ev, In ev events /\ time ev <> None) ->
  exists l, sort_events time same events = Ok l /\
    Permutation l (filter (located time) events) /\ StronglySorted (not_after time) l.
Proof. exact @sort_events_ok. Qed.
Print Assumptions C65_order_partial.

Example C65_order_partial_ex : (exists ev, In ev ex_events /\ snd ev <> None) /\
  (forall l1 a l2 b l3 t, ex_events = l1 ++ a :: l2 ++ b :: l3 -> snd a = Some t -> snd b = Some t -> ex_same a b = true).
Proof.
  split; [exists ("A", Some 5%Z); split; [now left|discriminate]|].
  intros l1 a l2 b l3 t E A B. destruct (ex_same a b) eqn:S; [reflexivity|].
  assert (X := sort_events_clash snd ex_same ex_events l1 a l2 b l3 t E A B S). discriminate.
Qed.

(** C65: distinct times *)
Theorem C65_distinct : forall Ev (time : Ev -> option Z) same events,
  NoDup (map time (filter (located time) events)) -> (exists ev, In ev events /\ time ev <> None) ->
  exists l, sort_events time same events = Ok l /\
    Permutation l (filter (located time) events) /\ StronglySorted (before time) l.
Proof. exact @sort_events_distinct. Qed.
Print Assumptions C65_distinct.

Example C65_distinct_ex : exists l, sort_events snd ex_same ex_events = Ok l /\
  Permutation l (filter (located snd) ex_events) /\ StronglySorted (before snd) l /\
  l = [("B", Some 3%Z); ("A", Some 5%Z); ("D", Some 9%Z)].
Proof. exact ex_order. Qed.

(** C65: different events with the same time cannot be sorted *)
Theorem C65_equal_times : forall Ev (time : Ev -> option Z) same events l1 a l2 b l3 t,
  events = l1 ++ a :: l2 ++ b :: l3 -> time a = Some t -> time b = Some t -> same a b = false ->
  sort_events time same events = Err TypeError.
Proof. exact @sort_events_clash. Qed.
Print Assumptions C65_equal_times.

(** C65: two events with the same origin time raise a TypeError *)
Theorem C65_equal_times_refuted : exists (events : list event),
  Forall (fun ev => snd ev <> None) events /\ NoDup (map fst events) /\
  sort_events snd ex_same events = Err TypeError.
Proof.
  exists [("A", Some 5%Z); ("B", Some 7%Z); ("C", Some 5%Z)]. split; [repeat constructor; discriminate|].
  split; [cbn; repeat constructor; cbn; intuition discriminate|reflexivity].
Qed.
Print Assumptions C65_equal_times_refuted.

(** C65: no event with origin *)
Theorem C65_no_origin : forall Ev (time : Ev -> option Z) same events,
  (forall ev, In ev events -> time ev = None) -> sort_events time same events = Err IndexError.
Proof. exact @sort_events_none. Qed.
Print Assumptions C65_no_origin.

Example C65_no_origin_ex : sort_events (@snd string (option Z)) ex_same [("A", None); ("B", None)] = Err IndexError.
Proof. reflexivity. Qed.

(** C65: events without origin raise an IndexError *)
Theorem C65_no_origin_refuted : exists (events : list event), events <> [] /\ NoDup (map fst events) /\
  sort_events snd ex_same events = Err IndexError.
Proof.
  exists [("A", None); ("B", None)]. split; [discriminate|]. split; [cbn; repeat constructor; cbn; intuition discriminate|reflexivity].
Qed.
Print Assumptions C65_no_origin_refuted.

(** C65: the results are in this order, too *)
Theorem C65_results : forall Ev C (time : Ev -> option Z) same evid rlm coda_norm invert mean (kwargs : list (string * C)) events r,
  (forall ev r, In ev events -> invert [ev] = Ok (Some r) -> proper r) ->
  NoDup (map evid events) ->
  invert_wrapper time same evid rlm coda_norm invert false mean kwargs events = Ok (Some r) ->
  exists order evs, Permutation order (filter (located time) events) /\ StronglySorted (not_after time) order /\
    dget String.eqb r "events" = Some (TEvents evs) /\
    map fst evs = map evid (filter (fun ev => match invert [ev] with Ok (Some _) => true | _ => false end) order).
Proof. exact @result_order. Qed.
Print Assumptions C65_results.

Example C65_results_ex : exists r,
  (forall ev r, In ev ex_events -> ex_invert [ev] = Ok (Some r) -> proper r) /\ NoDup (map fst ex_events) /\
  ex_wrapper ex_invert false None [("v0", "3500")] ex_events = Ok (Some r).
Proof. destruct ex_means as (r & H & _). exists r. split; [exact ex_proper|]. split; [exact ex_distinct|exact H]. Qed.

(** C63: with separate inversion the events without result have no entry and the
    others have the result of their own inversion *)
Theorem C63_separate : forall Ev C (time : Ev -> option Z) same evid rlm coda_norm invert mean (kwargs : list (string * C)) events r,
  (forall ev r, In ev events -> invert [ev] = Ok (Some r) -> proper r) ->
  NoDup (map evid events) ->
  invert_wrapper time same evid rlm coda_norm invert false mean kwargs events = Ok (Some r) ->
  exists evs, dget String.eqb r "events" = Some (TEvents evs) /\
    (forall ev, In ev events -> time ev <> None -> invert [ev] = Ok None -> dget String.eqb evs (evid ev) = None) /\
    (forall ev ir, In ev events -> time ev <> None -> invert [ev] = Ok (Some ir) ->
       exists d, dget String.eqb evs (evid ev) = Some d /\ event_result ir (evid ev) d) /\
    (forall ev, In ev events -> time ev = None -> dget String.eqb evs (evid ev) = None) /\
    (forall id, dget String.eqb evs id <> None -> exists ev, In ev events /\ id = evid ev).
Proof. exact @separate_results. Qed.
Print Assumptions C63_separate.

Example C63_separate_ex : exists r,
  (forall ev r, In ev ex_events -> ex_invert [ev] = Ok (Some r) -> proper r) /\ NoDup (map fst ex_events) /\
  ex_wrapper ex_invert false None [("v0", "3500")] ex_events = Ok (Some r) /\
  ex_invert [("D", Some 9%Z)] = Ok None /\ ex_invert [("A", Some 5%Z)] = Ok (Some ex_A).
Proof.
  destruct ex_means as (r & H & _). exists r. split; [exact ex_proper|]. split; [exact ex_distinct|]. split; [exact H|].
  split; reflexivity.
Qed.

(** C63: no influence of anything but the inversions of single events with origin *)
Theorem C63_single_events : forall Ev C (time : Ev -> option Z) same evid rlm coda_norm invert invert2 mean (kwargs : list (string * C)) events,
  (forall ev, In ev events -> time ev <> None -> invert2 [ev] = invert [ev]) ->
  invert_wrapper time same evid rlm coda_norm invert2 false mean kwargs events =
  invert_wrapper time same evid rlm coda_norm invert false mean kwargs events.
Proof. exact @wrapper_ext. Qed.
Print Assumptions C63_single_events.

Example C63_single_events_ex :
  (forall ev, In ev ex_events -> snd ev <> None ->
    (fun l => if Nat.eqb (List.length l) 1 then ex_invert l else Err KeyError) [ev] = ex_invert [ev]) /\
  (fun l => if Nat.eqb (List.length l) 1 then ex_invert l else Err KeyError) [] <> ex_invert [].
Proof. split; [reflexivity|discriminate]. Qed.

(** C66: no event can be inverted.  The full property includes simultaneous
    inversion, for which it is false (see below) *)
Theorem C66_separate_partial : forall Ev C (time : Ev -> option Z) same evid rlm coda_norm invert mean (kwargs : list (string * C)) events,
  (exists l, sort_events time same events = Ok l) ->
  (forall ev, In ev events -> invert [ev] = Ok None) ->
  invert_wrapper time same evid rlm coda_norm invert false mean kwargs events = Ok None.
Proof. exact @separate_none. Qed.
Print Assumptions C66_separate_partial.

Example C66_separate_partial_ex : (exists l, sort_events snd ex_same [("D", Some 9%Z)] = Ok l) /\
  forall ev, In ev [("D", Some 9%Z)] -> ex_invert [ev] = Ok None.
Proof. split; [exact ex_one_event|]. intros ev [<-|[]]. reflexivity. Qed.

(** C66: conversely, without result all g0 are nan *)
Theorem C66_none : forall Ev C (time : Ev -> option Z) same evid rlm coda_norm invert mean (kwargs : list (string * C)) events,
  NoDup (map evid events) ->
  (forall ev r, In ev events -> invert [ev] = Ok (Some r) -> proper r) ->
  invert_wrapper time same evid rlm coda_norm invert false mean kwargs events = Ok None ->
  forall ev r d l x, In ev events -> time ev <> None -> invert [ev] = Ok (Some r) -> event_result r (evid ev) d ->
    dget String.eqb d "g0" = Some (VList l) -> In x l -> fisnan x = true.
Proof. exact @wrapper_none. Qed.
Print Assumptions C66_none.

Example C66_none_ex : NoDup (map fst [("D", Some 9%Z)]) /\
  ex_wrapper ex_invert false None [] [("D", Some 9%Z)] = Ok None.
Proof. split; [repeat constructor; auto|reflexivity]. Qed.

(** C66: simultaneous inversion without result *)
Theorem C66_simultaneous : forall Ev C (time : Ev -> option Z) same evid rlm coda_norm invert mean (kwargs : list (string * C)) events l,
  sort_events time same events = Ok l -> invert l = Ok None ->
  invert_wrapper time same evid rlm coda_norm invert true mean kwargs events = Err TypeError.
Proof. exact @simultaneous_none. Qed.
Print Assumptions C66_simultaneous.

Example C66_simultaneous_ex : exists l, sort_events snd ex_same ex_events = Ok l /\
  (fun _ : list event => Ok (@None ires)) l = Ok None.
Proof. destruct ex_sort as (l & H). exists l. split; [exact H|reflexivity]. Qed.

(** C66: a simultaneous inversion without result raises a TypeError *)
Theorem C66_simultaneous_refuted : exists (invert : list event -> res (option ires)) events,
  (forall l, invert l = Ok None) /\ (exists l, sort_events snd ex_same events = Ok l) /\
  ex_wrapper invert true None [] events = Err TypeError.
Proof. exists (fun _ => Ok None), ex_events. split; [reflexivity|]. split; [exact ex_sort|reflexivity]. Qed.
Print Assumptions C66_simultaneous_refuted.

(** C67: plain, robust and weighted means.  The full property says nothing about the
    errors; weighted means are for valid values with positive errors (see [averaged]) *)
Theorem C67_means_partial : forall Ev C (time : Ev -> option Z) same evid rlm coda_norm invert mean (kwargs : list (string * C)) events r,
  (forall ev r, In ev events -> invert [ev] = Ok (Some r) -> proper r) ->
  invert_wrapper time same evid rlm coda_norm invert false mean kwargs events = Ok (Some r) ->
  exists evs, dget String.eqb r "events" = Some (TEvents evs) /\ evs <> [] /\
    (exists l, dget String.eqb r "error" = Some (TMean l) /\ averaged rlm mean (lists_of "error" evs) (lists_of "error" evs) l) /\
    ((exists e, In e evs /\ dget String.eqb (snd e) "g0" <> None) ->
       (forall c, In c ["g0"; "b"] ->
          exists l, dget String.eqb r c = Some (TMean l) /\ averaged rlm mean (lists_of "error" evs) (lists_of c evs) l) /\
       exists row x, In row (lists_of "g0" evs) /\ In x row /\ fisnan x = false) /\
    ((forall e, In e evs -> dget String.eqb (snd e) "g0" = None) ->
       dget String.eqb r "g0" = None /\ dget String.eqb r "b" = None) /\
    ((forall sta, site_lists sta evs = []) -> dget String.eqb r "R" = None) /\
    ((exists sta, site_lists sta evs <> []) -> exists d, dget String.eqb r "R" = Some (TSites d) /\
       forall sta, match dget String.eqb d sta with
                  | None => site_lists sta evs = []
                  | Some l => site_lists sta evs <> [] /\ averaged rlm mean (lists_of "error" evs) (site_lists sta evs) l
                  end).
Proof. exact @separate_means. Qed.
Print Assumptions C67_means_partial.

Example C67_means_partial_ex : exists r,
  (forall ev r, In ev ex_events -> ex_invert [ev] = Ok (Some r) -> proper r) /\
  ex_wrapper ex_invert false None [("v0", "3500")] ex_events = Ok (Some r) /\
  dget String.eqb r "g0" = Some (TMean [Some 4; None]).
Proof. destruct ex_means as (r & H & G). exists r. split; [exact ex_proper|]. split; [exact H|exact G]. Qed.

Example C67_means_partial_weighted_ex : (exists r, ex_wrapper ex_invert false (Some "weighted") [("v0", "3500")] ex_events = Ok (Some r)) /\
  errors_positive (at_freq 0 [[FNum 8; FNan]; [FNum 2; FNan]]) (at_freq 0 [[FNum 1; FNan]; [FNum 1; FNan]]).
Proof. split; [exact (ex_some (Some "weighted"))|exact ex_errors]. Qed.

(** C67: complete results are always combined *)
Theorem C67_total : forall Ev C (time : Ev -> option Z) same evid rlm coda_norm invert Nf mean (kwargs : list (string * C)) events,
  (exists l, sort_events time same events = Ok l) ->
  (forall ev, In ev events -> invert [ev] = Ok None \/
     exists r, invert [ev] = Ok (Some r) /\ usable coda_norm (evid ev) r /\ proper r /\
       forall d, event_result r (evid ev) d -> mean_values Nf d /\ complete d) ->
  (mean = Some "weighted" -> forall ev1 ev2 r1 r2 d1 d2, In ev1 events -> In ev2 events ->
     invert [ev1] = Ok (Some r1) -> invert [ev2] = Ok (Some r2) ->
     event_result r1 (evid ev1) d1 -> event_result r2 (evid ev2) d2 ->
     dget String.eqb d1 "g0" <> None /\ same_stations d1 d2) ->
  exists o, invert_wrapper time same evid rlm coda_norm invert false mean kwargs events = Ok o.
Proof. exact @wrapper_total. Qed.
Print Assumptions C67_total.

Example C67_total_ex : (exists l, sort_events snd ex_same ex_events = Ok l) /\
  (forall ev, In ev ex_events -> ex_invert [ev] = Ok None \/
    exists r, ex_invert [ev] = Ok (Some r) /\ usable false (fst ev) r /\ proper r /\
      forall d, event_result r (fst ev) d -> mean_values 2 d /\ complete d) /\
  (forall ev1 ev2 r1 r2 d1 d2, In ev1 ex_events -> In ev2 ex_events ->
    ex_invert [ev1] = Ok (Some r1) -> ex_invert [ev2] = Ok (Some r2) ->
    event_result r1 (fst ev1) d1 -> event_result r2 (fst ev2) d2 ->
    dget String.eqb d1 "g0" <> None /\ same_stations d1 d2).
Proof. split; [exact ex_sort|]. split; [exact ex_total_hyp|exact ex_weighted_hyp]. Qed.

(** C67: a station without value for one of the events makes the weighted mean fail *)
Theorem C67_weighted_refuted : exists invert events,
  (forall ev, In ev events -> invert [ev] = Ok None \/
     exists r, invert [ev] = Ok (Some r) /\ usable false (fst ev) r) /\
  (exists r, ex_wrapper ex_invert false (Some "weighted") [("v0", "3500")] events = Ok (Some r)) /\
  ex_wrapper invert false (Some "weighted") [("v0", "3500")] events = Err TypeError.
Proof.
  exists ex_invert2, ex_events. split; [|split; [exact (ex_some (Some "weighted"))|exact ex_missing]].
  intros ev [<-|[<-|[<-|[<-|[]]]]]; cbn; [right|now left|right|now left]; eexists; (split; [reflexivity|apply ex_usable]).
Qed.
Print Assumptions C67_weighted_refuted.

(** C80: the configuration in the result, separate inversion.  The full property is for
    all options; only recorded_options are recorded (see below) *)
Theorem C80_config_partial : forall Ev C (time : Ev -> option Z) same evid rlm coda_norm invert mean (kwargs : list (string * C)) events r,
  (forall ev r, In ev events -> invert [ev] = Ok (Some r) -> proper r) ->
  invert_wrapper time same evid rlm coda_norm invert false mean kwargs events = Ok (Some r) ->
  exists conf, dget String.eqb r "config" = Some (TConf conf) /\
    (forall k, dget String.eqb conf k =
      if String.eqb k "mean" then Some (CMean mean)
      else if String.eqb k "invert_events_simultaneously" then Some (CBool false)
      else if inb String.eqb k recorded_options then option_map CGiven (dget String.eqb kwargs k) else None).
Proof. exact @wrapper_config_separate. Qed.
Print Assumptions C80_config_partial.

Example C80_config_partial_ex : exists r, ex_wrapper ex_invert false None [("v0", "3500")] ex_events = Ok (Some r).
Proof. exact (ex_some None). Qed.

(** C35: simultaneous inversion keeps all results and succeeds for known keys *)
Theorem C35_simultaneous : forall Ev C (time : Ev -> option Z) same evid rlm coda_norm invert mean (kwargs : list (string * C)) events order ir,
  sort_events time same events = Ok order ->
  invert order = Ok (Some ir) -> NoDup (map fst (ir_items ir)) -> ~ In "events" (map fst (ir_items ir)) ->
  ~ In "config" (map fst (ir_items ir)) ->
  (forall k, In k (map fst (ir_items ir)) -> In k result_names) ->
  exists r conf, invert_wrapper time same evid rlm coda_norm invert true mean kwargs events = Ok (Some r) /\
    dget String.eqb r "events" = Some (TEvents (ir_events ir)) /\
    (forall k v, dget String.eqb (ir_items ir) k = Some v -> dget String.eqb r k = Some (TVal v)) /\
    (forall k, dget String.eqb (ir_items ir) k = None -> k <> "events" -> k <> "config" -> dget String.eqb r k = None) /\
    dget String.eqb r "config" = Some (TConf conf) /\
    (forall k, dget String.eqb conf k =
      if String.eqb k "mean" then Some (CMean mean)
      else if String.eqb k "invert_events_simultaneously" then Some (CBool true)
      else if inb String.eqb k recorded_options then option_map CGiven (dget String.eqb kwargs k) else None).
Proof. exact @wrapper_simultaneous. Qed.
Print Assumptions C35_simultaneous.

Example C35_simultaneous_ex : (exists l, sort_events snd ex_same ex_events = Ok l) /\
  NoDup (map fst (ir_items ex_A)) /\ (forall k, In k (map fst (ir_items ex_A)) -> In k result_names) /\
  exists r, ex_wrapper (fun _ => Ok (Some ex_A)) true None [("v0", "3500")] ex_events = Ok (Some r) /\
  dget String.eqb r "g0" = Some (TVal (VList [FNum 2; FNan])).
Proof.
  split; [exact ex_sort|]. split; [cbn; repeat constructor; cbn; intuition discriminate|].
  split; [cbn; intuition (subst; tauto)|exact ex_simultaneous].
Qed.

(** C80: the key of the module of the Green's function in the order of the
    configuration is not the name of the argument (G_plugin), which is dropped *)
Theorem C80_plugin_refuted : exists kwargs : list (string * string),
  dget String.eqb kwargs "G_plugin" <> None /\
  forall mean, dget String.eqb (config_items kwargs false mean) "G_plugin" = None.
Proof. exists [("G_plugin", "qopen.rt : G_rt3d")]. split; [discriminate|]. intros mean. reflexivity. Qed.
Print Assumptions C80_plugin_refuted.
