(** Property C114: the plot of results shows the values of all events, their means and errors.
    Theorems only. *)
From Coq Require Import String List Bool Reals Lra Lia.
From Verif Require Import Base Pyf StatModel StatSpec StatSpec2 CollectModel CollectSpec WrapModel WrapSpec DepModel DepSpec
  PanelModel PanelSpec PanelProof PanelProof2 PanelProof3 PanelProof7 PanelProof8 PanelEx PanelEx3.
Import ListNotations.
Open Scope string_scope.
Open Scope list_scope.
Open Scope R_scope.

(** C114: the plot of complete results never fails and has a panel for each quantity, whatever
    velocity and kind of mean are chosen. *)
Theorem C114_total : forall rlm events freq, full (List.length freq) (with_result events) ->
  forall v0 conf mean quantities,
  (forall q, In q quantities -> q = "nobs" \/ exists c, calculated_from q c) ->
  exists ps, plot_results rlm events freq v0 conf mean quantities = Ok ps /\ List.length ps = List.length quantities.
Proof. exact results_total. Qed.
Print Assumptions C114_total.

Example C114_total_ex : full (List.length ex_panel_freq) (with_result ex_panel_events) /\
  forall q, In q ["g0"; "lsc"; "Qsc"; "b"; "li"; "Qi"; "error"; "nobs"] -> q = "nobs" \/ exists c, calculated_from q c.
Proof. split; [exact ex_full|exact ex_quantities]. Qed.

(** C114: there is no plot with any other quantity, not even with those of the energy W and of the
    source displacement spectrum. *)
Theorem C114_known : forall rlm events freq v0 conf mean quantities ps,
  plot_results rlm events freq v0 conf mean quantities = Ok ps ->
  forall q, In q quantities -> q = "nobs" \/ exists c, calculated_from q c.
Proof. exact results_known. Qed.
Print Assumptions C114_known.

Example C114_known_ex : exists ps, plot_results (fun _ => (0, 0)) ex_panel_events ex_panel_freq None (Some 3500) None ["g0"; "Qsc"; "nobs"] = Ok ps.
Proof. exact (ex_plot (fun _ => (0, 0)) None). Qed.

(** C114: the panel of a quantity has one row of dots per event over the frequencies; the dot of an
    event at a frequency is the quantity calculated from its own value with its velocity, missing
    values stay missing.  The curve is the chosen mean (plain, robust or weighted with the inverse
    errors) of the dots at each frequency. *)
Theorem C114_shown : forall rlm events freq, full (List.length freq) (with_result events) ->
  forall v0 conf mean quantities ps k q c,
  plot_results rlm events freq v0 conf mean quantities = Ok ps ->
  nth_error quantities k = Some q -> calculated_from q c ->
  exists dots means rows, nth_error ps k = Some (PMeans dots means) /\
    shape2 (List.length (with_result events)) (List.length freq) rows /\ dots = flat_map (combine freq) rows /\
    (forall i j id r x f v, nth_error (with_result events) i = Some (id, r) -> nth_error freq j = Some f -> f <> 0 ->
       velocity_for v0 conf r v -> at2 (lists_of c (with_result events)) i j = Some (FNum x) -> x <> 0 ->
       exists y, at2 rows i j = Some (FNum y) /\ derived q x f v y) /\
    (forall i j, at2 (lists_of c (with_result events)) i j = Some FNan -> at2 rows i j = Some FNan) /\
    map fst means = freq /\
    averaged rlm mean (lists_of "error" (with_result events)) rows (map (fun p => mp_mean (snd p)) means).
Proof. exact results_shown. Qed.
Print Assumptions C114_shown.

Example C114_shown_ex : full (List.length ex_panel_freq) (with_result ex_panel_events) /\ calculated_from "Qsc" "g0" /\
  (exists ps, plot_results (fun _ => (0, 0)) ex_panel_events ex_panel_freq None (Some 3500) None ["g0"; "Qsc"; "nobs"] = Ok ps) /\
  at2 (lists_of "g0" (with_result ex_panel_events)) 1 0 = Some (FNum 8) /\
  forall id r, In (id, r) (with_result ex_panel_events) -> velocity_for None (Some 3500) r 3500.
Proof.
  split; [exact ex_full|]. split; [cbn; tauto|]. split; [exact (ex_plot (fun _ => (0, 0)) None)|]. split; [reflexivity|exact ex_velocity].
Qed.

(** C114: with one velocity for all events the mean of a derived quantity is the quantity derived
    from the mean of g0 or b, for plain and weighted means. *)
Theorem C114_derived : forall rlm events freq, full (List.length freq) (with_result events) ->
  forall v0 conf mean quantities ps k q c j f v,
  plot_results rlm events freq v0 conf mean quantities = Ok ps ->
  nth_error quantities k = Some q -> calculated_from q c -> nth_error freq j = Some f -> 0 < f -> 0 < v ->
  (forall id r, In (id, r) (with_result events) -> velocity_for v0 conf r v) ->
  exists dots means p, nth_error ps k = Some (PMeans dots means) /\ nth_error means j = Some (f, p) /\
    (mean <> Some "weighted" -> mean <> Some "robust" -> valid_data (at_freq j (lists_of c (with_result events))) <> [] ->
       exists y, mp_mean p = Some y /\ derived q (geometric_mean (valid_data (at_freq j (lists_of c (with_result events))))) f v y) /\
    (mean = Some "weighted" ->
       errors_positive (at_freq j (lists_of c (with_result events))) (at_freq j (lists_of "error" (with_result events))) ->
       let l := valid_weighted (at_freq j (lists_of c (with_result events)))
                  (weights_at (at_freq j (lists_of "error" (with_result events)))) in
       l <> [] -> exists y, mp_mean p = Some y /\ derived q (weighted_geometric_mean l) f v y).
Proof. exact results_derived. Qed.
Print Assumptions C114_derived.

Example C114_derived_ex : full (List.length ex_panel_freq) (with_result ex_panel_events) /\
  valid_data (at_freq 0 (lists_of "g0" (with_result ex_panel_events))) = [2; 8] /\
  errors_positive (at_freq 0 (lists_of "g0" (with_result ex_panel_events))) (at_freq 0 (lists_of "error" (with_result ex_panel_events))) /\
  forall id r, In (id, r) (with_result ex_panel_events) -> velocity_for None (Some 3500) r 3500.
Proof. split; [exact ex_full|]. split; [exact ex_valid|]. split; [exact ex_positive|exact ex_velocity]. Qed.

(** C114: the curves of g0, b and error are the means that the inversion writes to the result with
    the same kind of mean. *)
Theorem C114_stored : forall rlm events freq, full (List.length freq) (with_result events) ->
  forall C v0 conf mean quantities ps k q fr items l,
  plot_results rlm events freq v0 conf mean quantities = Ok ps ->
  nth_error quantities k = Some q -> In q ["g0"; "b"; "error"] ->
  add_means (C := C) rlm mean {| ws_freq := fr; ws_events := with_result events |} = Ok (Some items) ->
  dget String.eqb items q = Some (TMean l) ->
  exists dots means, nth_error ps k = Some (PMeans dots means) /\ map (fun p => mp_mean (snd p)) means = l.
Proof. exact results_stored. Qed.
Print Assumptions C114_stored.

Example C114_stored_ex : full (List.length ex_panel_freq) (with_result ex_panel_events) /\
  exists items l, add_means (C := string) (fun _ => (0, 0)) None {| ws_freq := None; ws_events := with_result ex_panel_events |} = Ok (Some items) /\
    dget String.eqb items "g0" = Some (TMean l).
Proof. split; [exact ex_full|exact (ex_stored (fun _ => (0, 0)))]. Qed.

(** C114: without weights the error bars exist for two or more valid values and span one standard
    deviation of the logarithms; with weights they exist if all events have a positive error at
    this frequency. *)
Theorem C114_errors : forall rlm events freq, full (List.length freq) (with_result events) ->
  forall v0 conf mean quantities ps k q c j,
  plot_results rlm events freq v0 conf mean quantities = Ok ps ->
  nth_error quantities k = Some q -> calculated_from q c -> (j < List.length freq)%nat ->
  exists dots means rows p f, nth_error ps k = Some (PMeans dots means) /\
    shape2 (List.length (with_result events)) (List.length freq) rows /\ dots = flat_map (combine freq) rows /\
    nth_error freq j = Some f /\ nth_error means j = Some (f, p) /\
    let l := valid_data (at_freq j rows) in
    (mean <> Some "weighted" -> mean <> Some "robust" -> (List.length l < 2)%nat -> mp_error p = None) /\
    (mean <> Some "weighted" -> mean <> Some "robust" -> (2 <= List.length l)%nat ->
      exists lo up, mp_error p = Some (lo, up) /\
        geometric_mean l - lo = geometric_mean l / exp (log_deviation l) /\
        geometric_mean l + up = geometric_mean l * exp (log_deviation l)) /\
    (mean = Some "weighted" ->
      (forall e, In e (at_freq j (lists_of "error" (with_result events))) -> exists x, e = FNum x /\ 0 < x) ->
      (2 <= List.length l)%nat -> mp_error p <> None).
Proof. exact results_errors. Qed.
Print Assumptions C114_errors.

Example C114_errors_ex : full (List.length ex_panel_freq) (with_result ex_panel_events) /\
  exists ps, plot_results (fun _ => (0, 0)) ex_panel_events ex_panel_freq None (Some 3500) None ["g0"; "Qsc"; "nobs"] = Ok ps.
Proof. split; [exact ex_full|exact (ex_plot (fun _ => (0, 0)) None)]. Qed.

(** C114: with weights these error bars span one weighted standard deviation of the logarithms. *)
Theorem C114_weighted_errors : forall rlm events freq v0 conf quantities ps k q c j,
  full (List.length freq) (with_result events) ->
  plot_results rlm events freq v0 conf (Some "weighted") quantities = Ok ps ->
  nth_error quantities k = Some q -> calculated_from q c -> (j < List.length freq)%nat ->
  (forall e, In e (at_freq j (lists_of "error" (with_result events))) -> exists x, e = FNum x /\ 0 < x) ->
  exists dots means rows p f, nth_error ps k = Some (PMeans dots means) /\
    shape2 (List.length (with_result events)) (List.length freq) rows /\ dots = flat_map (combine freq) rows /\
    nth_error freq j = Some f /\ nth_error means j = Some (f, p) /\
    ((2 <= List.length (valid_data (at_freq j rows)))%nat ->
      let l := valid_weighted (at_freq j rows) (weights_at (at_freq j (lists_of "error" (with_result events)))) in
      exists lo up, mp_error p = Some (lo, up) /\
        weighted_geometric_mean l - lo = weighted_geometric_mean l / exp (weighted_log_deviation l) /\
        weighted_geometric_mean l + up = weighted_geometric_mean l * exp (weighted_log_deviation l)).
Proof. exact results_weighted. Qed.
Print Assumptions C114_weighted_errors.

Example C114_weighted_errors_ex : full (List.length ex_panel_freq) (with_result two_events) /\
  (forall e, In e (at_freq 0 (lists_of "error" (with_result two_events))) -> exists x, e = FNum x /\ 0 < x) /\
  exists ps, plot_results (fun _ => (0, 0)) two_events ex_panel_freq None (Some 3500) (Some "weighted") ["g0"; "Qsc"; "nobs"] = Ok ps.
Proof. split; [exact two_full|]. split; [exact two_errors|exact (two_plot (fun _ => (0, 0)))]. Qed.

(** C114: with weights there is no error bar at a frequency where an event has no result. *)
Theorem C114_lost_errors : forall rlm events freq, full (List.length freq) (with_result events) ->
  forall v0 conf quantities ps k q c j f,
  plot_results rlm events freq v0 conf (Some "weighted") quantities = Ok ps ->
  nth_error quantities k = Some q -> calculated_from q c -> nth_error freq j = Some f ->
  In FNan (at_freq j (lists_of "error" (with_result events))) ->
  exists dots means p, nth_error ps k = Some (PMeans dots means) /\ nth_error means j = Some (f, p) /\ mp_error p = None.
Proof. exact results_lost. Qed.
Print Assumptions C114_lost_errors.

Example C114_lost_errors_ex : full (List.length ex_panel_freq) (with_result ex_panel_events) /\
  In FNan (at_freq 0 (lists_of "error" (with_result ex_panel_events))).
Proof. split; [exact ex_full|]. cbn. tauto. Qed.

(** C114: two events with valid values and positive errors do not suffice for an error bar of the
    weighted mean. *)
Theorem C114_weighted_refuted : exists events freq ps dots means p f m,
  full (List.length freq) (with_result events) /\
  (2 <= List.length (valid_data (at_freq 0 (lists_of "g0" (with_result events)))))%nat /\
  errors_positive (at_freq 0 (lists_of "g0" (with_result events))) (at_freq 0 (lists_of "error" (with_result events))) /\
  plot_results (fun _ => (0, 0)) events freq None (Some 3500) (Some "weighted") ["g0"; "Qsc"; "nobs"] = Ok ps /\
  nth_error ps 0 = Some (PMeans dots means) /\ nth_error means 0 = Some (f, p) /\ mp_mean p = Some m /\ mp_error p = None.
Proof.
  destruct (ex_lost (fun _ => (0, 0))) as (ps & dots & means & p & m & H).
  exists ex_panel_events, ex_panel_freq, ps, dots, means, p, 3, m.
  split; [exact ex_full|]. split; [rewrite ex_valid; cbn; lia|]. split; [exact ex_positive|exact H].
Qed.
Print Assumptions C114_weighted_refuted.

(** C114: the last panel counts the events with a value of g0 at each frequency. *)
Theorem C114_nobs : forall rlm events freq, full (List.length freq) (with_result events) ->
  forall v0 conf mean quantities ps k,
  plot_results rlm events freq v0 conf mean quantities = Ok ps -> nth_error quantities k = Some "nobs" ->
  exists bars, nth_error ps k = Some (PBars bars) /\ map fst bars = freq /\
    forall j, (j < List.length freq)%nat ->
      nth_error (map snd bars) j = Some (count (at_freq j (lists_of "g0" (with_result events)))).
Proof. exact results_bars. Qed.
Print Assumptions C114_nobs.

Example C114_nobs_ex : full (List.length ex_panel_freq) (with_result ex_panel_events) /\
  count (at_freq 0 (lists_of "g0" (with_result ex_panel_events))) = 2%nat.
Proof. split; [exact ex_full|reflexivity]. Qed.
