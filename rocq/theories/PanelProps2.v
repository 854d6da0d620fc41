(** Property C115: the plot of site responses shows the values of all stations, their means and errors.
    Theorems only. *)
From Coq Require Import String List Bool Reals Lra Lia Sorted.
From Verif Require Import Base Pyf StatModel StatSpec CollectModel CollectSpec WrapModel WrapSpec DepSpec
  PanelModel PanelSpec PanelProof PanelProof5 PanelProof6 PanelEx2.
Import ListNotations.
Open Scope string_scope.
Open Scope list_scope.
Open Scope R_scope.

(** C115: if at least one station has a value there is a plot, for weighted means only if all
    stations with values are in the results of all events. *)
Theorem C115_total : forall rlm events freq, full_sites (List.length freq) (with_result events) ->
  forall nx, nx <> Some 0%nat -> forall sta, has_value sta (with_result events) ->
  forall mean c show_excluded,
  (mean = Some "weighted" -> forall sta, has_value sta (with_result events) ->
     List.length (site_lists sta (with_result events)) = List.length (with_result events)) ->
  exists fig, plot_sites rlm events freq mean nx (Some c) show_excluded = Ok fig.
Proof. exact sites_total. Qed.
Print Assumptions C115_total.

Example C115_total_ex : full_sites (List.length ex_site_freq) (with_result ex_site_events2) /\ has_value "A" (with_result ex_site_events2) /\
  forall sta, has_value sta (with_result ex_site_events2) ->
    List.length (site_lists sta (with_result ex_site_events2)) = List.length (with_result ex_site_events2).
Proof. exact ex_full_sites2. Qed.

(** C115: the stations with a value have a panel each, once and in alphabetical order; no other
    station has one. *)
Theorem C115_stations : forall rlm events freq, full_sites (List.length freq) (with_result events) ->
  forall mean nx cmap show_excluded fig, plot_sites rlm events freq mean nx cmap show_excluded = Ok fig ->
  let names := map (fun p => sp_station (fst p)) (sf_panels fig) in
  (forall sta, In sta names <-> has_value sta (with_result events)) /\ NoDup names /\
  StronglySorted (fun a b => String.leb a b = true) names.
Proof. exact sites_names. Qed.
Print Assumptions C115_stations.

Example C115_stations_ex : full_sites (List.length ex_site_freq) (with_result ex_site_events) /\
  (exists fig, plot_sites (fun _ => (0, 0)) ex_site_events ex_site_freq None None (Some "viridis_r") true = Ok fig) /\
  has_value "A" (with_result ex_site_events) /\ ~ has_value "C" (with_result ex_site_events).
Proof.
  split; [exact ex_full_sites|]. split; [apply ex_site_plot; discriminate|]. split; [exact ex_value_A|exact (proj2 ex_value_C)].
Qed.

(** C115: the panel of a station has the site responses of all events that have this station as
    dots over the frequencies; the curve is the chosen mean of them at each frequency. *)
Theorem C115_shown : forall rlm events freq, full_sites (List.length freq) (with_result events) ->
  forall mean nx cmap show_excluded fig, plot_sites rlm events freq mean nx cmap show_excluded = Ok fig ->
  forall p, In p (map fst (sf_panels fig)) ->
  sp_dots p = flat_map (combine freq) (site_lists (sp_station p) (with_result events)) /\ map fst (sp_means p) = freq /\
  averaged rlm mean (lists_of "error" (with_result events)) (site_lists (sp_station p) (with_result events))
    (map (fun q => mp_mean (snd q)) (sp_means p)).
Proof. exact sites_shown. Qed.
Print Assumptions C115_shown.

Example C115_shown_ex : full_sites (List.length ex_site_freq) (with_result ex_site_events) /\
  (exists fig, plot_sites (fun _ => (0, 0)) ex_site_events ex_site_freq None None (Some "viridis_r") true = Ok fig) /\
  site_lists "A" (with_result ex_site_events) = [[FNum 2; FNan]; [FNum 8; FNum 3]].
Proof. split; [exact ex_full_sites|]. split; [apply ex_site_plot; discriminate|reflexivity]. Qed.

(** C115: for plain means the error bars exist for two or more valid values and span one standard
    deviation of the logarithms. *)
Theorem C115_errors : forall rlm events freq, full_sites (List.length freq) (with_result events) ->
  forall mean nx cmap show_excluded fig, plot_sites rlm events freq mean nx cmap show_excluded = Ok fig ->
  mean <> Some "weighted" -> mean <> Some "robust" ->
  forall p j, In p (map fst (sf_panels fig)) -> (j < List.length freq)%nat ->
  exists f q, nth_error freq j = Some f /\ nth_error (sp_means p) j = Some (f, q) /\
    let l := valid_data (at_freq j (site_lists (sp_station p) (with_result events))) in
    ((List.length l < 2)%nat -> mp_error q = None) /\
    ((2 <= List.length l)%nat -> exists lo up, mp_error q = Some (lo, up) /\
       geometric_mean l - lo = geometric_mean l / exp (log_deviation l) /\
       geometric_mean l + up = geometric_mean l * exp (log_deviation l)).
Proof. exact sites_errors. Qed.
Print Assumptions C115_errors.

Example C115_errors_ex : full_sites (List.length ex_site_freq) (with_result ex_site_events) /\
  exists fig, plot_sites (fun _ => (0, 0)) ex_site_events ex_site_freq None None (Some "viridis_r") true = Ok fig.
Proof. split; [exact ex_full_sites|apply ex_site_plot; discriminate]. Qed.

(** C115: with at most one observation everywhere the means are black and there is no colour bar;
    else the colour of the mean at a frequency is the number of events with a value, and there is a
    colour bar. *)
Theorem C115_colours : forall rlm events freq, full_sites (List.length freq) (with_result events) ->
  forall mean nx cmap show_excluded fig, plot_sites rlm events freq mean nx cmap show_excluded = Ok fig ->
  exists n, most_observations (List.length freq) (with_result events) n /\ (1 <= n)%nat /\
    (n = 1%nat -> sf_bar fig = None /\ forall p, In p (map fst (sf_panels fig)) -> sp_colors p = None) /\
    ((1 < n)%nat -> sf_bar fig <> None /\ forall p, In p (map fst (sf_panels fig)) ->
       exists l, sp_colors p = Some l /\ List.length l = List.length freq /\
         forall j, (j < List.length freq)%nat ->
           nth_error l j = Some (count (at_freq j (site_lists (sp_station p) (with_result events))))).
Proof. exact sites_colors. Qed.
Print Assumptions C115_colours.

Example C115_colours_ex : full_sites (List.length ex_site_freq) (with_result ex_site_events) /\
  (exists fig, plot_sites (fun _ => (0, 0)) ex_site_events ex_site_freq None None (Some "viridis_r") true = Ok fig) /\
  count (at_freq 0 (site_lists "A" (with_result ex_site_events))) = 2%nat.
Proof. split; [exact ex_full_sites|]. split; [apply ex_site_plot; discriminate|reflexivity]. Qed.

(** C115: the panels and the colour bar have cells of their own, the panels in reading order. *)
Theorem C115_cells : forall rlm events freq, full_sites (List.length freq) (with_result events) ->
  forall mean nx cmap show_excluded fig, plot_sites rlm events freq mean nx cmap show_excluded = Ok fig ->
  NoDup (map snd (sf_panels fig) ++ match sf_bar fig with Some c => [c] | None => [] end) /\
  forall i j a b, nth_error (map snd (sf_panels fig)) i = Some a -> nth_error (map snd (sf_panels fig)) j = Some b -> (i < j)%nat ->
    (fst a < fst b \/ fst a = fst b /\ snd a < snd b)%nat.
Proof. exact sites_cells. Qed.
Print Assumptions C115_cells.

Example C115_cells_ex : full_sites (List.length ex_site_freq) (with_result ex_site_events) /\
  exists fig, plot_sites (fun _ => (0, 0)) ex_site_events ex_site_freq (Some "robust") None (Some "viridis_r") true = Ok fig.
Proof. split; [exact ex_full_sites|apply ex_site_plot; discriminate]. Qed.

(** C115: the stations named as excluded are the ones in the results that have no value at all. *)
Theorem C115_excluded : forall rlm events freq, full_sites (List.length freq) (with_result events) ->
  forall mean nx cmap fig, plot_sites rlm events freq mean nx cmap true = Ok fig ->
  (forall sta, In sta (sf_excluded fig) <->
     site_lists sta (with_result events) <> [] /\ ~ has_value sta (with_result events)) /\
  NoDup (sf_excluded fig) /\ StronglySorted (fun a b => String.leb a b = true) (sf_excluded fig).
Proof. exact sites_excluded. Qed.
Print Assumptions C115_excluded.

Example C115_excluded_ex : full_sites (List.length ex_site_freq) (with_result ex_site_events) /\
  (exists fig, plot_sites (fun _ => (0, 0)) ex_site_events ex_site_freq None None (Some "viridis_r") true = Ok fig) /\
  site_lists "C" (with_result ex_site_events) <> [] /\ ~ has_value "C" (with_result ex_site_events).
Proof. split; [exact ex_full_sites|]. split; [apply ex_site_plot; discriminate|exact ex_value_C]. Qed.

(** C115: weighted means need all stations with values in the results of all events. *)
Theorem C115_weighted : forall rlm events freq, full_sites (List.length freq) (with_result events) ->
  forall nx, nx <> Some 0%nat -> forall sta0, has_value sta0 (with_result events) -> forall cmap show_excluded sta, has_value sta (with_result events) ->
  List.length (site_lists sta (with_result events)) <> List.length (with_result events) ->
  forall fig, plot_sites rlm events freq (Some "weighted") nx cmap show_excluded <> Ok fig.
Proof. exact sites_weighted_fail. Qed.
Print Assumptions C115_weighted.

Example C115_weighted_ex : full_sites (List.length ex_site_freq) (with_result ex_site_events) /\
  has_value "B" (with_result ex_site_events) /\
  List.length (site_lists "B" (with_result ex_site_events)) <> List.length (with_result ex_site_events).
Proof. split; [exact ex_full_sites|]. split; [exact ex_value_B|cbn; discriminate]. Qed.

(** C115: so the plot of weighted means fails for complete results where a station did not record
    all events. *)
Theorem C115_weighted_refuted : exists events freq, full_sites (List.length freq) (with_result events) /\
  (exists sta, has_value sta (with_result events)) /\
  forall rlm fig, plot_sites rlm events freq (Some "weighted") None (Some "viridis_r") true <> Ok fig.
Proof. exact ex_site_weighted2. Qed.
Print Assumptions C115_weighted_refuted.

(** C115: without a value at any station or without a colour map there is no plot. *)
Theorem C115_none : forall rlm events freq, full_sites (List.length freq) (with_result events) ->
  forall mean nx cmap show_excluded, (forall sta, ~ has_value sta (with_result events)) \/ cmap = None ->
  forall fig, plot_sites rlm events freq mean nx cmap show_excluded <> Ok fig.
Proof. exact sites_none. Qed.
Print Assumptions C115_none.

Example C115_none_ex : full_sites (List.length ex_site_freq) (with_result ex_site_events).
Proof. exact ex_full_sites. Qed.

(** C115: cmap=None is meant for black points, but it fails. *)
Theorem C115_cmap_refuted : exists events freq, full_sites (List.length freq) (with_result events) /\
  (exists sta, has_value sta (with_result events)) /\
  forall rlm fig, plot_sites rlm events freq None None None true <> Ok fig.
Proof. exact ex_site_cmap2. Qed.
Print Assumptions C115_cmap_refuted.
