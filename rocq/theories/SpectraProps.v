(** Property C116: the plot of all source displacement spectra.  Theorems only. *)
From Coq Require Import String List Bool Reals Lra Lia.
From Verif Require Import Base Pyf DepModel DepSpec SpectraModel SpectraSpec SpectraProof SpectraProof2 SpectraProof3 SpectraEx.
Import ListNotations.
Open Scope string_scope.
Open Scope list_scope.
Open Scope R_scope.

(** C116: complete results of the selected events are plotted in two or more columns unless the
    method is "mean"; panels and colour bar have cells of their own, and there is a colour bar
    unless all numbers of stations are at most 1. *)
Theorem C116_total : forall freq evs smm conf_smm smo conf_smo only nx c xlabel,
  full_spectra (List.length freq) (choose_events evs only) -> freq <> [] -> nx <> Some 0%nat -> nx <> Some 1%nat ->
  (forall m, method_used smm conf_smm m -> m <> Some "mean") -> (forall o, options_used smo conf_smo o -> o <> None) ->
  exists fig, plot_all freq evs smm conf_smm smo conf_smo only nx (Some c) None xlabel = Ok fig /\
    NoDup (map snd (sf_events fig) ++ match sf_colourbar fig with Some b => [fst b] | None => [] end) /\
    (sf_colourbar fig <> None <-> ~ most_stations (choose_events evs only) 1).
Proof. exact spectra_total_used. Qed.
Print Assumptions C116_total.

Example C116_total_ex : full_spectra 2 (choose_events ex_spectra (Some ["e2"; "e1"])) /\
  (forall m, method_used None (Some "fit") m -> m <> Some "mean") /\ (forall o, options_used None (Some (Some ex_sp_none)) o -> o <> None).
Proof. split; [apply ex_full_spectra; now right|]. split; [exact ex_method_used|exact ex_options_used]. Qed.

(** C116: the events with panels are the selected ones. *)
Theorem C116_selected : forall evs only id (e : sevent),
  In (id, e) (choose_events evs only) <-> In (id, e) evs /\ selected only id.
Proof. exact chosen_spec. Qed.
Print Assumptions C116_selected.

(** C116: there is one panel per selected event, in the order of the results. *)
Theorem C116_events : forall freq evs smm conf_smm smo conf_smo only nx cmap colors xlabel fig,
  plot_all freq evs smm conf_smm smo conf_smo only nx cmap colors xlabel = Ok fig ->
  map (fun p => sd_id (fst p)) (sf_events fig) = map fst (choose_events evs only).
Proof. exact spectra_events. Qed.
Print Assumptions C116_events.

Example C116_events_ex :
  exists fig, plot_all [3; 6] ex_spectra None (Some "fit") None (Some (Some ex_sp_none)) (Some ["e2"; "e1"]) None (Some "viridis_r") None true = Ok fig /\ sf_colourbar fig <> None.
Proof. apply ex_spectra_plot. now right. Qed.

(** C116: the panel of an event shows its own spectrum, with the given or configured method and
    options (see C86 for what that is); it is empty if and only if the spectrum has no value. *)
Theorem C116_shown : forall freq evs smm conf_smm smo conf_smo only nx cmap xlabel colors fig k id e,
  plot_all freq evs smm conf_smm smo conf_smo only nx cmap colors xlabel = Ok fig ->
  nth_error (choose_events evs only) k = Some (id, e) ->
  exists p omM m o, nth_error (map fst (sf_events fig)) k = Some p /\ sd_id p = id /\ se_sds e = Some omM /\
    method_used smm conf_smm m /\ options_used smo conf_smo o /\
    (sd_drawing p <> None <-> spectrum_value e) /\
    forall d, sd_drawing p = Some d -> exists colored, plot_sds freq omM (se_pars e) m o colored = Ok (Some d).
Proof. exact spectra_shown_used. Qed.
Print Assumptions C116_shown.

Example C116_shown_ex :
  (exists fig, plot_all [3; 6] ex_spectra None (Some "fit") None (Some (Some ex_sp_none)) None None (Some "viridis_r") None true = Ok fig /\ sf_colourbar fig <> None) /\
  nth_error (choose_events ex_spectra None) 1 = Some ("e2", {| se_sds := Some [FNum 50; FNan]; se_pars := ex_sp_none; se_nst := Some [5; 0]%nat |}).
Proof. split; [apply ex_spectra_plot; now left|reflexivity]. Qed.

(** C116: the colours of the points are the numbers of stations of this event, on the same scale up
    to the largest number in all panels. *)
Theorem C116_colours : forall freq evs smm conf_smm smo conf_smo only nx c xlabel fig,
  full_spectra (List.length freq) (choose_events evs only) ->
  plot_all freq evs smm conf_smm smo conf_smo only nx (Some c) None xlabel = Ok fig ->
  exists n, most_stations (choose_events evs only) n /\
    forall k id e l, nth_error (choose_events evs only) k = Some (id, e) -> se_nst e = Some l ->
      exists p, nth_error (map fst (sf_events fig)) k = Some p /\ sd_colour p = Stations l n.
Proof. exact spectra_colours. Qed.
Print Assumptions C116_colours.

Example C116_colours_ex : full_spectra 2 (choose_events ex_spectra None) /\ most_stations (choose_events ex_spectra None) 5 /\
  exists fig, plot_all [3; 6] ex_spectra None (Some "fit") None (Some (Some ex_sp_none)) None None (Some "viridis_r") None true = Ok fig /\ sf_colourbar fig <> None.
Proof.
  split; [apply ex_full_spectra; now left|]. split; [apply ex_most; now left|apply ex_spectra_plot; now left].
Qed.

(** C116: with given colours there is no colour bar, the points of an event have the colour that is
    given for it, and every event with a value has such a colour. *)
Theorem C116_given : forall freq evs smm conf_smm smo conf_smo only nx cmap xlabel c fig,
  one_entry c -> plot_all freq evs smm conf_smm smo conf_smo only nx cmap (Some c) xlabel = Ok fig ->
  sf_colourbar fig = None /\
  forall k id e, nth_error (choose_events evs only) k = Some (id, e) ->
    exists p, nth_error (map fst (sf_events fig)) k = Some p /\
      (forall x, colour_given c id x -> sd_colour p = Given_colour x) /\ (spectrum_value e -> exists x, colour_given c id x).
Proof. exact spectra_given. Qed.
Print Assumptions C116_given.

Example C116_given_ex : one_entry (Colour_dict [("e1", "C0"); ("e2", "C1")]) /\
  exists fig, plot_all [3; 6]%R ex_spectra None (Some "fit") None (Some (Some ex_sp_none)) None None (Some "viridis_r") (Some (Colour_dict [("e1", "C0"); ("e2", "C1")])) true = Ok fig.
Proof. split; [exact ex_entries|exact ex_given_plot]. Qed.

(** C116: without a colour map or without numbers of stations all points are black and there is no
    colour bar. *)
Theorem C116_black : forall freq evs smm conf_smm smo conf_smo only nx cmap xlabel fig,
  cmap = None \/ (forall id e, In (id, e) (choose_events evs only) -> se_nst e = None) ->
  plot_all freq evs smm conf_smm smo conf_smo only nx cmap None xlabel = Ok fig ->
  sf_colourbar fig = None /\ forall p cell, In (p, cell) (sf_events fig) -> sd_colour p = Black.
Proof. exact spectra_black. Qed.
Print Assumptions C116_black.

Example C116_black_ex : exists fig,
  plot_all [3; 6]%R ex_spectra None (Some "fit") None (Some (Some ex_sp_none)) None None None None true = Ok fig /\ sf_events fig <> [].
Proof. exact ex_black_plot. Qed.

(** C116: there is such a plot of spectra of one or more events, with a colour for each event with a
    value or without colours. *)
Theorem C116_total_given : forall freq evs smm conf_smm smo conf_smo only nx cmap xlabel colors,
  choose_events evs only <> [] ->
  (forall id e, In (id, e) (choose_events evs only) -> exists l, se_sds e = Some l /\ List.length l = List.length freq) ->
  nx <> Some 0%nat -> nx <> Some 1%nat -> (forall m, method_used smm conf_smm m -> m <> Some "mean") -> (forall o, options_used smo conf_smo o -> o <> None) ->
  match colors with
  | None => cmap = None \/ forall id e, In (id, e) (choose_events evs only) -> se_nst e = None
  | Some c => one_entry c /\ forall id e, In (id, e) (choose_events evs only) -> spectrum_value e -> exists x, colour_given c id x
  end ->
  exists fig, plot_all freq evs smm conf_smm smo conf_smo only nx cmap colors xlabel = Ok fig.
Proof. exact spectra_total_given_used. Qed.
Print Assumptions C116_total_given.

Example C116_total_given_ex : one_entry (Colour_dict [("e1", "C0"); ("e2", "C1")]) /\
  forall id e, In (id, e) (choose_events ex_spectra None) -> spectrum_value e -> exists x, colour_given (Colour_dict [("e1", "C0"); ("e2", "C1")]) id x.
Proof. split; [exact ex_entries|exact ex_all_given]. Qed.

(** C116: the colour bar is the one of the points if the last event has a value; else it belongs to
    no points. *)
Theorem C116_bar : forall freq evs smm conf_smm smo conf_smo only nx c xlabel fig cell pts,
  full_spectra (List.length freq) (choose_events evs only) ->
  plot_all freq evs smm conf_smm smo conf_smo only nx (Some c) None xlabel = Ok fig ->
  sf_colourbar fig = Some (cell, pts) ->
  forall id e l front, choose_events evs only = front ++ [(id, e)] -> se_nst e = Some l ->
  (spectrum_value e -> exists n, most_stations (choose_events evs only) n /\ pts = Some (Stations l n)) /\
  (~ spectrum_value e -> pts = None).
Proof. exact spectra_bar. Qed.
Print Assumptions C116_bar.

Example C116_bar_ex : full_spectra 2 (choose_events ex_spectra None) /\
  (exists fig, plot_all [3; 6] ex_spectra None (Some "fit") None (Some (Some ex_sp_none)) None None (Some "viridis_r") None true = Ok fig /\ sf_colourbar fig <> None) /\
  ~ spectrum_value {| se_sds := Some [FNan; FNan]; se_pars := ex_sp_none; se_nst := Some [0; 0]%nat |}.
Proof. split; [apply ex_full_spectra; now left|]. split; [apply ex_spectra_plot; now left|exact ex_e3]. Qed.

(** C116: so the colour bar is not the one of the points although there are some. *)
Theorem C116_bar_refuted : exists evs freq fig cell,
  full_spectra (List.length freq) evs /\ (exists id e, In (id, e) evs /\ spectrum_value e) /\
  plot_all freq evs None (Some "fit") None (Some (Some ex_sp_none)) None None (Some "viridis_r") None true = Ok fig /\
  sf_colourbar fig = Some (cell, None).
Proof. exact ex_bar_lost. Qed.
Print Assumptions C116_bar_refuted.

(** C116: with the method "mean" there is no plot if any selected event has a value. *)
Theorem C116_mean : forall freq evs smm conf_smm smo conf_smo only nx cmap colors xlabel,
  method_used smm conf_smm (Some "mean") -> (exists id e, In (id, e) (choose_events evs only) /\ spectrum_value e) ->
  forall fig, plot_all freq evs smm conf_smm smo conf_smo only nx cmap colors xlabel <> Ok fig.
Proof. exact spectra_mean_used. Qed.
Print Assumptions C116_mean.

Example C116_mean_ex : method_used None (Some "mean") (Some "mean") /\
  spectrum_value {| se_sds := Some [FNum 100; FNum 30]; se_pars := ex_sp_pars; se_nst := None |}.
Proof. split; [now split|]. exists [FNum 100; FNum 30], (FNum 100). repeat split; [now left|discriminate]. Qed.

(** C116: complete results with the method "mean" cannot be plotted. *)
Theorem C116_mean_refuted : exists evs freq,
  full_spectra (List.length freq) evs /\ (exists id e, In (id, e) evs /\ spectrum_value e) /\
  forall fig, plot_all freq evs None (Some "mean") None (Some (Some ex_sp_pars)) None None (Some "viridis_r") None true <> Ok fig.
Proof. exact ex_mean_method. Qed.
Print Assumptions C116_mean_refuted.
