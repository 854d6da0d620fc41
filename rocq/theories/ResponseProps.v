(** Property C121: the instrument correction.  Theorems only. *)
From Coq Require Import String List Reals.
From Verif Require Import Base ResponseModel ResponseSpec ResponseProof ResponseEx.
Import ListNotations.
Open Scope string_scope.
Open Scope list_scope.

(** C121: without a correction nothing is changed. *)
Theorem C121_none : forall inventory deconvolve plot o evid streams pairs,
  correct_response inventory deconvolve None plot o evid streams pairs = Ok (streams, pairs, []).
Proof. exact response_none. Qed.
Print Assumptions C121_none.

(** C121: with the sensitivity each sample of each trace is divided by the sensitivity of its
    channel; streams with a channel without response or sensitivity are left out, all others are
    kept, and so are exactly their pairs. *)
Theorem C121_sensitivity : forall inventory deconvolve, sensitive inventory ->
  forall plot o evid streams pairs g, one_each streams pairs ->
  exists ss, correct_response inventory deconvolve (Some Sensitivity) plot o evid streams pairs = Ok (ss, map i_pair ss, []) /\
    kept inventory deconvolve g Sensitivity streams ss.
Proof. exact response_sensitivity. Qed.
Print Assumptions C121_sensitivity.

Example C121_sensitivity_ex : sensitive inventory_r /\ one_each streams_r pairs_r.
Proof. exact (conj sensitive_r one_each_r). Qed.

(** C121: with the full response each trace is deconvolved with the response of its channel;
    streams with a channel without response or for which it fails are left out, all others are
    kept, and so are exactly their pairs.  If plots are requested there is one for each trace
    that is kept. *)
Theorem C121_full : forall inventory deconvolve plot o evid streams pairs, one_each streams pairs ->
  exists ss, correct_response inventory deconvolve (Some Full) plot o evid streams pairs
      = Ok (ss, map i_pair ss, plot_files plot o evid ss) /\
    kept inventory deconvolve (plot_file plot o evid) Full streams ss.
Proof. exact response_full'. Qed.
Print Assumptions C121_full.

Example C121_full_ex : one_each streams_r pairs_r /\
  exists ss fs, correct_response inventory_r deconvolve_r (Some Full) true {| ro_fname := None; ro_plot := None |} "e2" streams_r pairs_r
  = Ok (ss, [("e1", "A"); ("e2", "A")], fs) /\ length ss = 2%nat.
Proof. exact (conj one_each_r none_r). Qed.

(** C121: for one event the plots are named after the event and the channel, *)
Theorem C121_plot_names : forall requested evid0 evid o ss, requested <> [] -> (forall p, In p requested -> fst p = evid) ->
  ro_fname o = None ->
  plot_files true o (last_event requested evid0) ss =
    map (fun tr => ("remove_response_" ++ evid ++ "_" ++ i_id tr ++ ".png")%string) (flat_map i_traces ss).
Proof. exact plots_single. Qed.
Print Assumptions C121_plot_names.

Example C121_plot_names_ex : plot_files true {| ro_fname := None; ro_plot := None |} (last_event [("e1", "A"); ("e1", "C")] "") [stream_r "e1" "A"]
  = ["remove_response_e1_A.png"].
Proof. exact eq_refl. Qed.

(** C121: and channels have plots of their own. *)
Theorem C121_plots_distinct : forall requested evid0 evid o ss, requested <> [] -> (forall p, In p requested -> fst p = evid) ->
  ro_fname o = None -> NoDup (map i_id (flat_map i_traces ss)) ->
  NoDup (plot_files true o (last_event requested evid0) ss).
Proof. exact plots_distinct. Qed.
Print Assumptions C121_plots_distinct.

Example C121_plots_distinct_ex : map i_id (flat_map i_traces [stream_r "e1" "A"; stream_r "e1" "B"]) = ["A"; "B"].
Proof. exact eq_refl. Qed.

(** C121: this is false for several events: all plots have the name of the last event, so plots of
    the same channel overwrite each other. *)
Theorem C121_plots_refuted : exists inventory deconvolve o requested evid0 streams pairs ss ps f,
  one_each streams pairs /\ requested = pairs /\ ro_fname o = None /\
  correct_response inventory deconvolve (Some Full) true o (last_event requested evid0) streams pairs = Ok (ss, ps, [f; f]) /\
  map (fun s => map i_id (i_traces s)) ss = [["A"]; ["A"]] /\ map fst ps = ["e1"; "e2"] /\ f = "remove_response_e2_A.png".
Proof. exact joint_r. Qed.
Print Assumptions C121_plots_refuted.
