(** Properties C117, C118: the plots of the result of one inversion.  Theorems only. *)
From Coq Require Import String List Reals Arith Permutation Sorted.
From Verif Require Import Base Pyf DepModel DepSpec PanelSpec SingleModel SingleSpec SingleProof SingleProof2 SingleEx.
Import ListNotations.
Open Scope string_scope.
Open Scope list_scope.

(** C117: a panel for each quantity in a square grid, the frequency axis ends at the first and
    last frequency. *)
Theorem C117_total : forall nf r e, joint nf r e -> forall freq v0 quantities method smo, List.length freq = nf -> forall v,
  nf <> 0%nat -> quantities <> [] -> available r quantities -> velocity_of_plot v0 r v -> method <> Some "mean" ->
  exists fig, plot_eventresult freq r v0 quantities method (Some smo) = Ok fig /\
    List.length (ef_panels fig) = List.length quantities /\
    (forall k p c, nth_error (ef_panels fig) k = Some (p, c) -> square_cell (List.length quantities) k c) /\
    nth_error freq 0 = Some (fst (ef_xlim fig)) /\ nth_error freq (nf - 1) = Some (snd (ef_xlim fig)).
Proof. exact single_total. Qed.
Print Assumptions C117_total.

Example C117_total_ex : joint 2 (result_s (Some 3%R)) event_s /\ available (result_s (Some 3%R)) nine /\
  velocity_of_plot None (result_s (Some 3%R)) 3.
Proof. exact (conj (joint_s _) (conj (available_s _) velocity_s)). Qed.

(** C117: the panel of a quantity shows the quantity calculated from the value at each frequency
    with the velocity of the argument, the result or the configuration; missing values stay
    missing.  W is the one of the first event.  Only errors have a linear axis. *)
Theorem C117_shown : forall nf r e, joint nf r e ->
  forall freq v0 quantities method smo fig k q c l v,
  List.length freq = nf -> plot_eventresult freq r v0 quantities method (Some smo) = Ok fig -> velocity_of_plot v0 r v ->
  nth_error quantities k = Some q -> from_list q c ->
  (c <> "W" -> stored (er_lists r) c l) -> (c = "W" -> stored (ev_lists e) c l) ->
  exists pts cell linear, nth_error (ef_panels fig) k = Some (EPoints linear pts, cell) /\ (linear = true <-> q = "error") /\ map fst pts = freq /\
    (forall j x f, nth_error l j = Some (FNum x) -> x <> 0%R -> nth_error freq j = Some f -> f <> 0%R ->
       exists y, nth_error pts j = Some (f, FNum y) /\ derived q x f v y) /\
    (forall j f, nth_error l j = Some FNan -> nth_error freq j = Some f -> nth_error pts j = Some (f, FNan)).
Proof. exact single_shown. Qed.
Print Assumptions C117_shown.

Example C117_shown_ex : from_list "Qsc" "g0" /\ stored (er_lists (result_s (Some 3%R))) "g0" [FNum 1; FNan] /\
  exists fig, plot_eventresult freq_s (result_s (Some 3%R)) None nine (Some "fit") (Some no_pars_s) = Ok fig.
Proof. split; [left; cbn; tauto|]. split; [reflexivity|exact total_s]. Qed.

(** C117: the panel of the spectrum shows the spectrum of the first event with its numbers of
    stations, and the source model with the parameters of the options or of this event; it is empty
    if there is no value. *)
Theorem C117_spectrum : forall nf r e, joint nf r e ->
  forall freq v0 quantities method smo fig k l,
  List.length freq = nf -> nf <> 0%nat -> method <> Some "mean" ->
  plot_eventresult freq r v0 quantities method (Some smo) = Ok fig ->
  nth_error quantities k = Some "sds" -> stored (ev_lists e) "sds" l ->
  exists d cell, nth_error (ef_panels fig) k = Some (ESpectrum d (ev_nst e), cell) /\
    (d = None <-> forall x, In x l -> x = FNan) /\
    forall d', d = Some d' -> List.length (d_points d') = nf /\
      (forall j f x, nth_error freq j = Some f -> nth_error l j = Some x -> nth_error (d_points d') j = Some (f, x)) /\
      (forall model, d_model d' = Some model -> forall f, exists M0 fc n gamma,
         first_given (p_M0 smo) (p_M0 (ev_pars e)) 0 M0 /\ first_given (p_fc smo) (p_fc (ev_pars e)) 0 fc /\
         first_given (p_n smo) (p_n (ev_pars e)) 2 n /\ first_given (p_gamma smo) (p_gamma (ev_pars e)) 1 gamma /\
         model f = (M0 * Rpower (1 + Rpower (f / fc) (n * gamma)) (- (1) / gamma))%R /\ d_level d' = Some M0).
Proof. exact single_spectrum. Qed.
Print Assumptions C117_spectrum.

Example C117_spectrum_ex : joint 2 (result_s (Some 3%R)) event_s /\ nth_error nine 8 = Some "sds" /\
  stored (ev_lists event_s) "sds" [FNum 7; FNan] /\
  exists fig, plot_eventresult freq_s (result_s (Some 3%R)) None nine (Some "fit") (Some no_pars_s) = Ok fig.
Proof. exact (conj (joint_s _) (conj eq_refl (conj eq_refl total_s))). Qed.

(** C117: further events of the result do not matter. *)
Theorem C117_first : forall freq r x l v0 quantities method smo, er_events r = Some (x :: l) ->
  plot_eventresult freq r v0 quantities method smo =
  plot_eventresult freq {| er_lists := er_lists r; er_v0 := er_v0 r; er_conf := er_conf r; er_events := Some [x] |} v0 quantities method smo.
Proof. exact single_first. Qed.
Print Assumptions C117_first.

Example C117_first_ex : er_events (result_s None) = Some (("e1", event_s) :: [("e2", event_s)]).
Proof. reflexivity. Qed.

(** C117: without any velocity there is no plot, unless only the spectrum is asked for. *)
Theorem C117_velocity : forall freq r v0 quantities method smo q fig,
  missing v0 -> missing (er_v0 r) -> er_conf r = None -> In q quantities -> q <> "sds" ->
  plot_eventresult freq r v0 quantities method smo <> Ok fig.
Proof. exact single_velocity. Qed.
Print Assumptions C117_velocity.

Example C117_velocity_ex : missing None /\ missing (er_v0 (result_s None)) /\ er_conf (result_s None) = None /\ In "g0" nine /\ "g0" <> "sds".
Proof. split; [now left|]. split; [now left|]. split; [reflexivity|]. split; [now left|discriminate]. Qed.

(** C117, false: g0, b and error are shown without a velocity. *)
Theorem C117_velocity_refuted : exists nf r e freq quantities, joint nf r e /\ List.length freq = nf /\ nf <> 0%nat /\ quantities <> [] /\
  (forall q, In q quantities -> In q ["g0"; "b"; "error"]) /\ available r quantities /\
  forall v0 method smo fig, missing v0 -> plot_eventresult freq r v0 quantities method smo <> Ok fig.
Proof. exact velocity_wrong. Qed.
Print Assumptions C117_velocity_refuted.

(** C117: with the method "mean" there is no plot if there is a spectrum. *)
Theorem C117_mean : forall nf r e, joint nf r e ->
  forall freq v0 quantities smo fig l x, In "sds" quantities -> stored (ev_lists e) "sds" l -> In x l -> x <> FNan ->
  plot_eventresult freq r v0 quantities (Some "mean") smo <> Ok fig.
Proof. exact single_mean. Qed.
Print Assumptions C117_mean.

Example C117_mean_ex : joint 2 (result_s None) event_s /\ In "sds" nine /\ stored (ev_lists event_s) "sds" [FNum 7; FNan] /\ FNum 7 <> FNan.
Proof. split; [apply joint_s|]. split; [cbn; tauto|]. split; [reflexivity|discriminate]. Qed.

(** C117, false: the result of an inversion with the method "mean" can be plotted. *)
Theorem C117_mean_refuted : exists nf r e freq v, joint nf r e /\ List.length freq = nf /\ nf <> 0%nat /\ velocity_of_plot None r v /\
  available r (event_quantities r) /\ p_M0 (ev_pars e) <> None /\
  forall v0 smo fig, plot_eventresult freq r v0 (event_quantities r) (Some "mean") smo <> Ok fig.
Proof. exact mean_wrong. Qed.
Print Assumptions C117_mean_refuted.

(** C117: the plot at the end of the inversion has each quantity once: those of g0 and b if g0 was
    inverted for, the error, and W and the spectrum if there is W. *)
Theorem C117_quantities : forall r, (forall q, In q (event_quantities r) <->
    (In q ["g0"; "lsc"; "Qsc"; "b"; "li"; "Qi"] /\ exists l, stored (er_lists r) "g0" l) \/ q = "error" \/
    (In q ["W"; "sds"] /\ ((exists l, stored (er_lists r) "W" l) \/
       exists evs id e l, er_events r = Some evs /\ In (id, e) evs /\ stored (ev_lists e) "W" l))) /\
  NoDup (event_quantities r).
Proof. exact single_quantities. Qed.
Print Assumptions C117_quantities.

(** C118: the plot of the sites has a panel for each station in the order of the names in a square
    grid.  It shows the site response at each frequency and is empty if there is no value.  The
    limits are the smallest and largest value of all stations unless they are equal. *)
Theorem C118_shown : forall freq sites, freq <> [] -> (forall sta l, In (sta, l) sites -> List.length l = List.length freq) ->
  (exists x, site_value sites x) ->
  exists fig order, plot_eventsites freq sites = Ok fig /\ Permutation order sites /\
    StronglySorted (fun a b => String.leb a b = true) (map fst order) /\
    List.length (sg_panels fig) = List.length sites /\
    (forall k p c, nth_error (sg_panels fig) k = Some (p, c) ->
       square_cell (List.length sites) k c /\ exists sta l, nth_error order k = Some (sta, l) /\ sp_station p = sta /\
         (sp_points p = None <-> forall x, ~ In (Some x) l) /\
         (forall pts, sp_points p = Some pts -> pts = combine freq l)) /\
    (exists a b, least (site_value sites) a /\ largest (site_value sites) b /\
       (sg_ylim fig = None <-> a = b) /\ forall lim, sg_ylim fig = Some lim -> lim = (a, b)) /\
    nth_error freq 0 = Some (fst (sg_xlim fig)) /\ nth_error freq (List.length freq - 1) = Some (snd (sg_xlim fig)).
Proof. exact sites_shown. Qed.
Print Assumptions C118_shown.

Example C118_shown_ex : (forall sta l, In (sta, l) sites_s -> List.length l = List.length freq_s) /\ exists x, site_value sites_s x.
Proof. exact (conj sites_lengths_s sites_value_s). Qed.

(** C118: without any value there is no plot. *)
Theorem C118_nothing : forall freq sites fig, (forall x, ~ site_value sites x) -> plot_eventsites freq sites <> Ok fig.
Proof. exact sites_nothing. Qed.
Print Assumptions C118_nothing.

Example C118_nothing_ex : forall x, ~ site_value [("A", [None; None])] x.
Proof. intros x (sta & l & [[= <- <-]|[]] & I); cbn in I; intuition discriminate. Qed.

(** C118, false: stations without values have empty panels, even if there are no others. *)
Theorem C118_nothing_refuted : exists freq sites, sites <> [] /\ freq <> [] /\
  (forall sta l, In (sta, l) sites -> List.length l = List.length freq) /\ forall fig, plot_eventsites freq sites <> Ok fig.
Proof. exact nothing_wrong. Qed.
Print Assumptions C118_nothing_refuted.
