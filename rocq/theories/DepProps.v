(** Properties of the data drawn by plots: C75, C84, C86, C87. *)
From Coq Require Import String List Bool Reals Lra.
From Verif Require Import Base Pyf SourceModel DepModel DepSpec DepSpec2 DepProof DepProof2 DepEx.
Import ListNotations.
Open Scope R_scope.

(** Derived quantities of many events: the array keeps its shape, every value is the
    quantity of its own event and frequency, missing values stay missing. *)
Theorem C75_events : forall q rows fs v0 ne nf,
  In q quantities -> shape2 ne nf rows -> length fs = nf -> velocities ne v0 ->
  exists r, calc_dependent q (N2 rows) (AArray fs) v0 = Ok (Some (N2 r)) /\ shape2 ne nf r /\
    (forall i j x f v, at2 rows i j = Some (FNum x) -> x <> 0 -> nth_error fs j = Some f -> f <> 0 -> velocity_at v0 i = Some v ->
      exists y, at2 r i j = Some (FNum y) /\ derived q x f v y) /\
    (forall i j, at2 rows i j = Some FNan -> at2 r i j = Some FNan).
Proof. exact calc2_good. Qed.
Print Assumptions C75_events.

Example C75_events_ex : In "Qsc"%string quantities /\ shape2 2 1 [[FNum (1 / 100000)]; [FNan]] /\ length [3] = 1%nat /\
  velocities 2 (AArray [3000; 3500]).
Proof. exact ex_calc2. Qed.

(** The same for the values of one event. *)
Theorem C75_event : forall q l fs v,
  In q quantities -> length fs = length l ->
  exists r, calc_dependent q (N1 l) (AArray fs) (AScalar v) = Ok (Some (N1 r)) /\ length r = length l /\
    (forall j x f, nth_error l j = Some (FNum x) -> x <> 0 -> nth_error fs j = Some f -> f <> 0 ->
      exists y, nth_error r j = Some (FNum y) /\ derived q x f v y) /\
    (forall j, nth_error l j = Some FNan -> nth_error r j = Some FNan).
Proof. exact calc1_good. Qed.
Print Assumptions C75_event.

Example C75_event_ex : In "li"%string quantities /\ length [3; 6] = length [FNum 1; FNan].
Proof. exact ex_calc1. Qed.

(** The same for one value: the quality factors have a value for each frequency,
    the lengths a single one. *)
Theorem C75_value : forall q x fs v,
  (q = "Qsc" \/ q = "Qi")%string -> x <> 0 ->
  exists r, calc_dependent q (N0 (FNum x)) (AArray fs) (AScalar v) = Ok (Some (N1 r)) /\ length r = length fs /\
    forall j f, nth_error fs j = Some f -> f <> 0 -> exists y, nth_error r j = Some (FNum y) /\ derived q x f v y.
Proof. exact calc0_good. Qed.
Print Assumptions C75_value.

Example C75_value_ex : ("Qi" = "Qsc" \/ "Qi" = "Qi")%string /\ 1 / 100 <> 0.
Proof. split; [now right | lra]. Qed.

Theorem C75_length : forall q x v freq, (q = "lsc" \/ q = "li")%string -> x <> 0 ->
  exists y, calc_dependent q (N0 (FNum x)) freq (AScalar v) = Ok (Some (N0 (FNum y))) /\ derived q x 1 v y.
Proof. exact calc0_one. Qed.
Print Assumptions C75_length.

Example C75_length_ex : ("li" = "lsc" \/ "li" = "li")%string /\ 1 / 100 <> 0.
Proof. split; [now right | lra]. Qed.

(** A number as frequency counts for all values. *)
Theorem C75_single : forall q l f v, In q quantities ->
  exists r, calc_dependent q (N1 l) (AScalar f) (AScalar v) = Ok (Some (N1 r)) /\ length r = length l /\
    forall j x, nth_error l j = Some (FNum x) -> x <> 0 -> f <> 0 -> exists y, nth_error r j = Some (FNum y) /\ derived q x f v y.
Proof. exact calc1_single. Qed.
Print Assumptions C75_single.

Example C75_single_ex : In "Qi"%string quantities.
Proof. cbn. tauto. Qed.

Theorem C75_single_value : forall q x f v, In q quantities -> x <> 0 -> f <> 0 ->
  exists y, calc_dependent q (N0 (FNum x)) (AScalar f) (AScalar v) = Ok (Some (N0 (FNum y))) /\ derived q x f v y.
Proof. exact calc0_single. Qed.
Print Assumptions C75_single_value.

Example C75_single_value_ex : In "Qsc"%string quantities /\ 1 / 100 <> 0 /\ 3 <> 0.
Proof. split; [cbn; tauto|lra]. Qed.

(** Arrays of different lengths: a single event, velocity or frequency counts for all. *)
Theorem C75_broadcast : forall rows fs vs ne nf k m,
  shape2 ne nf rows -> axis ne (length vs) k -> axis nf (length fs) m ->
  exists r, calc_dependent "Qsc" (N2 rows) (AArray fs) (AArray vs) = Ok (Some (N2 r)) /\ shape2 k m r /\
    forall i j x f v, (i < k)%nat -> (j < m)%nat -> along2 rows i j (FNum x) -> along fs j f -> f <> 0 -> along vs i v ->
      exists y, at2 r i j = Some (FNum y) /\ derived "Qsc" x f v y.
Proof. exact qsc_along. Qed.
Print Assumptions C75_broadcast.

Example C75_broadcast_ex :
  shape2 1 2 [[FNum (1 / 100000); FNum (1 / 50000)]] /\ axis 1 (length [3000; 3500]) 2 /\ axis 2 (length [3]) 2.
Proof. exact ex_along. Qed.

Theorem C75_broadcast_length : forall rows freq vs ne nf k,
  shape2 ne nf rows -> axis ne (length vs) k ->
  exists r, calc_dependent "li" (N2 rows) freq (AArray vs) = Ok (Some (N2 r)) /\ shape2 k nf r /\
    forall i j x v, (i < k)%nat -> (j < nf)%nat -> along2 rows i j (FNum x) -> x <> 0 -> along vs i v ->
      exists y, at2 r i j = Some (FNum y) /\ derived "li" x 1 v y.
Proof. exact li_along. Qed.
Print Assumptions C75_broadcast_length.

Example C75_broadcast_length_ex :
  shape2 1 2 [[FNum (1 / 100000); FNum (1 / 50000)]] /\ axis 1 (length [3000; 3500]) 2 /\ axis 2 (length [3]) 2.
Proof. exact ex_along. Qed.

(** The values of one event with several velocities are treated as one row. *)
Theorem C75_one_event : forall q l freq vs, (q = "Qsc" \/ q = "li")%string ->
  calc_dependent q (N1 l) freq (AArray vs) = calc_dependent q (N2 [l]) freq (AArray vs).
Proof. exact one_event. Qed.
Print Assumptions C75_one_event.

Example C75_one_event_ex : ("li" = "Qsc" \/ "li" = "li")%string.
Proof. now right. Qed.

(** Other lengths raise ValueError. *)
Theorem C75_lengths : forall q rows freq vs, (q = "Qsc" \/ q = "li")%string ->
  length rows <> length vs -> length rows <> 1%nat -> length vs <> 1%nat ->
  calc_dependent q (N2 rows) freq (AArray vs) = Err ValueError.
Proof. exact lengths_err. Qed.
Print Assumptions C75_lengths.

Example C75_lengths_ex : length [[FNum 1]; [FNum 2]] <> length [1; 2; 3] /\ length [[FNum 1]; [FNum 2]] <> 1%nat /\ length [1; 2; 3] <> 1%nat.
Proof. repeat split; discriminate. Qed.

Theorem C75_frequencies : forall q l fs v, (q = "Qsc" \/ q = "Qi")%string ->
  length l <> length fs -> length l <> 1%nat -> length fs <> 1%nat ->
  calc_dependent q (N1 l) (AArray fs) (AScalar v) = Err ValueError.
Proof. exact freqs_err. Qed.
Print Assumptions C75_frequencies.

Example C75_frequencies_ex : length [FNum 1; FNum 2] <> length [1; 2; 3] /\ length [FNum 1; FNum 2] <> 1%nat /\ length [1; 2; 3] <> 1%nat.
Proof. repeat split; discriminate. Qed.

(** Without scattering or absorption the length is infinite. *)
Theorem C75_infinite : forall q freq v, (q = "lsc" \/ q = "li")%string -> 0 < v ->
  calc_dependent q (N0 (FNum 0)) freq (AScalar v) = Ok (Some (N0 FPInf)).
Proof. exact length_zero. Qed.
Print Assumptions C75_infinite.

Example C75_infinite_ex : ("li" = "lsc" \/ "li" = "li")%string /\ 0 < 3000.
Proof. split; [now right | lra]. Qed.

(** With the default velocity no quantity is calculated, even if no velocity is
    needed for it. *)
Theorem C75_default : forall q val freq, calc_dependent q val freq ANone = Err TypeError.
Proof. exact calc_none. Qed.
Print Assumptions C75_default.

(** Quantities that need no velocity fail with the default velocity. *)
Theorem C75_default_refuted : exists q val freq, In q quantities /\ ~ exists r, calc_dependent q val freq ANone = Ok r.
Proof. exact ex_calc_refuted. Qed.
Print Assumptions C75_default_refuted.

(** There are limits of the frequency axis exactly if there are two frequencies. *)
Theorem C84_exists : forall freq, freqlim freq <> None <-> (2 <= length freq)%nat.
Proof. exact freqlim_exists. Qed.
Print Assumptions C84_exists.

(** They enclose all frequencies, in either order. *)
Theorem C84_increasing : forall freq lim, increasing freq -> (forall f, In f freq -> 0 < f) ->
  freqlim freq = Some lim -> forall f, In f freq -> fst lim < f < snd lim.
Proof. exact limits_increasing. Qed.
Print Assumptions C84_increasing.

Example C84_increasing_ex : increasing [1; 2; 4] /\ (forall f, In f [1; 2; 4] -> 0 < f) /\ exists lim, freqlim [1; 2; 4] = Some lim.
Proof. exact ex_lim. Qed.

Theorem C84_decreasing : forall freq lim, decreasing freq -> (forall f, In f freq -> 0 < f) ->
  freqlim freq = Some lim -> forall f, In f freq -> snd lim < f < fst lim.
Proof. exact limits_decreasing. Qed.
Print Assumptions C84_decreasing.

Example C84_decreasing_ex : decreasing [4; 2; 1] /\ (forall f, In f [4; 2; 1] -> 0 < f) /\ exists lim, freqlim [4; 2; 1] = Some lim.
Proof. exact ex_lim_dec. Qed.

(** The limits are half a step away from the first and the last frequency on the
    logarithmic axis. *)
Theorem C84_half_step : forall freq lim f0 f1 l e1 e0 m, freq = f0 :: f1 :: l -> freq = m ++ [e1; e0] ->
  freqlim freq = Some lim ->
  ln (fst lim) = ln f0 - (ln f1 - ln f0) / 2 /\ ln (snd lim) = ln e0 + (ln e0 - ln e1) / 2.
Proof. exact limits_half_step. Qed.
Print Assumptions C84_half_step.

Example C84_half_step_ex : [1; 2; 4] = 1 :: 2 :: [4] /\ [1; 2; 4] = [1] ++ [2; 4] /\ exists lim, freqlim [1; 2; 4] = Some lim.
Proof. exact ex_half. Qed.

(** The plot of a spectrum shows the value of every frequency. *)
Theorem C86_points : forall freq omM result method smo colored,
  method <> Some "mean"%string -> length freq = length omM -> (exists o, In o omM /\ o <> FNan) ->
  exists d, plot_sds freq omM result method (Some smo) colored = Ok (Some d) /\
    length (d_points d) = length freq /\
    (forall i f o, nth_error freq i = Some f -> nth_error omM i = Some o -> nth_error (d_points d) i = Some (f, o)).
Proof. exact sds_ok. Qed.
Print Assumptions C86_points.

Example C86_points_ex : Some "fit"%string <> Some "mean"%string /\ length [1; 2] = length [FNum 3; FNan] /\
  (exists o, In o [FNum 3; FNan] /\ o <> FNan).
Proof. exact ex_sds_points. Qed.

(** The curve is the source model with the parameters fixed by the options or
    found by the fit. *)
Theorem C86_model : forall freq omM result method smo colored d f,
  fit_method method -> plot_sds freq omM result method (Some smo) colored = Ok (Some d) ->
  (d_model d <> None <-> (exists M0, first_given (p_M0 smo) (p_M0 result) 0 M0 /\ M0 <> 0) /\
                         (exists fc, first_given (p_fc smo) (p_fc result) 0 fc /\ fc <> 0)) /\
  (forall model, d_model d = Some model ->
    exists M0 fc n gamma,
      first_given (p_M0 smo) (p_M0 result) 0 M0 /\ first_given (p_fc smo) (p_fc result) 0 fc /\
      first_given (p_n smo) (p_n result) 2 n /\ first_given (p_gamma smo) (p_gamma result) 1 gamma /\
      model f = M0 * Rpower (1 + Rpower (f / fc) (n * gamma)) (- (1) / gamma) /\ d_level d = Some M0).
Proof. exact sds_model. Qed.
Print Assumptions C86_model.

Example C86_model_ex : exists d, fit_method (Some "fit"%string) /\
  plot_sds [1; 2] [FNum 3; FNan] ex_pars (Some "fit"%string) (Some no_pars) true = Ok (Some d) /\ d_model d <> None.
Proof. exact ex_sds. Qed.

(** The curve lies below the level of the seismic moment. *)
Theorem C86_below : forall freq omM result method smo colored d model M0 f,
  fit_method method -> plot_sds freq omM result method (Some smo) colored = Ok (Some d) ->
  d_model d = Some model -> d_level d = Some M0 -> 0 < M0 ->
  (forall g, first_given (p_gamma smo) (p_gamma result) 1 g -> 0 < g) -> 0 < model f < M0.
Proof. exact sds_below. Qed.
Print Assumptions C86_below.

Example C86_below_ex : exists d model M0,
  fit_method (Some "fit"%string) /\
  plot_sds [1; 2] [FNum 3; FNan] ex_pars (Some "fit"%string) (Some no_pars) true = Ok (Some d) /\
  d_model d = Some model /\ d_level d = Some M0 /\ 0 < M0 /\
  (forall g, first_given (p_gamma no_pars) (p_gamma ex_pars) 1 g -> 0 < g).
Proof. exact ex_sds_below. Qed.

(** With the method "mean" no spectrum is ever plotted. *)
Theorem C86_mean : forall freq omM result smo colored d,
  plot_sds freq omM result (Some "mean"%string) smo colored <> Ok (Some d).
Proof. exact sds_mean_fails. Qed.
Print Assumptions C86_mean.

(** A result with the method "mean" has a moment, but its spectrum cannot be plotted. *)
Theorem C86_mean_refuted : exists freq omM result smo colored,
  p_M0 result <> None /\ (exists o, In o omM /\ o <> FNan) /\ length freq = length omM /\
  ~ exists d, plot_sds freq omM result (Some "mean"%string) (Some smo) colored = Ok (Some d).
Proof. exact ex_sds_mean. Qed.
Print Assumptions C86_mean_refuted.

(** The plot of the magnitudes shows the selected events with both magnitudes; the
    line is fitted to the points shown if there are more than three. *)
Theorem C87_points : forall fit events only pts line, plot_mags fit events only = Some (pts, line) ->
  (forall c w, In (c, w) pts <-> exists e, In e events /\ m_cat e = Some c /\ m_w e = Some w /\
                                   (forall l, only = Some l -> In (m_id e) l)) /\
  pts <> [] /\ (line <> None <-> (3 < length pts)%nat) /\
  (forall ab, line = Some ab -> ab = fit (map snd pts) (map fst pts)).
Proof. exact mags_points. Qed.
Print Assumptions C87_points.

Example C87_points_ex : forall fit, exists pts line, plot_mags fit ex_mags None = Some (pts, line).
Proof. exact ex_mags_plot. Qed.

(** The empty selection is all events in the plot of the spectra and none in the
    plot of the magnitudes. *)
Theorem C87_selection_refuted : exists fit events only l,
  selected_sds (map m_id events) only = Ok l /\ (forall e, In e events -> m_cat e <> None /\ m_w e <> None) /\
  events <> [] /\ l = map m_id events /\ plot_mags fit events only = None.
Proof. exact ex_selection. Qed.
Print Assumptions C87_selection_refuted.

(** A selection without any event is an exception in the plot of the spectra. *)
Theorem C87_none_refuted : exists ids only, ids <> [] /\ selected_sds ids only = Err IndexError.
Proof. exact ex_selection_none. Qed.
Print Assumptions C87_none_refuted.
