(** Properties C18 - C26: source spectra and source parameters
    (/repo/qopen/source.py).

    [rlm1], [lin2], [min1] and [minN] stand for the robust location estimate,
    the straight line fit and the scalar and multivariate optimisers of
    statsmodels and scipy; theorems hold for all of them unless a hypothesis
    restricts them. *)
From Coq Require Import String List Bool Reals Lra Lia Permutation.
From Coquelicot Require Import Coquelicot.
From Verif Require Import Base Pyf StatModel StatSpec StatProof SortModel SourceModel SourceSpec
  SourceProof SourceProof2 SourceProof3 SourceProof4 SourceProof5 SourceEx.
Import ListNotations.
Open Scope string_scope.
Open Scope list_scope.
Open Scope R_scope.

(** C18: conversion back and forth *)
Theorem C18_inverse : forall M0, 0 < M0 -> moment_magnitude_inverse (moment_magnitude M0) = M0.
Proof. exact mm_inverse. Qed.
Print Assumptions C18_inverse.

Theorem C18_inverse_back : forall Mw, moment_magnitude (moment_magnitude_inverse Mw) = Mw.
Proof. exact mm_inverse'. Qed.
Print Assumptions C18_inverse_back.

(** C18: larger moment, larger magnitude *)
Theorem C18_increasing : forall a b, 0 < a -> a < b -> moment_magnitude a < moment_magnitude b.
Proof. exact mm_increasing. Qed.
Print Assumptions C18_increasing.

(** C18: one unit of magnitude is a factor 10^1.5 *)
Theorem C18_unit : forall M0, 0 < M0 ->
  moment_magnitude (Rpower 10 (3 / 2) * M0) = moment_magnitude M0 + 1.
Proof. exact mm_unit. Qed.
Print Assumptions C18_unit.

Example C18_ex : 0 < 2 /\ 2 < 3 /\ moment_magnitude 2 < moment_magnitude 3.
Proof. repeat split; try lra. apply mm_increasing; lra. Qed.

(** C19: positive, and W can be recovered *)
Theorem C19_positive : forall W f v rho, 0 < W -> 0 < f -> 0 < v -> 0 < rho -> 0 < sds W f v rho.
Proof. exact sds_pos. Qed.
Print Assumptions C19_positive.

Theorem C19_recover_W : forall W f v rho, 0 < W -> 0 < f -> 0 < v -> 0 < rho ->
  W = sds W f v rho ^ 2 * PI * f ^ 2 / ((5 / 2) * rho * v ^ 5).
Proof. exact sds_W. Qed.
Print Assumptions C19_recover_W.

(** C19: scaling with W, density, frequency and velocity *)
Theorem C19_scale_W : forall k W f v rho, 0 < k -> 0 < W -> 0 < f -> 0 < v -> 0 < rho ->
  sds (k * W) f v rho = sqrt k * sds W f v rho.
Proof. exact sds_scale_W. Qed.
Print Assumptions C19_scale_W.

Theorem C19_scale_rho : forall k W f v rho, 0 < k -> 0 < W -> 0 < f -> 0 < v -> 0 < rho ->
  sds W f v (k * rho) = sqrt k * sds W f v rho.
Proof. exact sds_scale_rho. Qed.
Print Assumptions C19_scale_rho.

Theorem C19_scale_f : forall k W f v rho, 0 < k -> 0 < W -> 0 < f -> 0 < v -> 0 < rho ->
  sds W (k * f) v rho = sds W f v rho / k.
Proof. exact sds_scale_f. Qed.
Print Assumptions C19_scale_f.

Theorem C19_scale_v : forall k W f v rho, 0 < k -> 0 < W -> 0 < f -> 0 < v -> 0 < rho ->
  sds W f (k * v) rho = Rpower k (5 / 2) * sds W f v rho.
Proof. exact sds_scale_v. Qed.
Print Assumptions C19_scale_v.

Example C19_ex : 0 < 4 /\ 0 < 2 /\ 0 < 3500 /\ 0 < 2700 /\ sds (4 * 1) 2 3500 2700 = 2 * sds 1 2 3500 2700.
Proof.
  repeat split; try lra. rewrite sds_scale_W by lra. f_equal.
  replace 4 with (2 * 2) by ring. apply sqrt_square. lra.
Qed.

(** C20: the documented shape *)
Theorem C20_formula : forall f M0 fc n g, source_model f M0 fc n g = abercrombie M0 fc n g f.
Proof. exact source_model_spec. Qed.
Print Assumptions C20_formula.

Theorem C20_bounds : forall f M0 fc n g, 0 < M0 -> 0 < g -> 0 < source_model f M0 fc n g < M0.
Proof. exact source_model_bounds. Qed.
Print Assumptions C20_bounds.

Theorem C20_decreasing : forall f f' M0 fc n g,
  0 < M0 -> 0 < fc -> 0 < n -> 0 < g -> 0 < f -> f < f' ->
  source_model f' M0 fc n g < source_model f M0 fc n g.
Proof. exact source_model_decreasing. Qed.
Print Assumptions C20_decreasing.

Theorem C20_corner : forall M0 fc n g, 0 < fc ->
  source_model fc M0 fc n g = M0 / Rpower 2 (1 / g).
Proof. exact source_model_corner. Qed.
Print Assumptions C20_corner.

Theorem C20_proportional : forall k f M0 fc n g,
  source_model f (k * M0) fc n g = k * source_model f M0 fc n g.
Proof. exact source_model_linear. Qed.
Print Assumptions C20_proportional.

Theorem C20_low_frequency : forall M0 fc n g, 0 < fc -> 0 < n -> 0 < g ->
  filterlim (fun f => source_model f M0 fc n g) (at_right 0) (locally M0).
Proof. exact source_model_low. Qed.
Print Assumptions C20_low_frequency.

(** C20: M0 (f/fc)^-n at high frequency *)
Theorem C20_high_frequency : forall M0 fc n g, 0 < fc -> 0 < n -> 0 < g ->
  is_lim (fun f => source_model f M0 fc n g * Rpower (f / fc) n) p_infty M0.
Proof. exact source_model_high. Qed.
Print Assumptions C20_high_frequency.

Example C20_ex : 0 < 3 /\ 0 < 10 /\ 0 < 2 /\ 0 < 1 /\ 0 < 5 < 20 /\ source_model 10 3 10 2 1 = 3 / 2.
Proof.
  repeat split; try lra. rewrite source_model_corner by lra.
  replace (1 / 1) with 1 by field. now rewrite Rpower_1 by lra.
Qed.

(** C21: the internal curve and the one of the reported parameters agree *)
Theorem C21_reparametrisation : forall f M0 fc a b, b <> 0 ->
  source_model f M0 fc (a * b) (1 / b) = curve_ab M0 fc a b f.
Proof. exact ab_reparam_spec. Qed.
Print Assumptions C21_reparametrisation.

(** C21: whatever is searched, the reported error is the misfit of the source
    model with the reported (or given) parameters *)
Theorem C21_reported_parameters : forall rlm1 lin2 min1 minN method freq omM o d,
  is_fit method ->
  fit_sds rlm1 lin2 min1 minN method freq omM o = Ok (Some d) ->
  (nsearch o = 0 \/ nsearch o < length (points freq omM))%nat ->
  (forall g, reported (o_gamma o) d "gamma" g -> g <> 0) ->
  exists M0 fc n g e,
    dget String.eqb d "M0" = Some (Some M0) /\ 0 < M0 /\
    reported (o_fc o) d "fc" fc /\ reported (o_n o) d "n" n /\ reported (o_gamma o) d "gamma" g /\
    dget String.eqb d "fit_error" = Some (Some e) /\
    e = sqrt (log_misfit (points freq omM) (abercrombie M0 fc n g)).
Proof. exact fit_consistent. Qed.
Print Assumptions C21_reported_parameters.

Example C21_ex : exists d,
  fit_sds (fun _ => 0) (fun _ => ols2) (oracle1 10) (oracleN []) "fit" ex_freq ex_spec few_opts = Ok (Some d) /\
  dget String.eqb d "fc" = Some (Some 10) /\ (nsearch few_opts < length (points ex_freq ex_spec))%nat /\
  (forall g, reported (o_gamma few_opts) d "gamma" g -> g <> 0).
Proof.
  destruct (ex_search (fun _ => 0) (fun _ => ols2) (oracleN [])) as (d & H1 & H2).
  exists d. repeat split; auto. cbn. intros g ->. lra.
Qed.

(** C21: without options the omega-square model is fitted *)
Theorem C21_default_model : forall rlm1 lin2 min1 minN method freq omM d fc,
  is_fit method -> (2 <= length (points freq omM))%nat ->
  (forall f, In f freq -> 0 < f) ->
  fit_sds rlm1 lin2 min1 minN method freq omM fopts_default = Ok (Some d) ->
  dget String.eqb d "fc" = Some (Some fc) -> 0 < fc ->
  exists M0, 0 < M0 /\ dget String.eqb d "M0" = Some (Some M0) /\
    dget String.eqb d "fit_error" =
      Some (Some (sqrt (log_misfit (points freq omM) (fun f => M0 / (1 + (f / fc) ^ 2))))).
Proof. exact default_model. Qed.
Print Assumptions C21_default_model.

Example C21_default_model_ex : exists d,
  is_fit "fit" /\ (2 <= length (points ex_freq ex_spec))%nat /\ (forall f, In f ex_freq -> 0 < f) /\
  fit_sds (fun _ => 0) (fun _ => ols2) (oracle1 10) (oracleN []) "fit" ex_freq ex_spec fopts_default = Ok (Some d) /\
  dget String.eqb d "fc" = Some (Some 10).
Proof. exact (ex_default (fun _ => 0) (fun _ => ols2) (oracleN [])). Qed.

(** C22: geometric mean of what is present below the corner frequency *)
Theorem C22_mean : forall rlm1 lin2 min1 minN freq omM o fc,
  o_fc o = Some fc ->
  (forall x, In x (values_below fc freq omM) -> 0 < x) ->
  values_below fc freq omM <> [] ->
  (forall np, o_num_points o = Some np -> (np <= length (values_below fc freq omM))%nat) ->
  exists err, fit_sds rlm1 lin2 min1 minN "mean" freq omM o =
    Ok (Some [("M0", Some (geometric_mean (values_below fc freq omM))); ("fit_error", err)]).
Proof. exact fit_mean_value. Qed.
Print Assumptions C22_mean.

Theorem C22_error : forall rlm1 lin2 min1 minN freq omM o fc d,
  o_fc o = Some fc ->
  (forall x, In x (values_below fc freq omM) -> 0 < x) ->
  (2 <= length (values_below fc freq omM))%nat ->
  fit_sds rlm1 lin2 min1 minN "mean" freq omM o = Ok (Some d) ->
  dget String.eqb d "fit_error" =
    Some (Some (sqrt (log_misfit (map (fun x => (0, x)) (values_below fc freq omM))
                                 (fun _ => geometric_mean (values_below fc freq omM))))).
Proof. exact fit_mean_error. Qed.
Print Assumptions C22_error.

(** C22: nothing else has influence *)
Theorem C22_locality : forall rlm1 lin2 min1 minN freq omM freq' omM' o fc,
  o_fc o = Some fc -> values_below fc freq omM = values_below fc freq' omM' ->
  fit_sds rlm1 lin2 min1 minN "mean" freq omM o = fit_sds rlm1 lin2 min1 minN "mean" freq' omM' o.
Proof. exact fit_mean_local. Qed.
Print Assumptions C22_locality.

Theorem C22_none : forall rlm1 lin2 min1 minN freq omM o fc,
  o_fc o = Some fc ->
  (values_below fc freq omM = [] \/
   exists np, o_num_points o = Some np /\ (length (values_below fc freq omM) < np)%nat) ->
  fit_sds rlm1 lin2 min1 minN "mean" freq omM o = Ok None.
Proof. exact fit_mean_none. Qed.
Print Assumptions C22_none.

Theorem C22_no_corner : forall rlm1 lin2 min1 minN freq omM o, o_fc o = None ->
  fit_sds rlm1 lin2 min1 minN "mean" freq omM o = Err ValueError.
Proof. exact fit_mean_nofc. Qed.
Print Assumptions C22_no_corner.

Example C22_ex : o_fc ex_mean = Some 10 /\
  values_below 10 [5; 6; 7; 10; 20] [Some 2; None; Some 8; Some 1; Some 1] = [2; 8] /\
  values_below 10 [10; 20] [Some 1; Some 1] = [].
Proof.
  split; [reflexivity|].
  unfold values_below. repeat (destruct (Rlt_dec _ 10) as [?|?]; try lra). auto.
Qed.

(** C23: for given corner frequency and exponents M0 is the unique least
    squares solution *)
Theorem C23_least_squares : forall rlm1 lin2 min1 minN freq omM o fc n g,
  o_fc o = Some fc -> o_n o = Some n -> o_gamma o = Some g ->
  points freq omM <> [] ->
  (forall np, o_num_points o = Some np -> (np <= length (points freq omM))%nat) ->
  exists M0 e, fit_sds rlm1 lin2 min1 minN "fit" freq omM o =
      Ok (Some [("M0", Some M0); ("fit_error", Some e)]) /\
    0 < M0 /\ e = sqrt (log_misfit (points freq omM) (abercrombie M0 fc n g)) /\
    forall M0', 0 < M0' ->
      log_misfit (points freq omM) (abercrombie M0 fc n g)
        <= log_misfit (points freq omM) (abercrombie M0' fc n g) /\
      (log_misfit (points freq omM) (abercrombie M0' fc n g) =
       log_misfit (points freq omM) (abercrombie M0 fc n g) -> M0' = M0).
Proof. exact fit_optimal. Qed.
Print Assumptions C23_least_squares.

(** C23: noise-free spectrum, everything given *)
Theorem C23_recovery : forall rlm1 lin2 min1 minN freq omM o fc n g Mt,
  o_fc o = Some fc -> o_n o = Some n -> o_gamma o = Some g ->
  points freq omM <> [] ->
  (forall np, o_num_points o = Some np -> (np <= length (points freq omM))%nat) ->
  0 < Mt -> (forall p, In p (points freq omM) -> snd p = abercrombie Mt fc n g (fst p)) ->
  fit_sds rlm1 lin2 min1 minN "fit" freq omM o = Ok (Some [("M0", Some Mt); ("fit_error", Some 0)]).
Proof. exact fit_recovery. Qed.
Print Assumptions C23_recovery.

Example C23_given_ex :
  o_fc ex_given = Some 10 /\ o_n ex_given = Some 2 /\ o_gamma ex_given = Some 1 /\
  points ex_freq ex_spec <> [] /\
  (forall np, o_num_points ex_given = Some np -> (np <= length (points ex_freq ex_spec))%nat) /\
  0 < 3 /\ (forall p, In p (points ex_freq ex_spec) -> snd p = abercrombie 3 10 2 1 (fst p)).
Proof.
  repeat split; try reflexivity; try discriminate; try lra; try exact ex_points_exact.
  cbn. intros np [= <-]. lia.
Qed.

(** C23: noise-free spectrum, any parameters searched with exact optimisers:
    the misfit is zero and the reported model reproduces the spectrum *)
Theorem C23_search_recovery : forall rlm1 lin2 min1 minN freq omM o d Mt fct nt gt,
  exact1 min1 -> exactN minN -> least_squares2 lin2 ->
  0 < Mt -> gt <> 0 ->
  allowed (o_fc o) (match o_fc_lim o with Some l => Some l
    | None => Some (fst (hd (0, 0) (points freq omM)), fst (last (points freq omM) (0, 0))) end) fct ->
  (o_n o <> None \/ o_gamma o <> None ->
   allowed (o_n o) (o_n_lim o) nt /\ allowed (o_gamma o) (o_gamma_lim o) gt) ->
  ab_limits o nt gt ->
  (forall p, In p (points freq omM) -> snd p = abercrombie Mt fct nt gt (fst p)) ->
  (nsearch o = 0 \/ nsearch o < length (points freq omM))%nat ->
  fit_sds rlm1 lin2 min1 minN "fit" freq omM o = Ok (Some d) ->
  (forall g, reported (o_gamma o) d "gamma" g -> g <> 0) ->
  exists M0 fc n g,
    dget String.eqb d "M0" = Some (Some M0) /\
    reported (o_fc o) d "fc" fc /\ reported (o_n o) d "n" n /\ reported (o_gamma o) d "gamma" g /\
    dget String.eqb d "fit_error" = Some (Some 0) /\
    forall p, In p (points freq omM) -> snd p = abercrombie M0 fc n g (fst p).
Proof. exact fit_recovers. Qed.
Print Assumptions C23_search_recovery.

Example C23_search_ex : exists d,
  exact1 (oracle1 10) /\ exactN (oracleN []) /\ least_squares2 (fun _ => ols2) /\ 0 < 3 /\ 1 <> 0 /\
  allowed (o_fc few_opts) (Some (5, 20)) 10 /\
  (allowed (o_n few_opts) (o_n_lim few_opts) 2 /\ allowed (o_gamma few_opts) (o_gamma_lim few_opts) 1) /\
  ab_limits few_opts 2 1 /\
  (forall p, In p (points ex_freq ex_spec) -> snd p = abercrombie 3 10 2 1 (fst p)) /\
  (nsearch few_opts < length (points ex_freq ex_spec))%nat /\
  fit_sds (fun _ => 0) (fun _ => ols2) (oracle1 10) (oracleN []) "fit" ex_freq ex_spec few_opts = Ok (Some d).
Proof.
  destruct (ex_search (fun _ => 0) (fun _ => ols2) (oracleN [])) as (d & H1 & _).
  exists d. split; [apply oracle1_exact|]. split; [apply oracleN_exact|]. split; [apply ols2_least|].
  repeat split; try lra; try (cbn; lra); try exact ex_points_exact; auto.
Qed.

(** C23: scaling the spectrum scales M0 and nothing else *)
Theorem C23_scale_equivariant : forall rlm1 lin2 min1 minN method k freq omM o,
  is_fit method ->
  (method = "robust_fit" -> translation_equivariant rlm1) ->
  (o_n o = None -> o_gamma o = None -> line_equivariant lin2) ->
  0 < k -> (forall p, In p (points freq omM) -> 0 < snd p) ->
  fit_sds rlm1 lin2 min1 minN method freq (scale_spec k omM) o =
  match fit_sds rlm1 lin2 min1 minN method freq omM o with
  | Ok d => Ok (option_map (scale_M0 k) d)
  | Err e => Err e
  end.
Proof. exact fit_scale. Qed.
Print Assumptions C23_scale_equivariant.

Example C23_scale_ex : is_fit "robust_fit" /\ translation_equivariant (fun l => hd 0 l) /\
  line_equivariant (fun _ => ols2) /\ 0 < 2 /\ (forall p, In p (points [1; 2] [Some 3; None]) -> 0 < snd p).
Proof.
  split; [now right|]. split; [|split; [exact ols2_equivariant|split; [lra|]]].
  - intros [|a y] c H; [congruence|reflexivity].
  - cbn. intros p [<-|[]]. cbn. lra.
Qed.

(** C24: with enough data exactly the documented keys are returned *)
Theorem C24_keys_partial : forall rlm1 lin2 min1 minN method freq omM o d,
  is_fit method -> fit_sds rlm1 lin2 min1 minN method freq omM o = Ok (Some d) ->
  (nsearch o = 0 \/ nsearch o < length (points freq omM))%nat ->
  same_keys d (determined o).
Proof. exact fit_keys_enough. Qed.
Print Assumptions C24_keys_partial.

Theorem C24_mean_keys : forall rlm1 lin2 min1 minN freq omM o d,
  fit_sds rlm1 lin2 min1 minN "mean" freq omM o = Ok (Some d) -> same_keys d ["M0"; "fit_error"].
Proof. exact mean_keys. Qed.
Print Assumptions C24_mean_keys.

(** C24: None is returned exactly without data or with fewer than num_points *)
Theorem C24_none : forall rlm1 lin2 min1 minN method freq omM o, is_fit method ->
  (fit_sds rlm1 lin2 min1 minN method freq omM o = Ok None <->
   points freq omM = [] \/ exists np, o_num_points o = Some np /\ (length (points freq omM) < np)%nat).
Proof. exact fit_none. Qed.
Print Assumptions C24_none.

(** C24: with too few points for the search the result is an empty dictionary *)
Theorem C24_too_few : forall rlm1 lin2 min1 minN method freq omM o d,
  is_fit method -> fit_sds rlm1 lin2 min1 minN method freq omM o = Ok (Some d) ->
  ~ (nsearch o = 0 \/ nsearch o < length (points freq omM))%nat -> d = [].
Proof. exact fit_few. Qed.
Print Assumptions C24_too_few.

(** C24: the documented None is not returned whenever M0 is not determined *)
Theorem C24_none_refuted : forall rlm1 lin2 min1 minN,
  exists freq omM o d, fit_sds rlm1 lin2 min1 minN "fit" freq omM o = Ok (Some d) /\
    dget String.eqb d "M0" = None.
Proof. exact fit_empty_refuted. Qed.
Print Assumptions C24_none_refuted.

Example C24_ex : exists d,
  is_fit "fit" /\
  fit_sds (fun _ => 0) (fun _ => ols2) (oracle1 10) (oracleN []) "fit" ex_freq ex_spec few_opts = Ok (Some d) /\
  (nsearch few_opts < length (points ex_freq ex_spec))%nat /\ determined few_opts = ["M0"; "fit_error"; "fc"].
Proof.
  destruct (ex_search (fun _ => 0) (fun _ => ols2) (oracleN [])) as (d & H1 & _).
  exists d. repeat split; auto. now left.
Qed.

(** C25: one spectrum value per frequency, None exactly where W is missing or
    zero; the returned dictionary is a reordering of the changed one *)
Theorem C25_spectrum_aligned : forall rlm1 lin2 min1 minN freq ev v0 rho0 method so catmag ev' srt W,
  dget String.eqb ev "W" = Some (VList W) -> length W = length freq -> W <> [] ->
  v0 <> 0 -> rho0 <> 0 ->
  insert_source_properties rlm1 lin2 min1 minN freq ev (Some v0) (Some rho0) method so catmag = Ok (ev', srt) ->
  Permutation srt ev' /\
  exists s, dget String.eqb ev' "sds" = Some (VList s) /\ length s = length freq /\
    forall i f w, nth_error freq i = Some f -> nth_error W i = Some w ->
      nth_error s i = Some
        match w with
        | None => None
        | Some x => if Req_EM_T x 0 then None else Some (sds x f v0 rho0)
        end.
Proof. exact insert_aligned. Qed.
Print Assumptions C25_spectrum_aligned.

(** C25: magnitude and moment come together (event without old values) *)
Theorem C25_magnitude : forall rlm1 lin2 min1 minN freq ev v0 rho0 method so catmag ev' srt W,
  dget String.eqb ev "W" = Some (VList W) -> length W = length freq -> W <> [] ->
  v0 <> 0 -> rho0 <> 0 ->
  dget String.eqb ev "M0" = None -> dget String.eqb ev "Mw" = None ->
  insert_source_properties rlm1 lin2 min1 minN freq ev (Some v0) (Some rho0) method so catmag = Ok (ev', srt) ->
  dget String.eqb ev' "Mw" =
    match dget String.eqb ev' "M0" with
    | Some (VNum x) => Some (VNum (moment_magnitude x))
    | Some _ => Some VNone
    | None => None
    end.
Proof. exact insert_Mw. Qed.
Print Assumptions C25_magnitude.

Example C25_ex : exists ev' srt M,
  insert_source_properties (fun _ => 0) (fun _ => ols2) (oracle1 10) (oracleN [])
    [5; 10; 20] [("W", VList [Some 2; None; Some 0])]
    (Some 3500) (Some 2700) (Some "mean") (Smo ex_mean) (Some 3) = Ok (ev', srt) /\
  dget String.eqb ev' "M0" = Some (VNum M).
Proof. apply ex_insert. Qed.

(** C26: everything but the source parameters is untouched, for every event *)
Theorem C26_untouched : forall rlm1 lin2 min1 minN freq conf events rh0 v0 method so events',
  nodup_events events ->
  calculate_source_properties rlm1 lin2 min1 minN freq conf events rh0 v0 method so = Ok events' ->
  rel_events (fun r r' => forall k, ~ In k ["sds"; "M0"; "fc"; "n"; "gamma"; "fit_error"; "Mw"] ->
    dget String.eqb r' k = dget String.eqb r k) events events'.
Proof. exact calc_untouched. Qed.
Print Assumptions C26_untouched.

(** C26: the new values depend on W and v0 only: two files that agree in these
    but have any other old values get the same new values *)
Theorem C26_no_stale_values_partial : forall rlm1 lin2 min1 minN freq conf events1 events2 rh0 v0 method so events1',
  nodup_events events1 -> nodup_events events2 ->
  has_density rh0 conf ->
  rel_events (fun r1 r2 => dget String.eqb r1 "W" = dget String.eqb r2 "W" /\
    dget String.eqb r1 "v0" = dget String.eqb r2 "v0" /\
    forall k, In k (map fst r2) -> In k DUMP_ORDER) events1 events2 ->
  calculate_source_properties rlm1 lin2 min1 minN freq conf events1 rh0 v0 method so = Ok events1' ->
  exists events2',
    calculate_source_properties rlm1 lin2 min1 minN freq conf events2 rh0 v0 method so = Ok events2' /\
    rel_events (fun r1 r2 => forall k, In k ["sds"; "M0"; "fc"; "n"; "gamma"; "fit_error"] ->
      dget String.eqb r1 k = dget String.eqb r2 k) events1' events2'.
Proof. exact calc_fresh'. Qed.
Print Assumptions C26_no_stale_values_partial.

(** C26: a newly determined moment comes with its magnitude *)
Theorem C26_magnitude_partial : forall rlm1 lin2 min1 minN freq conf events rh0 v0 method so events' id r x,
  nodup_events events -> has_density rh0 conf ->
  calculate_source_properties rlm1 lin2 min1 minN freq conf events rh0 v0 method so = Ok events' ->
  In (id, r) events' -> dget String.eqb r "M0" = Some (VNum x) ->
  dget String.eqb r "Mw" = Some (VNum (moment_magnitude x)).
Proof. exact calc_Mw'. Qed.
Print Assumptions C26_magnitude_partial.

(** C26: but an old magnitude survives when no moment is determined *)
Theorem C26_magnitude_refuted : forall rlm1 lin2 min1 minN,
  exists freq conf events rh0 v0 method so events' id r x,
    nodup_events events /\
    calculate_source_properties rlm1 lin2 min1 minN freq conf events rh0 v0 method so = Ok events' /\
    In (id, r) events' /\ dget String.eqb r "M0" = None /\
    dget String.eqb r "Mw" = Some (VNum x).
Proof. exact calc_Mw_stale. Qed.
Print Assumptions C26_magnitude_refuted.

(** C26: recalculating again succeeds and changes nothing *)
Theorem C26_idempotent : forall rlm1 lin2 min1 minN freq conf events rh0 v0 method so events',
  nodup_events events ->
  calculate_source_properties rlm1 lin2 min1 minN freq conf events rh0 v0 method so = Ok events' ->
  exists events'',
    calculate_source_properties rlm1 lin2 min1 minN freq conf events' rh0 v0 method so = Ok events'' /\
    rel_events (fun r r' => forall k, dget String.eqb r k = dget String.eqb r' k) events' events''.
Proof. exact calc_idempotent. Qed.
Print Assumptions C26_idempotent.

Example C26_ex :
  nodup_events (ex_old 5) /\ nodup_events (ex_old 6) /\
  has_density None ex_conf /\
  rel_events (fun r1 r2 => dget String.eqb r1 "W" = dget String.eqb r2 "W" /\
    dget String.eqb r1 "v0" = dget String.eqb r2 "v0" /\
    forall k, In k (map fst r2) -> In k DUMP_ORDER) (ex_old 5) (ex_old 6) /\
  calculate_source_properties (fun _ => 0) (fun _ => ols2) (oracle1 10) (oracleN [])
    (Some [1]) ex_conf (ex_old 5) None None None SmoNone = Ok (ex_new 5).
Proof.
  split; [apply ex_old_nodup|]. split; [apply ex_old_nodup|]. split; [|split].
  - exists 2700. split; [lra|]. now right.
  - constructor; [|constructor]. split; [reflexivity|]. split; [reflexivity|]. split; [reflexivity|]. cbn. tauto.
  - apply ex_calc.
Qed.

Example C26_magnitude_ex : exists events' r M,
  calculate_source_properties (fun _ => 0) (fun _ => ols2) (oracle1 10) (oracleN []) (Some [5; 10; 20]) ex_conf2
    [("ev", [("W", VList [Some 2; None; Some 0])])] None None None SmoNone = Ok events' /\
  In ("ev", r) events' /\ dget String.eqb r "M0" = Some (VNum M).
Proof. apply ex_calc2. Qed.

(** C26: options given win over the configuration of the file *)
Theorem C26_given_options : forall rlm1 lin2 min1 minN freq conf conf' events rho v m o,
  rho <> 0 -> v <> 0 -> m <> "" ->
  calculate_source_properties rlm1 lin2 min1 minN freq conf events (Some rho) (Some v) (Some m) (Smo o) =
  calculate_source_properties rlm1 lin2 min1 minN freq conf' events (Some rho) (Some v) (Some m) (Smo o).
Proof. exact calc_given. Qed.
Print Assumptions C26_given_options.

(** C26: without options (nothing, 0, an empty text or dictionary) the configuration of
    the file is used *)
Theorem C26_config_options : forall rlm1 lin2 min1 minN freq conf events r0 v1 m1 s1 rho v m o,
  rho <> 0 -> v <> 0 -> m <> "" ->
  (r0 = None \/ r0 = Some 0) -> (v1 = None \/ v1 = Some 0) -> (m1 = None \/ m1 = Some "") -> (s1 = SmoNone \/ s1 = SmoEmpty) ->
  c_rho0 conf = Some rho -> c_v0 conf = Some v -> c_method conf = Some m -> c_smo conf = Smo o ->
  calculate_source_properties rlm1 lin2 min1 minN freq conf events r0 v1 m1 s1 =
  calculate_source_properties rlm1 lin2 min1 minN freq conf events (Some rho) (Some v) (Some m) (Smo o).
Proof. exact calc_config. Qed.
Print Assumptions C26_config_options.

Example C26_options_ex :
  c_rho0 ex_conf2 = Some 2700 /\ c_v0 ex_conf2 = Some 3500 /\ c_method ex_conf2 = Some "mean" /\
  c_smo ex_conf2 = Smo ex_mean /\ 2700 <> 0 /\ 3500 <> 0 /\ "mean" <> "".
Proof. repeat split; try lra; discriminate. Qed.

(** C26: empty options are the defaults of the fit *)
Theorem C26_default_options : forall rlm1 lin2 min1 minN freq conf events rho v m s1,
  (s1 = SmoNone \/ s1 = SmoEmpty) -> c_smo conf = SmoEmpty ->
  calculate_source_properties rlm1 lin2 min1 minN freq conf events rho v m s1 =
  calculate_source_properties rlm1 lin2 min1 minN freq conf events rho v m
    (Smo {| o_fc := None; o_n := Some 2; o_gamma := Some 1; o_fc_lim := None; o_n_lim := Some (1 / 2, 10);
            o_gamma_lim := Some (1 / 2, 10); o_fc0 := 10; o_n0 := 2; o_gamma0 := 1; o_fall_back := 5; o_num_points := None |}).
Proof. exact calc_default. Qed.
Print Assumptions C26_default_options.

Example C26_default_options_ex :
  c_smo {| c_rho0 := Some 2700; c_v0 := Some 3500; c_method := Some "fit"; c_smo := SmoEmpty |} = SmoEmpty.
Proof. reflexivity. Qed.

(** C26: the velocity stored with an event wins over the given and the configured one *)
Theorem C26_event_velocity : forall rlm1 lin2 min1 minN freq conf events rh0 v v' method so,
  (forall id r, In (id, r) events -> exists x, x <> 0 /\ dget String.eqb r "v0" = Some (VNum x)) ->
  calculate_source_properties rlm1 lin2 min1 minN freq conf events rh0 v method so =
  calculate_source_properties rlm1 lin2 min1 minN freq conf events rh0 v' method so.
Proof. exact calc_velocity. Qed.
Print Assumptions C26_event_velocity.

Example C26_event_velocity_ex : forall id r,
  In (id, r) [("ev", [("v0", VNum 3000); ("W", VList [Some 2; None])])] ->
  exists x, x <> 0 /\ dget String.eqb r "v0" = Some (VNum x).
Proof. intros id r [H|[]]. injection H as _ <-. exists 3000. split; [lra|reflexivity]. Qed.
