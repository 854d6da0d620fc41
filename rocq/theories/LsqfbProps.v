(** Properties C53-C57: inversion in a frequency band.  Theorems only. *)
From Coq Require Import String List Reals ZArith.
From Verif Require Import Base Pyf PyfOps FbModel LsqfbModel LsqfbSpec LsqfbProof LsqfbProof2 LsqfbProof3 LsqfbProof4 LsqfbProof5 LsqfbProof6 LsqfbProof7 LsqfbProof8 LsqfbEx.
Import ListNotations.
Open Scope string_scope.
Open Scope list_scope.
Open Scope R_scope.

(** C53: the lists of events and stations contain each event and station once. *)
Theorem C53_unknowns : forall st,
  lists_once (eventids st) (map fst (pairs st)) /\ lists_once (stations st) (map snd (pairs st)).
Proof. exact (fun st => conj (fromkeys_spec (map fst (pairs st))) (fromkeys_spec (map snd (pairs st)))). Qed.
Print Assumptions C53_unknowns.

Example C53_unknowns_ex : eventids st_ex = ["e1"; "e2"] /\ stations st_ex = ["A"; "B"].
Proof. exact (conj eventids_ex stations_ex). Qed.

(** C53, command go: for every parameter vector the left hand side of the
    equation of a sample is ln R + ln W - b t with the decoded W, R and b, and
    the geometric mean of the decoded R is R0. *)
Theorem C53_go : forall o st, aligned st -> forall a bs rs c,
  l_coda_norm o = false -> l_fix_sites o = None -> l_fix o = false ->
  0 < l_R0 o -> build o st = Ok (a, bs, rs) ->
  List.length c = (List.length (stations st) + List.length (eventids st))%nat ->
  exists Ws Rs, decode o st (map FNum c) false rs = (Ws, Rs) /\
    Forall2 (models_free (eventids st) (stations st) Ws Rs (last c 0) c) a (samples st) /\
    List.length Ws = List.length (eventids st) /\ List.length Rs = List.length (stations st) /\
    geometric_mean Rs (l_R0 o).
Proof. exact system_free. Qed.
Print Assumptions C53_go.

Example C53_go_ex : aligned st_ex /\ exists a, build go_ex st_ex = Ok (a, [], []).
Proof. exact (conj aligned_ex (build_ex false go_wls)). Qed.

(** C53, command fixed. *)
Theorem C53_fixed : forall o st, aligned st -> forall a bs rs c,
  l_coda_norm o = false -> l_fix_sites o = None -> l_fix o = true ->
  0 < l_R0 o -> build o st = Ok (a, bs, rs) ->
  List.length c = (List.length (stations st) + List.length (eventids st) - 1)%nat ->
  exists Ws Rs, decode o st (map FNum c) false rs = (Ws, Rs) /\
    Forall2 (models_fixed (eventids st) (stations st) Ws Rs c) a (samples st) /\
    List.length Ws = List.length (eventids st) /\ List.length Rs = List.length (stations st) /\
    geometric_mean Rs (l_R0 o).
Proof. exact system_fixed. Qed.
Print Assumptions C53_fixed.

Example C53_fixed_ex : aligned st_ex /\ exists a, build fixed_ex st_ex = Ok (a, [], []).
Proof. exact (conj aligned_ex (build_ex true fixed_wls)). Qed.

(** C53, command source: the left hand side is ln W, and the logarithms of the
    given site responses are subtracted from the right hand side. *)
Theorem C53_source : forall o st, aligned st -> forall params a bs rs c,
  l_fix_sites o = Some params -> l_fix o = true ->
  build o st = Ok (a, bs, rs) -> List.length c = List.length (eventids st) ->
  exists Ws, decode o st (map FNum c) true rs = (Ws, rs) /\
    Forall2 (models_source (eventids st) Ws c) a (samples st) /\
    List.length Ws = List.length (eventids st) /\
    Forall2 (fun b s => exists v, dget String.eqb params (snd (fst s)) = Some v /\ log_of v b) bs (samples st).
Proof. exact source_logs. Qed.
Print Assumptions C53_source.

Example C53_source_ex : exists a bs rs, build source_opts_ex st_ex = Ok (a, bs, rs) /\ aligned st_ex.
Proof. exact source_build_ex. Qed.

(** C53: site responses without logarithm are refused, others are not. *)
Theorem C53_allowed : forall o st params,
  l_fix_sites o = Some params -> l_fix o = true ->
  (forall sta v, In (sta, v) params -> exists b, log_of v b) -> build o st <> Err AssertionError.
Proof. exact sites_allowed. Qed.
Print Assumptions C53_allowed.

Example C53_allowed_ex : forall sta v, In (sta, v) [("A", FNum 0); ("B", FNum 2)] -> exists b, log_of v b.
Proof. exact ex_allowed. Qed.

(** C53: with given site responses or coda normalisation the number of stations
    in the result is the number of different stations. *)
Theorem C53_nstations : forall o st, aligned st -> forall v0 r s l,
  (l_fix_sites o <> None /\ l_fix o = true \/ l_coda_norm o = true) ->
  invert_band o st v0 = Ok (Some r, s) -> lists_once l (map snd (pairs st)) ->
  fb_nstations r = List.length l.
Proof. exact nstations. Qed.
Print Assumptions C53_nstations.

Example C53_nstations_ex : aligned st_ex /\ lists_once ["B"; "A"] (map snd (pairs st_ex)) /\
  l_fix_sites source_opts_ex <> None /\ l_fix source_opts_ex = true /\
  exists r s, invert_band source_opts_ex st_ex 3 = Ok (Some r, s).
Proof. exact nstations_ex. Qed.

(** C53: what is given is not in the result: there are no source terms with coda normalisation and
    no site responses with coda normalisation or given site responses. *)
Theorem C53_entries : forall o st v0 r s, invert_band o st v0 = Ok (Some r, s) ->
  (fb_W r = None <-> l_coda_norm o = true) /\
  (fb_R r = None <-> l_coda_norm o = true \/ l_fix_sites o <> None) /\ fb_v0 r = v0.
Proof. exact band_entries. Qed.
Print Assumptions C53_entries.

Example C53_entries_ex : l_fix_sites source_opts_ex <> None /\
  exists r s, invert_band source_opts_ex st_ex 3 = Ok (Some r, s).
Proof. exact (conj (proj1 (proj2 (proj2 nstations_ex))) (proj2 (proj2 (proj2 (proj2 nstations_ex))))). Qed.

(** C54, command go: the results of synthetic data are the true parameters if g0
    is the true value. *)
Theorem C54_go : forall o st site source bt, aligned st -> least_squares (l_wls o) ->
  good_weights o st -> l_coda_norm o = false ->
  positive_on (map snd (pairs st)) site -> positive_on (map fst (pairs st)) source ->
  forall v0 r s g, l_fix_sites o = None -> l_fix o = false -> 0 < l_R0 o ->
  mean_site st site (l_R0 o) -> one_network st -> two_times st ->
  invert_band o st v0 = Ok (Some r, s) -> fb_g0 r = Some g -> synthetic_band o st g site source bt ->
  fb_b r = Some (FNum bt) /\
  (exists W, fb_W r = Some W /\ table (map fst (pairs st)) source W) /\
  (exists Rs, fb_R r = Some Rs /\ table (map snd (pairs st)) site Rs) /\
  (positive_bounds (l_b_bounds o) -> positive_bounds (l_g0_bounds o) -> fb_error r = FNum 0).
Proof. exact result_go. Qed.
Print Assumptions C54_go.

Example C54_go_ex : aligned st_ex /\ least_squares (l_wls go_ex) /\ good_weights go_ex st_ex /\
  positive_on (map snd (pairs st_ex)) site_ex /\ positive_on (map fst (pairs st_ex)) source_ex /\
  mean_site st_ex site_ex (l_R0 go_ex) /\ one_network st_ex /\ two_times st_ex /\
  exists r s, invert_band go_ex st_ex 3 = Ok (Some r, s) /\ fb_g0 r = Some (FNum (1 / 5)) /\
    synthetic_band go_ex st_ex (FNum (1 / 5)) site_ex source_ex bt_ex.
Proof. exact go_ex_hyps. Qed.

(** C54, command fixed. *)
Theorem C54_fixed : forall o st site source bt, aligned st -> least_squares (l_wls o) ->
  good_weights o st -> l_coda_norm o = false ->
  positive_on (map snd (pairs st)) site -> positive_on (map fst (pairs st)) source ->
  forall v0 r s g, l_fix_sites o = None -> l_fix o = true -> 0 < l_R0 o ->
  mean_site st site (l_R0 o) -> one_network st ->
  l_fix_params o = Some (Some g, Some (FNum bt)) -> synthetic_band o st g site source bt ->
  invert_band o st v0 = Ok (Some r, s) ->
  (exists W, fb_W r = Some W /\ table (map fst (pairs st)) source W) /\
  (exists Rs, fb_R r = Some Rs /\ table (map snd (pairs st)) site Rs) /\ fb_error r = FNum 0.
Proof. exact result_fixed. Qed.
Print Assumptions C54_fixed.

Example C54_fixed_ex : least_squares (l_wls fixed_ex) /\ good_weights fixed_ex st_ex /\
  l_fix_params fixed_ex = Some (Some (FNum (1 / 5)), Some (FNum bt_ex)) /\
  synthetic_band fixed_ex st_ex (FNum (1 / 5)) site_ex source_ex bt_ex /\
  exists r s, invert_band fixed_ex st_ex 3 = Ok (Some r, s).
Proof. exact fixed_ex_hyps. Qed.

(** C54, command source. *)
Theorem C54_source : forall o st site source bt, aligned st -> least_squares (l_wls o) ->
  good_weights o st -> l_coda_norm o = false ->
  positive_on (map snd (pairs st)) site -> positive_on (map fst (pairs st)) source ->
  forall v0 r s g params, l_fix_sites o = Some params -> l_fix o = true ->
  (forall x, In x (map snd (pairs st)) -> dget String.eqb params x = Some (FNum (site x))) ->
  l_fix_params o = Some (Some g, Some (FNum bt)) -> synthetic_band o st g site source bt ->
  invert_band o st v0 = Ok (Some r, s) ->
  (exists W, fb_W r = Some W /\ table (map fst (pairs st)) source W) /\ fb_error r = FNum 0.
Proof. exact result_source. Qed.
Print Assumptions C54_source.

Example C54_source_ex : least_squares (l_wls source_opts_ex) /\ good_weights source_opts_ex st_ex /\
  (forall x, In x (map snd (pairs st_ex)) -> dget String.eqb params_ex x = Some (FNum (site_ex x))) /\
  l_fix_params source_opts_ex = Some (Some (FNum (1 / 5)), Some (FNum bt_ex)) /\
  synthetic_band source_opts_ex st_ex (FNum (1 / 5)) site_ex source_ex bt_ex /\
  exists r s, invert_band source_opts_ex st_ex 3 = Ok (Some r, s).
Proof. exact source_ex_hyps. Qed.

(** C55: accepted results are numbers more than one percent away from the bounds;
    with positive bounds the error is the one of the fit. *)
Theorem C55_accepted : forall o st v0 r s, invert_band o st v0 = Ok (Some r, s) ->
  (forall b, fb_b r = Some b -> well_inside (l_b_bounds o) b) /\
  (forall g, fb_g0 r = Some g -> well_inside (l_g0_bounds o) g) /\
  (l_fix o = false -> exists b g, fb_b r = Some b /\ fb_g0 r = Some g) /\
  (l_fix o = true -> fb_b r = None /\ fb_g0 r = None /\ exists b g,
     l_fix_params o = Some (Some g, Some b) /\ well_inside (l_b_bounds o) b /\ well_inside (l_g0_bounds o) g) /\
  (positive_bounds (l_b_bounds o) -> positive_bounds (l_g0_bounds o) ->
     exists z a c mse, l_wls o z a (weights o st z) = Ok (c, mse) /\ fb_error r = fsqrt mse).
Proof. exact accepted_inside. Qed.
Print Assumptions C55_accepted.

Example C55_accepted_ex : exists r s, invert_band go_ex st_ex 3 = Ok (Some r, s) /\
  fb_g0 r = Some (FNum (1 / 5)) /\ fb_error r = FNum 0 /\
  map f_g0 (r_record s) = [FNum (1 / 10); FNum (1 / 5)] /\ r_g0 s = [(FNum 0, FNum (1 / 10))].
Proof. exact go_run. Qed.

(** C55: a fit is discarded exactly if b or g0 is too close to its bounds, or not
    a number. *)
Theorem C55_discarded : forall o st v0 s f, choose o st = Ok (Some (s, f)) -> pairs st <> [] ->
  (exists r, invert_band o st v0 = Ok (Some r, s)) <->
  well_inside (l_b_bounds o) (f_b f) /\ well_inside (l_g0_bounds o) (f_g0 f).
Proof. exact accepted_iff. Qed.
Print Assumptions C55_discarded.

Example C55_discarded_ex : exists s f, choose go_ex st_ex = Ok (Some (s, f)) /\ pairs st_ex <> [].
Proof. exact choose_ex. Qed.

(** C55: with a negative lower bound a result outside of the bounds, with infinite
    error, is accepted, because 1.01 times the bound is below it. *)
Theorem C55_negative_refuted : exists o st v0 r s b, least_squares (l_wls o) /\ aligned st /\
  invert_band o st v0 = Ok (Some r, s) /\ l_b_bounds o = Some (- (10), 10) /\
  fb_b r = Some (FNum b) /\ b < - (10) /\ fb_error r = FPInf.
Proof. exact neg_run. Qed.
Print Assumptions C55_negative_refuted.

(** C55: bands without given g0 or b are skipped. *)
Theorem C55_missing : forall o st v0 abr g b,
  pairs st <> [] -> build o st = Ok abr -> l_fix o = true ->
  l_fix_params o = Some (g, b) -> g = None \/ b = None ->
  exists s, invert_band o st v0 = Ok (None, s).
Proof. exact missing_params. Qed.
Print Assumptions C55_missing.

Example C55_missing_ex : exists abr,
  pairs st_ex <> [] /\ build missing_ex st_ex = Ok abr /\ l_fix missing_ex = true /\
  l_fix_params missing_ex = Some (Some (FNum (1 / 5)), None).
Proof. exact missing_hyps. Qed.

(** C56: trial values outside of the bounds of g0 have infinite misfit (and are
    not recorded); a misfit that is not infinite belongs to g0 and b inside of
    the bounds. *)
Theorem C56_misfit : forall o st a bs rs s g0 s' err, l_fix o = false ->
  lstsq_opt o st a bs rs s g0 = Ok (s', err) ->
  (~ inside_closed (l_g0_bounds o) g0 -> err = FPInf /\ s' = s) /\
  (err <> FPInf -> inside_closed (l_g0_bounds o) g0 /\
     exists f, solve_at o st a bs rs g0 None false = Ok f /\ f_err f = err /\
               inside_open (l_b_bounds o) (f_b f)).
Proof. exact misfit_outside. Qed.
Print Assumptions C56_misfit.

Example C56_misfit_ex : exists a, build go_ex st_ex = Ok (a, [], []) /\
  lstsq_opt go_ex st_ex a [] [] {| r_record := []; r_g0 := [] |} (FNum 5) = Ok ({| r_record := []; r_g0 := [] |}, FPInf) /\
  exists s, lstsq_opt go_ex st_ex a [] [] {| r_record := []; r_g0 := [] |} (FNum (1 / 10)) = Ok (s, FNum 0).
Proof. exact misfit_ex. Qed.

(** C56: a trial value at least as good as one with a finite misfit respects all
    bounds. *)
Theorem C56_optimum : forall o st a bs rs s s1 x s2 ex y s3 ey, l_fix o = false ->
  lstsq_opt o st a bs rs s x = Ok (s1, ex) -> lstsq_opt o st a bs rs s2 y = Ok (s3, FNum ey) ->
  fleb ex (FNum ey) = true ->
  inside_closed (l_g0_bounds o) x /\
  exists f, solve_at o st a bs rs x None false = Ok f /\ f_err f = ex /\
            inside_open (l_b_bounds o) (f_b f).
Proof. exact optimum_inside. Qed.
Print Assumptions C56_optimum.

Example C56_optimum_ex : exists a, build go_ex st_ex = Ok (a, [], []) /\
  lstsq_opt go_ex st_ex a [] [] {| r_record := []; r_g0 := [] |} (FNum 5) = Ok ({| r_record := []; r_g0 := [] |}, FPInf) /\
  exists s, lstsq_opt go_ex st_ex a [] [] {| r_record := []; r_g0 := [] |} (FNum (1 / 10)) = Ok (s, FNum 0).
Proof. exact misfit_ex. Qed.

(** C56: the error of the final fit is the misfit of its g0. *)
Theorem C56_final : forall o st a bs rs s g0 s' err s2 s2' f, l_fix o = false ->
  lstsq_opt o st a bs rs s g0 = Ok (s', err) ->
  lstsq o st a bs rs s2 g0 None false = Ok (s2', f) -> f_err f = err.
Proof. exact misfit_same. Qed.
Print Assumptions C56_final.

Example C56_final_ex : exists a, build go_ex st_ex = Ok (a, [], []) /\
  lstsq_opt go_ex st_ex a [] [] {| r_record := []; r_g0 := [] |} (FNum 5) = Ok ({| r_record := []; r_g0 := [] |}, FPInf) /\
  exists s, lstsq_opt go_ex st_ex a [] [] {| r_record := []; r_g0 := [] |} (FNum (1 / 10)) = Ok (s, FNum 0).
Proof. exact misfit_ex. Qed.

(** C57: for every optimiser at most num fits are recorded (one, if num is less),
    no value of g0 twice, the final fit's g0 among them; the recorded fits are the
    fits of their g0, and the misfits of all trial values inside of the bounds of
    g0 are recorded in order. *)
Theorem C57_records : forall o st s f, choose o st = Ok (Some (s, f)) ->
  (Z.of_nat (List.length (r_record s)) <= Z.max 1 (l_num o))%Z /\
  distinct_numbers (map f_g0 (r_record s)) /\
  (forall r, l_plot_optimization o = true -> f_g0 f = FNum r -> In (FNum r) (map f_g0 (r_record s))) /\
  exists a bs rs, build o st = Ok (a, bs, rs) /\
    (l_fix o = false -> Forall (fun f => solve_at o st a bs rs (f_g0 f) None false = Ok f) (r_record s)) /\
    (l_fix o = false -> l_optimize o = true -> l_plot_optimization o = true ->
       exists l, trials (misfit o st a bs rs) (l_optim o) l (f_g0 f) /\
         selected (fun t => inside_closed (l_g0_bounds o) (snd t)) l (r_g0 s)).
Proof. exact records. Qed.
Print Assumptions C57_records.

Example C57_records_ex : exists s f, choose go_ex st_ex = Ok (Some (s, f)) /\ pairs st_ex <> [].
Proof. exact choose_ex. Qed.

(** C57: without optimisation g0 is in the middle of its bounds. *)
Theorem C57_no_optimisation : forall o st s f, choose o st = Ok (Some (s, f)) ->
  l_fix o = false -> l_optimize o = false ->
  exists g1 g2, l_g0_bounds o = Some (g1, g2) /\ f_g0 f = FNum (g1 + (g2 - g1) / 2).
Proof. exact no_optimisation. Qed.
Print Assumptions C57_no_optimisation.

Example C57_no_optimisation_ex : l_fix middle_ex = false /\ l_optimize middle_ex = false /\
  exists s f, choose middle_ex st_ex = Ok (Some (s, f)).
Proof. exact middle_hyps. Qed.
