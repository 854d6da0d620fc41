(** Properties C103-C106: the curves in the plots of a frequency band.  Theorems only. *)
From Coq Require Import String List Bool Reals Lra Lia ZArith Arith Sorted.
From Verif Require Import Base Pyf PyfOps FbModel LsqfbModel LsqfbSpec LsqfbProof LsqfbProof2 LsqfbProof4 LsqfbEx CurveModel CurveSpec CurveProof2 CurveProof3 CurveProof4 CurveProof5 CurveProof6 CurveEx.
Import ListNotations.
Open Scope string_scope.
Open Scope list_scope.
Open Scope R_scope.

(** C103: the misfit found by the inversion is the weighted root mean square distance
    between the points of the panel and its line. *)
Theorem C103_misfit : forall o st g0 a bs rs gc gb f err base,
  aligned st -> least_squares (l_wls o) -> good_weights o st ->
  l_coda_norm o = false -> l_fix_sites o = None -> l_fix o = false -> 0 < l_R0 o ->
  build o st = Ok (a, bs, rs) -> greens o st g0 (pairs st) (w_ecoda st) (w_tcoda st) = Ok (gc, gb) -> good_band st gc gb ->
  solve_at o st a bs rs g0 None false = Ok f -> f_err f = FNum err -> 0 < base -> base <> 1 ->
  exists p b l0 ds, plot_lstsq (pairs st) (f_b f) (f_W f) (f_R f) (band_info st gc gb) base = Ok p /\ f_b f = FNum b /\
    Forall (fun q => exists t y, q = (FNum t, FNum y) /\ on_line l0 b base t y) (q_line p) /\
    Forall2 (fun q d => exists t y, q = (FNum t, FNum y) /\ d = y * ln base - (l0 - b * t)) (concat (q_coda p) ++ q_bulk p) ds /\
    rms (sample_weights (l_bulk o) st) ds err.
Proof. exact lsq_misfit. Qed.
Print Assumptions C103_misfit.

Example C103_misfit_ex : aligned st_c /\ least_squares (l_wls go_ex) /\ good_weights go_ex st_c /\
  l_coda_norm go_ex = false /\ l_fix_sites go_ex = None /\ l_fix go_ex = false /\ 0 < l_R0 go_ex /\
  good_band st_c gc_c gb_c /\
  exists a f, build go_ex st_c = Ok (a, [], []) /\
    greens go_ex st_c (FNum (1 / 5)) (pairs st_c) (w_ecoda st_c) (w_tcoda st_c) = Ok (gc_c, gb_c) /\
    solve_at go_ex st_c a [] [] (FNum (1 / 5)) None false = Ok f /\ f_err f = FNum 0.
Proof. exact hyps_c. Qed.

(** C103: for any source energies and site responses, the distance of a point from the
    line is the logarithm of observed over modelled energy. *)
Theorem C103_residuals : forall st gc gb W Rs b base evs stas, aligned st -> good_band st gc gb ->
  List.length gb = List.length (w_ebulk st) -> Forall (fun e => e <> []) (w_ecoda st) ->
  in_order (map fst (pairs st)) evs -> in_order (map snd (pairs st)) stas ->
  (forall ev sta, In (ev, sta) (pairs st) -> exists r w, number stas Rs sta r /\ number evs W ev w /\ 0 < r /\ 0 < w) ->
  0 < base -> base <> 1 ->
  exists p l0, plot_lstsq (pairs st) (FNum b) W Rs (band_info st gc gb) base = Ok p /\
    List.length (q_coda p) = List.length (pairs st) /\
    Forall (fun q => exists t y, q = (FNum t, FNum y) /\ on_line l0 b base t y) (q_line p) /\
    Forall2 (fun q s => exists t y e g r w, s = ((fst (fst s), (FNum t, FNum e)), FNum g) /\ q = (FNum t, FNum y) /\
        number stas Rs (snd (fst (fst s))) r /\ number evs W (fst (fst (fst s))) w /\
        y * ln base - (l0 - b * t) = ln (e / (r * w * g * exp (- (b * t)))))
      (concat (q_coda p) ++ q_bulk p) (combine (samples st) (concat gc ++ gb)).
Proof. exact lsq_residuals. Qed.
Print Assumptions C103_residuals.

Example C103_residuals_ex : aligned st_c /\ good_band st_c gc_c gb_c /\ List.length gb_c = List.length (w_ebulk st_c) /\
  Forall (fun e => e <> []) (w_ecoda st_c) /\ Forall (Sorted Rle) (w_tcoda st_c) /\
  in_order (map fst (pairs st_c)) ["e1"; "e2"] /\ in_order (map snd (pairs st_c)) ["A"; "B"] /\
  (forall ev sta, In (ev, sta) (pairs st_c) ->
     exists r w, number ["A"; "B"] R_c sta r /\ number ["e1"; "e2"] W_c ev w /\ 0 < r /\ 0 < w).
Proof. exact residuals_c. Qed.

(** C103: the line and the axis end at the last sample of the coda windows and the line
    starts not later than any sample. *)
Theorem C103_range : forall st gc gb W Rs b base evs stas p, aligned st -> good_band st gc gb ->
  List.length gb = List.length (w_ebulk st) -> Forall (fun e => e <> []) (w_ecoda st) -> Forall (Sorted Rle) (w_tcoda st) ->
  in_order (map fst (pairs st)) evs -> in_order (map snd (pairs st)) stas ->
  (forall ev sta, In (ev, sta) (pairs st) -> exists r w, number stas Rs sta r /\ number evs W ev w /\ 0 < r /\ 0 < w) ->
  0 < base -> base <> 1 ->
  plot_lstsq (pairs st) (FNum b) W Rs (band_info st gc gb) base = Ok p ->
  exists tmin tmax y1 y2, nth_error (q_line p) 0 = Some (FNum tmin, y1) /\ nth_error (q_line p) 99 = Some (FNum tmax, y2) /\
    List.length (q_line p) = 100%nat /\ q_right p = FNum tmax /\
    (forall t u, In t (w_tcoda st) -> In u t -> tmin <= u <= tmax) /\ (forall t, In (FNum t) (w_tbulk st) -> tmin <= t).
Proof. exact lsq_range. Qed.
Print Assumptions C103_range.

Example C103_range_ex : exists p, plot_lstsq (pairs st_c) (FNum (1 / 10)) W_c R_c (band_info st_c gc_c gb_c) 10 = Ok p.
Proof. exact range_c. Qed.

(** C103: a coda window without samples makes the panel fail. *)
Theorem C103_empty : forall pairs b W Rs x base,
  pairs <> [] -> In [] (i_tcoda x) -> plot_lstsq pairs b W Rs x base = Err IndexError.
Proof. exact lsq_empty. Qed.
Print Assumptions C103_empty.

Example C103_empty_ex : [("e1", "A")]%string <> [] /\ In []
  (i_tcoda {| i_tcoda := [[]]; i_tbulk := []; i_ecoda := [[]]; i_ebulk := []; i_gcoda := [[]]; i_gbulk := [] |}).
Proof. split; [discriminate|now left]. Qed.

(** C103, false for bulk windows: a bulk window after the coda windows lies outside of
    the panel. *)
Theorem C103_right_refuted : exists st gc gb b W Rs base p t y tmax, aligned st /\ good_band st gc gb /\
  plot_lstsq (pairs st) b W Rs (band_info st gc gb) base = Ok p /\
  In (FNum t, y) (q_bulk p) /\ q_right p = FNum tmax /\ tmax < t.
Proof. exact late. Qed.
Print Assumptions C103_right_refuted.

(** C104: the misfit found by the inversion is the weighted root mean square of the
    logarithms of observed over modelled energy as drawn in the panels. *)
Theorem C104_misfit : forall o st g0 a bs rs gc gb f err G un v0 sm evs stas xlim ylim ps xl yl,
  aligned st -> least_squares (l_wls o) -> good_weights o st ->
  l_coda_norm o = false -> l_fix_sites o = None -> l_fix o = false -> 0 < l_R0 o ->
  build o st = Ok (a, bs, rs) -> greens o st g0 (pairs st) (w_ecoda st) (w_tcoda st) = Ok (gc, gb) -> good_band st gc gb ->
  solve_at o st a bs rs g0 None false = Ok f -> f_err f = FNum err ->
  in_order (map fst (pairs st)) evs -> in_order (map snd (pairs st)) stas ->
  plot_fits G un (w_energies st) g0 (Some (f_b f)) (combine evs (f_W f)) (combine stas (f_R f)) v0 (band_info st gc gb) sm xlim ylim
    = Ok (ps, xl, yl) ->
  exists qs ds, ps = map Some qs /\ List.length qs = List.length (pairs st) /\
    Forall (fun q => List.length (n_coda q) = List.length (n_coda_model q)) qs /\
    Forall2 (fun om d => exists t e y, om = ((FNum t, FNum e), (FNum t, FNum y)) /\ 0 < e /\ 0 < y /\ d = ln e - ln y) (drawn qs) ds /\
    rms (sample_weights (l_bulk o) st) ds err.
Proof. exact fits_misfit. Qed.
Print Assumptions C104_misfit.

Example C104_misfit_ex : exists a f ps xl yl, build go_ex st_c = Ok (a, [], []) /\
    solve_at go_ex st_c a [] [] (FNum (1 / 5)) None false = Ok f /\ f_err f = FNum 0 /\
    plot_fits G_c un_c (w_energies st_c) (FNum (1 / 5)) (Some (f_b f)) (combine ["e1"; "e2"] (f_W f)) (combine ["A"; "B"] (f_R f)) 5
      (band_info st_c gc_c gb_c) true None None = Ok (ps, xl, yl).
Proof. exact misfit_c. Qed.

(** C104: the plot is drawn, with a panel for every pair, if the data and the Green's
    functions are numbers and all site responses and source energies are known. *)
Theorem C104_drawn : forall st gc gb W Rs b G un g0 v0 sm xlim ylim, aligned st -> good_band st gc gb ->
  List.length gb = List.length (w_ebulk st) -> Forall (fun e => e <> []) (w_ecoda st) ->
  (forall ev sta, In (ev, sta) (pairs st) -> exists r w, dget String.eqb Rs sta = Some (FNum r) /\ dget String.eqb W ev = Some (FNum w)) ->
  (forall e, In e (w_energies st) -> edata e <> [] /\ Forall finite (edata e) /\
     (exists g, G (edist e) (fit_times e v0) g0 = Ok g /\ Forall finite g /\ List.length g = List.length (edata e)) /\
     (sm = true -> exists d, un (uid e) = Ok d /\ List.length d = List.length (edata e))) ->
  exists ps xl yl, plot_fits G un (w_energies st) g0 (Some (FNum b)) W Rs v0 (band_info st gc gb) sm xlim ylim = Ok (ps, xl, yl) /\
    List.length ps = List.length (pairs st) /\ ~ In None ps.
Proof. exact fits_drawn. Qed.
Print Assumptions C104_drawn.

Example C104_drawn_ex : aligned st_c /\ good_band st_c gc_c gb_c /\
  List.length gb_c = List.length (w_ebulk st_c) /\ Forall (fun e => e <> []) (w_ecoda st_c) /\
  (forall ev sta, In (ev, sta) (pairs st_c) -> exists r w,
     dget String.eqb (combine ["A"; "B"] R_c) sta = Some (FNum r) /\ dget String.eqb (combine ["e1"; "e2"] W_c) ev = Some (FNum w)) /\
  (forall e, In e (w_energies st_c) -> edata e <> [] /\ Forall finite (edata e) /\
     (exists g, G_c (edist e) (fit_times e 5) (FNum (1 / 5)) = Ok g /\ Forall finite g /\ List.length g = List.length (edata e)) /\
     (true = true -> exists d, un_c (uid e) = Ok d /\ List.length d = List.length (edata e))).
Proof. exact drawn_c. Qed.

(** C104: the samples of a trace are drawn at their time after the S onset plus distance
    over velocity, as are the unsmoothed samples; the modelled curve is R W G exp(-b t)
    at these times, at least 1e-30; traces of sites without response are left out. *)
Theorem C104_panels : forall G un es g0 b W Rs v0 x sm xlim ylim ps xl yl,
  plot_fits G un es g0 (Some (FNum b)) W Rs v0 x sm xlim ylim = Ok (ps, xl, yl) ->
  List.length ps = List.length es /\
  forall i e r, nth_error es i = Some e -> dget String.eqb Rs (sta e) = Some r ->
    (r = FNan /\ nth_error ps i = Some None) \/
    (r <> FNan /\ exists q g, nth_error ps i = Some (Some q) /\
       List.length (n_data q) = List.length (edata e) /\ List.length (n_model q) = List.length (edata e) /\
       (forall k y, nth_error (edata e) k = Some y ->
          nth_error (n_data q) k = Some (FNum (seconds (estart e + Z.of_nat k * edelta e) (esonset e) + edist e / v0), y)) /\
       (sm = true -> exists d u, un (uid e) = Ok d /\ n_unsmoothed q = Some u /\ List.length u = List.length d /\
          forall k y, nth_error d k = Some y ->
          nth_error u k = Some (FNum (seconds (estart e + Z.of_nat k * edelta e) (esonset e) + edist e / v0), y)) /\
       G (edist e) (fit_times e v0) g0 = Ok g /\ List.length g = List.length (edata e) /\
       (forall k g1 r1 w1, r = FNum r1 -> dget String.eqb W (evid e) = Some (FNum w1) -> nth_error g k = Some (FNum g1) ->
          let t := seconds (estart e + Z.of_nat k * edelta e) (esonset e) + edist e / v0 in
          nth_error (n_model q) k = Some (FNum t, FNum (Rmax (r1 * w1 * g1 * exp (- (b * t))) (1 / 10 ^ 30))))).
Proof. exact fits_panels. Qed.
Print Assumptions C104_panels.

(** C104: the axes show all samples and modelled values up to the last sample; the lower
    limit is a tenth of the smallest modelled value in the coda windows or of the
    largest observed value in one of them, whatever is smaller. *)
Theorem C104_limits : forall G un es g0 b W Rs v0 x sm ps xl yl,
  plot_fits G un es g0 (Some (FNum b)) W Rs v0 x sm None None = Ok (ps, xl, yl) ->
  Forall (fun e => (0 <= edelta e)%Z) es ->
  (forall q, In (Some q) ps -> finite_curve (n_data q) /\ finite_curve (n_model q) /\ finite_curve (n_coda q) /\ finite_curve (n_coda_model q)) ->
  fst xl = 0 /\
  (forall q t y, In (Some q) ps -> In (FNum t, y) (n_data q) -> t <= snd xl) /\
  (forall q y, In (Some q) ps -> on_curves (n_data q ++ n_model q) y -> 3 / 2 * y <= snd yl) /\
  (exists q y, In (Some q) ps /\ on_curves (n_data q ++ n_model q) y /\ snd yl = 3 / 2 * y) /\
  (forall q y, In (Some q) ps -> on_curves (n_coda_model q) y -> fst yl <= y / 10) /\
  (forall q, In (Some q) ps -> exists y, on_curves (n_coda q) y /\ fst yl <= y / 10) /\
  (exists q y, In (Some q) ps /\
     (on_curves (n_coda_model q) y \/ (on_curves (n_coda q) y /\ forall z, on_curves (n_coda q) z -> z <= y)) /\ fst yl = y / 10).
Proof. exact fits_limits. Qed.
Print Assumptions C104_limits.

Example C104_limits_ex : exists ps xl yl, plot_fits G_c un_c (w_energies st_c) (FNum (1 / 5)) (Some (FNum (1 / 10))) (combine ["e1"; "e2"] W_c)
  (combine ["A"; "B"] R_c) 5 (band_info st_c gc_c gb_c) true None None = Ok (ps, xl, yl) /\
  Forall (fun e => (0 <= edelta e)%Z) (w_energies st_c) /\
  (forall q, In (Some q) ps -> finite_curve (n_data q) /\ finite_curve (n_model q) /\ finite_curve (n_coda q) /\ finite_curve (n_coda_model q)).
Proof. exact fits_c. Qed.

(** C104, false for the observed coda: a value in the coda window that is used in the
    inversion may lie below the axis. *)
Theorem C104_lower_refuted : exists G un es g0 b W Rs v0 x ps xl yl q y,
  plot_fits G un es g0 (Some b) W Rs v0 x false None None = Ok (ps, xl, yl) /\
  In (Some q) ps /\ on_curves (n_coda q) y /\ 0 < y /\ y < fst yl.
Proof. exact low. Qed.
Print Assumptions C104_lower_refuted.

(** C104, false for fixed sites: with two events the fit may be exact although the
    modelled energy drawn for a station is four times the observed energy. *)
Theorem C104_fixed_sites_refuted : exists o st params g0 b a bs rs gc gb f,
  least_squares (l_wls o) /\ aligned st /\ good_band st gc gb /\ l_fix_sites o = Some params /\
  build o st = Ok (a, bs, rs) /\ greens o st g0 (pairs st) (w_ecoda st) (w_tcoda st) = Ok (gc, gb) /\
  solve_at o st a bs rs g0 (Some b) true = Ok f /\ f_err f = FNum 0 /\
  exists G un v0 ps xl yl q t x y,
    plot_fits G un (w_energies st) g0 (Some (f_b f)) (combine (eventids st) (f_W f)) (combine (stations st) (f_R f)) v0
      (band_info st gc gb) false None None = Ok (ps, xl, yl) /\
    In (Some q) ps /\ n_coda q = [(FNum t, FNum x)] /\ n_coda_model q = [(FNum t, FNum y)] /\ y = 4 * x.
Proof. exact fixed_sites. Qed.
Print Assumptions C104_fixed_sites_refuted.

(** C104: given limits are used, and without b the model is that of b = 0. *)
Theorem C104_given : forall G un es g0 b W Rs v0 x sm xlim ylim ps xl yl,
  plot_fits G un es g0 b W Rs v0 x sm xlim ylim = Ok (ps, xl, yl) ->
  (forall l, xlim = Some l -> xl = l) /\ (forall l, ylim = Some l -> yl = l) /\
  (b = None -> plot_fits G un es g0 (Some (FNum 0)) W Rs v0 x sm xlim ylim = Ok (ps, xl, yl)).
Proof. exact fits_given. Qed.
Print Assumptions C104_given.

Example C104_given_ex : exists ps yl, plot_fits G_c un_c (w_energies st_c) (FNum (1 / 5)) (Some (FNum (1 / 10))) (combine ["e1"; "e2"] W_c)
  (combine ["A"; "B"] R_c) 5 (band_info st_c gc_c gb_c) true (Some (1, 7)) None = Ok (ps, (1, 7), yl).
Proof. exact given_c. Qed.

(** C104: without any site response there is no plot, unless both limits are given. *)
Theorem C104_no_site : forall G un es g0 b W Rs v0 x sm xlim ylim, es <> [] -> xlim = None \/ ylim = None ->
  (forall e, In e es -> dget String.eqb Rs (sta e) = Some FNan) ->
  plot_fits G un es g0 b W Rs v0 x sm xlim ylim = Err ValueError.
Proof. exact fits_no_site. Qed.
Print Assumptions C104_no_site.

Example C104_no_site_ex : w_energies st_c <> [] /\
  (forall e, In e (w_energies st_c) -> dget String.eqb [("A", FNan); ("B", FNan)] (sta e) = Some FNan).
Proof. exact no_site_c. Qed.

(** C105: the samples are drawn at their time after the origin time, with the onsets at
    their times after the origin time. *)
Theorem C105_samples : forall ponset bw cw es ps, plot_energies ponset bw cw None es = Ok ps ->
  Forall2 (fun e p => e_label p = (evid e, sta e) /\ List.length (e_samples p) = List.length (edata e) /\
    (forall k y, nth_error (edata e) k = Some y ->
       nth_error (e_samples p) k = Some (seconds (estart e + Z.of_nat k * edelta e) (eotime e), y)) /\
    e_sonset p = seconds (esonset e) (eotime e) /\
    e_ponset p = match ponset (uid e) with Some t => Some (seconds t (eotime e)) | None => None end) es ps.
Proof. exact energies_samples. Qed.
Print Assumptions C105_samples.

Example C105_samples_ex : exists ps, plot_energies (fun _ => Some 1500000000%Z) [(("e1", "A"), (3000000000, 4000000000)%Z)]
  [(("e1", "A"), (5000000000, 7000000000)%Z)] None [tr_c 1 "e1" "A"] = Ok ps.
Proof. exact energies_c. Qed.

(** C105: the bulk window and the coda window of the pair are drawn at their times after
    the origin time. *)
Theorem C105_windows : forall ponset bw cw es, es <> [] -> bw <> [] -> cw <> [] ->
  (forall e, In e es -> exists b c, dget pair_eqb bw (evid e, sta e) = Some b /\ dget pair_eqb cw (evid e, sta e) = Some c) ->
  exists ps, plot_energies ponset bw cw None es = Ok ps /\
    Forall2 (fun e p => exists b c, dget pair_eqb bw (evid e, sta e) = Some b /\ dget pair_eqb cw (evid e, sta e) = Some c /\
      e_windows p = Some ((seconds (fst b) (eotime e), seconds (snd b) (eotime e)),
                          (seconds (fst c) (eotime e), seconds (snd c) (eotime e)))) es ps.
Proof. exact energies_windows. Qed.
Print Assumptions C105_windows.

Example C105_windows_ex : [tr_c 1 "e1" "A"] <> [] /\ [(("e1", "A"), (3000000000, 4000000000)%Z)] <> [] /\
  [(("e1", "A"), (5000000000, 7000000000)%Z)] <> [] /\
  (forall e, In e [tr_c 1 "e1" "A"] -> exists b c, dget pair_eqb [(("e1", "A"), (3000000000, 4000000000)%Z)] (evid e, sta e) = Some b /\
     dget pair_eqb [(("e1", "A"), (5000000000, 7000000000)%Z)] (evid e, sta e) = Some c).
Proof. exact windows_c. Qed.

(** C105: with windows given, those of every pair are needed. *)
Theorem C105_missing : forall ponset bw cw es e, bw <> [] -> cw <> [] -> In e es ->
  dget pair_eqb bw (evid e, sta e) = None \/ dget pair_eqb cw (evid e, sta e) = None ->
  plot_energies ponset bw cw None es = Err KeyError.
Proof. exact energies_missing. Qed.
Print Assumptions C105_missing.

Example C105_missing_ex : [(("e1", "A"), (3000000000, 4000000000)%Z)] <> [] /\ In (tr_c 2 "e1" "B") [tr_c 1 "e1" "A"; tr_c 2 "e1" "B"] /\
  dget pair_eqb [(("e1", "A"), (3000000000, 4000000000)%Z)] (evid (tr_c 2 "e1" "B"), sta (tr_c 2 "e1" "B")) = None.
Proof. exact missing_window. Qed.

(** C105, false without bulk windows: the coda window is not drawn then. *)
Theorem C105_no_bulk_refuted : exists ponset (cw : list ((string * string) * (Z * Z))) e ps p c,
  dget pair_eqb cw (evid e, sta e) = Some c /\
  plot_energies ponset [] cw None [e] = Ok ps /\ In p ps /\ e_windows p = None.
Proof. exact no_bulk. Qed.
Print Assumptions C105_no_bulk_refuted.

(** C105: no plot is drawn for any value of downsample_to. *)
Theorem C105_downsample : forall ponset bw cw d es, es <> [] ->
  plot_energies ponset bw cw (Some d) es = Err TypeError \/ plot_energies ponset bw cw (Some d) es = Err ZeroDivisionError.
Proof. exact energies_downsample. Qed.
Print Assumptions C105_downsample.

Example C105_downsample_ex : w_energies st_c <> [].
Proof. exact traces_given. Qed.

(** C106: the crosses are the trial values inside of the bounds with their misfits, in
    order; the last one is marked as the best and infinite misfits are marked in red. *)
Theorem C106_crosses : forall o st s f p, choose o st = Ok (Some (s, f)) -> l_fix o = false -> l_optimize o = true -> l_plot_optimization o = true ->
  plot_misfit (r_g0 s) = Ok p ->
  exists a bs rs l sel, build o st = Ok (a, bs, rs) /\ trials (misfit o st a bs rs) (l_optim o) l (f_g0 f) /\
    selected (fun t => inside_closed (l_g0_bounds o) (snd t)) l sel /\
    ((exists t, In t sel /\ fst t <> FPInf /\ fst t <> FNInf) ->
       m_all p = map (fun t => (snd t, fst t)) sel /\
       exists front t, sel = front ++ [t] /\ m_best p = Some (snd t, fst t)) /\
    ((forall t, In t sel -> fst t = FPInf) -> m_all p = [] /\ m_best p = None) /\
    exists inf, selected (fun t => fst t = FPInf) sel inf /\ m_inf p = map snd inf.
Proof. exact misfit_crosses. Qed.
Print Assumptions C106_crosses.

Example C106_crosses_ex : exists s f p, choose (lo_with optim_best) st_c = Ok (Some (s, f)) /\ l_fix (lo_with optim_best) = false /\
  l_optimize (lo_with optim_best) = true /\ l_plot_optimization (lo_with optim_best) = true /\ plot_misfit (r_g0 s) = Ok p.
Proof. exact misfit_ex. Qed.

(** C106, false: the cross marked as the best value need not be the value of g0 in the
    result, although the latter is one of the crosses. *)
Theorem C106_best_refuted : exists o st s f p g y, aligned st /\ least_squares (l_wls o) /\ choose o st = Ok (Some (s, f)) /\
  l_fix o = false /\ l_optimize o = true /\ l_plot_optimization o = true /\
  plot_misfit (r_g0 s) = Ok p /\ In (f_g0 f, FNum y) (m_all p) /\ m_best p = Some (g, FNum y) /\ g <> f_g0 f.
Proof. exact best. Qed.
Print Assumptions C106_best_refuted.

(** C106, false: the plot fails if no trial value is inside of the bounds. *)
Theorem C106_no_trial_refuted : exists o st s f, aligned st /\ least_squares (l_wls o) /\ choose o st = Ok (Some (s, f)) /\
  l_fix o = false /\ l_optimize o = true /\ l_plot_optimization o = true /\ plot_misfit (r_g0 s) = Err ValueError.
Proof. exact no_trial. Qed.
Print Assumptions C106_no_trial_refuted.
