(** Properties of the arrangement of panels in plots: C73, C74, C83. *)
From Coq Require Import List Bool Arith ZArith.
From Verif Require Import Base GridModel GridSpec GridProof GridEx.
Import ListNotations.

(** Plots of fits, of results and of sites of one event: every number of panels has
    a cell each, in the order of reading, in the smallest sufficient square grid. *)
Theorem C73_square : forall N, 0 < N ->
  exists l, square_plot N = Ok l /\ well_placed N false l /\ reading_order l /\
    fst (g_grid l) = snd (g_grid l) /\ (fst (g_grid l) - 1) * (fst (g_grid l) - 1) < N.
Proof. exact square_good. Qed.
Print Assumptions C73_square.

Example C73_square_ex : 0 < 7.
Proof. repeat constructor. Qed.

(** Plot of the sites: every station with a value has a cell of its own, and the
    colour bar too if there is more than one observation. *)
Theorem C73_sites : forall max_nobs finite nx, 1 <= max_nobs -> In true finite -> nx <> Some 0 ->
  exists l, plot_sites max_nobs finite nx = Ok l /\
    well_placed (count_occ bool_dec finite true) (Nat.ltb 1 max_nobs) l /\ reading_order l.
Proof. exact sites_good. Qed.
Print Assumptions C73_sites.

Example C73_sites_ex : 1 <= 3 /\ In true [false; true; true] /\ Some 2 <> Some 0.
Proof. repeat split; [repeat constructor | right; left; reflexivity | discriminate]. Qed.

(** Without a single value there is no plot of the sites but an exception. *)
Theorem C73_sites_refuted : exists max_nobs finite nx,
  finite <> [] /\ nx <> Some 0 /\ ~ exists l, plot_sites max_nobs finite nx = Ok l.
Proof. exact ex_sites_none. Qed.
Print Assumptions C73_sites_refuted.

(** Plot of the spectra in at least two columns: every event has a cell of its own,
    and the colour bar too, which is not in the column of the label. *)
Theorem C73_spectra : forall max_nobs k nx xlabel, 1 <= k -> nx <> Some 0 -> nx <> Some 1 ->
  exists l, plot_all_sds max_nobs k nx xlabel = Ok l /\
    well_placed k (negb (Nat.eqb max_nobs 1)) l /\ reading_order l /\
    (xlabel = true -> forall c, g_bar l = Some c -> snd c <> (snd (g_grid l) - 1) / 2).
Proof. exact sds_good. Qed.
Print Assumptions C73_spectra.

Example C73_spectra_ex : 1 <= 4 /\ None <> Some 0 /\ @None nat <> Some 1.
Proof. repeat split; [repeat constructor | discriminate | discriminate]. Qed.

(** In one column the colour bar has no cell, whatever the number of events. *)
Theorem C73_spectra_column : forall max_nobs k, max_nobs <> 1 -> 1 <= k ->
  plot_all_sds max_nobs k (Some 1) true = Err IndexError.
Proof. exact sds_one_column. Qed.
Print Assumptions C73_spectra_column.

Example C73_spectra_column_ex : 3 <> 1 /\ 1 <= 5.
Proof. split; [discriminate | repeat constructor]. Qed.

(** A grid with one column is an exception. *)
Theorem C73_spectra_refuted : exists max_nobs k nx xlabel,
  1 <= k /\ nx <> Some 0 /\ ~ exists l, plot_all_sds max_nobs k nx xlabel = Ok l.
Proof. exact ex_sds_column. Qed.
Print Assumptions C73_spectra_refuted.

(** An odd number of at least three panels: the records have cells of their own,
    outside the main panel, with the numbers of the steps; the last one is "best". *)
Theorem C74_panels : forall k nrec, 1 <= k -> 1 <= nrec <= 2 * k + 1 ->
  exists main ps, plot_optimization (2 * k + 1) nrec = Ok (Some main, ps) /\
    length ps = nrec /\ NoDup (map fst ps) /\
    Forall (fun p => in_grid (S k, S k) (fst p) /\ ~ in_region main (fst p)) ps /\
    r2 main <= S k /\ c2 main <= S k /\ r1 main < r2 main /\ c1 main < c2 main /\
    (forall i l, nth_error (map snd ps) i = Some l -> l = if Nat.eqb i (2 * k) then None else Some (i + 1)).
Proof. exact optimization_good. Qed.
Print Assumptions C74_panels.

Example C74_panels_ex : 1 <= 3 /\ 1 <= 7 <= 2 * 3 + 1.
Proof. cbn. repeat split; repeat constructor. Qed.

(** For every even number above two the last two panels overlap. *)
Theorem C74_even : forall k, 2 <= k ->
  exists main ps a b, plot_optimization (2 * k) (2 * k) = Ok (Some main, ps) /\
    nth_error ps (2 * k - 2) = Some a /\ nth_error ps (2 * k - 1) = Some b /\ fst a = fst b.
Proof. exact optimization_even. Qed.
Print Assumptions C74_even.

Example C74_even_ex : 2 <= 4.
Proof. repeat constructor. Qed.

(** With an even number of panels two records share a cell. *)
Theorem C74_even_refuted : exists num main ps, plot_optimization num num = Ok (main, ps) /\ ~ NoDup (map fst ps).
Proof. exact ex_even. Qed.
Print Assumptions C74_even_refuted.

(** Two panels are an exception. *)
Theorem C74_two_refuted : exists num nrec, 1 <= nrec <= num /\ ~ exists r, plot_optimization num nrec = Ok r.
Proof. exact ex_two. Qed.
Print Assumptions C74_two_refuted.

(** The records handed to the plot: no value twice, at most num, all tried or the
    optimum, with the optimum. *)
Theorem C74_records : forall num tried best, 1 <= num ->
  let rec := recorded num tried best in
  NoDup rec /\ length rec <= num /\ In best rec /\ (forall g, In g rec -> g = best \/ In g tried) /\
  (forall g, nth_error rec (num - 1) = Some g -> g = best).
Proof. exact recorded_facts. Qed.
Print Assumptions C74_records.

Example C74_records_ex : 1 <= 7 /\ recorded 3 [5; 4; 4; 6; 7]%Z 7%Z = [5; 4; 7]%Z.
Proof. split; [repeat constructor | reflexivity]. Qed.

(** A panel that is labelled "best" shows the optimum. *)
Theorem C74_best : forall num tried best main ps i p, 3 <= num ->
  plot_optimization num (length (recorded num tried best)) = Ok (main, ps) ->
  nth_error ps i = Some p -> snd p = None -> nth_error (recorded num tried best) i = Some best.
Proof. exact best_panel. Qed.
Print Assumptions C74_best.

Example C74_best_ex : exists main ps p,
  plot_optimization 3 (length (recorded 3 [1; 2; 3; 4]%Z 3%Z)) = Ok (main, ps) /\
  nth_error ps 2 = Some p /\ snd p = None.
Proof. exact ex_best_panel. Qed.

(** But there may be none: the optimum among the first values is not recorded again. *)
Theorem C74_best_refuted : exists num tried best main ps,
  num < length tried /\ In best tried /\
  plot_optimization num (length (recorded num tried best)) = Ok (main, ps) /\ forall p, In p ps -> snd p <> None.
Proof. exact ex_best. Qed.
Print Assumptions C74_best_refuted.

(** One panel carries the label of the frequency axis exactly if the middle column
    has a panel, *)
Theorem C83_xlabel : forall nx ny N xt yt yl, 0 < nx ->
  (exactly_one N (fun i => xlabelled (set_gridlabels i nx ny N xt yt true yl) = true) <-> (nx - 1) / 2 < N).
Proof. exact xlabel_once. Qed.
Print Assumptions C83_xlabel.

Example C83_xlabel_ex : 0 < 4 /\ (4 - 1) / 2 < 6.
Proof. split; repeat constructor. Qed.

(** which always holds in the square grid; one panel carries the other label in all
    grids, with or without the colour bar. *)
Theorem C83_labels : forall k bar nx c r gs, 1 <= k -> nx <> Some 0 ->
  get_grid (k + b2n bar) nx = Ok (c, r, gs) ->
  exactly_one k (fun i => ylabelled (set_gridlabels i c r k false false true true) = true) /\
  (nx = None -> exactly_one k (fun i => xlabelled (set_gridlabels i c r k false false true true) = true)).
Proof. exact grid_labels. Qed.
Print Assumptions C83_labels.

Example C83_labels_ex : 1 <= 7 /\ None <> Some 0 /\ get_grid (7 + b2n true) None = Ok (3, 3, (3, 3)).
Proof. repeat split; [repeat constructor | discriminate]. Qed.

(** With more columns than panels the label may be missing. *)
Theorem C83_xlabel_refuted : exists k nx c r gs, 1 <= k /\ 1 <= nx /\ get_grid k (Some nx) = Ok (c, r, gs) /\
  forall i, i < k -> xlabelled (set_gridlabels i c r k false false true true) = false.
Proof. exact ex_xlabel. Qed.
Print Assumptions C83_xlabel_refuted.

(** The labels of ticks are on the panels of the first column, and on those without
    a panel below. *)
Theorem C83_ticks : forall i nx ny N xl yl, 0 < nx -> i < N ->
  (yticks (set_gridlabels i nx ny N false false xl yl) = true <-> snd (place nx i) = 0) /\
  (xticks (set_gridlabels i nx ny N false false xl yl) = true <->
     ~ exists j, j < N /\ snd (place nx j) = snd (place nx i) /\ fst (place nx i) < fst (place nx j)).
Proof. exact tick_labels. Qed.
Print Assumptions C83_ticks.

Example C83_ticks_ex : 0 < 3 /\ 4 < 7.
Proof. split; repeat constructor. Qed.

(** C73: with nothing to plot the functions fail. *)
Theorem C73_nothing : forall max_nobs finite nx xlabel, 2 <= max_nobs -> ~ In true finite -> nx <> Some 0 ->
  plot_sites max_nobs finite nx = Err UnboundLocalError /\
  plot_all_sds max_nobs 0 nx xlabel = Err IndexError.
Proof. exact nothing_to_plot. Qed.
Print Assumptions C73_nothing.

Example C73_nothing_ex : 2 <= 3 /\ ~ In true [false; false] /\ Some 4 <> Some 0.
Proof. exact (conj (le_S 2 2 (le_n 2)) nothing_ex). Qed.

(** C74: for at most one step there are no panels of steps, the main panel is the figure. *)
Theorem C74_no_steps : forall num nrec, num <= 1 -> plot_optimization num nrec = Ok (None, []).
Proof. exact no_steps. Qed.
Print Assumptions C74_no_steps.

Example C74_no_steps_ex : 1 <= 1.
Proof. exact (le_n 1). Qed.
