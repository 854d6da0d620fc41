(** Property C119: straight line fits and the line in the plot of magnitudes.  Theorems only. *)
From Coq Require Import String List Reals Arith.
From Verif Require Import Base DepModel SourceModel LineModel LineSpec LineProof LineProof2 LineProof3 LineEx.
Import ListNotations.
Open Scope R_scope.

(** C119: the least squares fit (with weights if given) is a line that no other line is closer
    to the data than. *)
Theorem C119_closest : forall fit, fits_least_squares fit -> forall y x method w d, data_of y x w d ->
  positive_weights d -> d <> [] -> method <> "robust"%string -> (w <> None -> method = "weighted"%string) ->
  exists a b, linear_fit fit y x None method w = Ok (a, b) /\ forall a' b', misfit d a b <= misfit d a' b'.
Proof. exact fit_closest. Qed.
Print Assumptions C119_closest.

Example C119_closest_ex : fits_least_squares normal_fit /\
  data_of [1; 2; 4] [1; 2; 3] (Some [1; 2; 1]) [(1, 1, 1); (2, 2, 2); (4, 3, 1)] /\
  positive_weights [(1, 1, 1); (2, 2, 2); (4, 3, 1)].
Proof. exact (conj normal_squares (conj three three_positive)). Qed.

(** C119: if not all data are at the same place it is the only one. *)
Theorem C119_only : forall fit, fits_least_squares fit -> forall y x method w d a b, data_of y x w d ->
  method <> "robust"%string -> (w <> None -> method = "weighted"%string) -> positive_weights d -> two_places d ->
  (linear_fit fit y x None method w = Ok (a, b) <-> forall a' b', misfit d a b <= misfit d a' b').
Proof. exact fit_only. Qed.
Print Assumptions C119_only.

Example C119_only_ex : two_places [(1, 1, 1); (2, 2, 2); (4, 3, 1)].
Proof. exact three_places. Qed.

(** C119: with a given slope the slope is kept, the intercept is the (weighted) mean of the
    differences. *)
Theorem C119_fixed : forall fit, fits_least_squares fit -> forall y x m method w d, data_of y x w d ->
  positive_weights d -> d <> [] -> method <> "robust"%string -> (w <> None -> method = "weighted"%string) ->
  linear_fit fit y x (Some m) method w = Ok (m, wsum (fun v u => v - m * u) d / wsum (fun _ _ => 1) d).
Proof. exact fit_fixed. Qed.
Print Assumptions C119_fixed.

Example C119_fixed_ex : fits_least_squares normal_fit /\
  data_of [1; 2; 4] [1; 2; 3] (Some [1; 2; 1]) [(1, 1, 1); (2, 2, 2); (4, 3, 1)].
Proof. exact (conj normal_squares three). Qed.

(** C119: all methods find the line of data without errors. *)
Theorem C119_exact : forall fit, fits_least_squares fit -> fits_exact_data fit ->
  forall y x method w d a b, data_of y x w d ->
  (w <> None -> method = "weighted"%string) -> positive_weights d -> on_line d a b ->
  (two_places d -> linear_fit fit y x None method w = Ok (a, b)) /\
  (d <> [] -> linear_fit fit y x (Some a) method w = Ok (a, b)).
Proof. exact fit_exact. Qed.
Print Assumptions C119_exact.

Example C119_exact_ex : fits_exact_data normal_fit /\ data_of [3; 5] [1; 2] None [(3, 1, 1); (5, 2, 1)] /\
  on_line [(3, 1, 1); (5, 2, 1)] 2 1.
Proof. exact (conj normal_exact (conj two_data two_line)). Qed.

(** C119: a single value of x is used for all data; any other difference in length is an error. *)
Theorem C119_lengths : forall fit y m method w,
  (forall v, linear_fit fit y [v] m method w = linear_fit fit y (repeat v (length y)) m method w) /\
  (forall x, length x <> length y -> length x <> 1%nat -> linear_fit fit y x m method w = Err ValueError).
Proof. exact (fun fit y m method w => conj (fun v => fit_repeated fit y v m method w) (fun x => fit_lengths fit y x m method w)). Qed.
Print Assumptions C119_lengths.

Example C119_lengths_ex : length [1; 2] <> length [1; 2; 4] /\ length [1; 2] <> 1%nat.
Proof. exact (conj (Nat.lt_neq 2 3 (le_n 3)) (not_eq_sym (Nat.lt_neq 1 2 (le_n 2)))). Qed.

(** C119: the points of the plot are the selected events with both magnitudes.  There is a line for
    more than three points, the fit of the moment magnitudes over the catalogue magnitudes, drawn
    with 100 equally spaced points between the limits, or else the smallest and largest catalogue
    magnitude of the points. *)
Theorem C119_line : forall fit events only xlim fig, plot_line fit events only xlim = Ok (Some fig) ->
  (forall c w, In (c, w) (mf_points fig) <-> plotted events only c w) /\ mf_xlim fig = xlim /\
  (mf_line fig <> None <-> (3 < length (mf_points fig))%nat) /\
  (forall l, mf_line fig = Some l -> exists lo hi a b, ends_of events only xlim lo hi /\
     linear_fit fit (map snd (mf_points fig)) (map fst (mf_points fig)) None "robust" None = Ok (a, b) /\
     drawn 99 l lo hi a b).
Proof. exact line_shown. Qed.
Print Assumptions C119_line.

Example C119_line_ex : exists fig l, plot_line normal_fit events_m None None = Ok (Some fig) /\
  mf_line fig = Some l /\ length l = 100%nat.
Proof. exact shown_m. Qed.

(** C119: there is no plot exactly if no selected event has both magnitudes. *)
Theorem C119_none : forall fit events only xlim,
  plot_line fit events only xlim = Ok None <-> forall c w, ~ plotted events only c w.
Proof. exact line_none. Qed.
Print Assumptions C119_none.

Example C119_none_ex : forall c w, ~ plotted events_m (Some ["c"%string]) c w.
Proof. exact none_m. Qed.

(** C119: if the moment magnitude is a linear function of the catalogue magnitude this is the line. *)
Theorem C119_true : forall fit, fits_exact_data fit -> forall events only xlim A B,
  (forall c w, plotted events only c w -> w = A * c + B) ->
  (exists c1 w1 c2 w2, plotted events only c1 w1 /\ plotted events only c2 w2 /\ c1 <> c2) ->
  exists fig, plot_line fit events only xlim = Ok (Some fig) /\
    (forall l m y, mf_line fig = Some l -> In (m, y) l -> y = A * m + B).
Proof. exact line_true. Qed.
Print Assumptions C119_true.

Example C119_true_ex : (forall c w, plotted events_m None c w -> w = 1 * c + 1) /\
  (exists c1 w1 c2 w2, plotted events_m None c1 w1 /\ plotted events_m None c2 w2 /\ c1 <> c2).
Proof. exact (conj plotted_m places_m). Qed.

(** C119: the second axis: the functions are inverse to each other and increasing. *)
Theorem C119_axis : forall inverse there back, secondary_axis inverse = (there, back) ->
  (forall v, (inverse = true -> 0 < v) -> back (there v) = v) /\
  (forall v, (inverse = false -> 0 < v) -> there (back v) = v) /\
  (forall u v, (inverse = true -> 0 < u) -> u < v -> there u < there v).
Proof. exact axis_ok. Qed.
Print Assumptions C119_axis.

Example C119_axis_ex : exists there back, secondary_axis true = (there, back).
Proof. exact (ex_intro _ _ (ex_intro _ _ eq_refl)). Qed.

(** C119: magnitudes have the moment 10^(1.5 Mw + 9.105) Nm on the second axis. *)
Theorem C119_moment : forall Mw, fst (secondary_axis false) Mw = Rpower 10 (15 / 10 * Mw + 9105 / 1000) /\
  snd (secondary_axis true) Mw = Rpower 10 (15 / 10 * Mw + 9105 / 1000).
Proof. exact axis_values. Qed.
Print Assumptions C119_moment.
