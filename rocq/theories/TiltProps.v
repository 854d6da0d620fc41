(** Property C150: straight line fits of the same data in another form.  Theorems only. *)
From Coq Require Import String List Reals Lra Permutation.
From Verif Require Import Base DepModel LineModel LineSpec LineEx TiltSpec TiltProof TiltProof2 TiltEx.
Import ListNotations.
Open Scope R_scope.

(** C150: a line is the result of the fit exactly if the (weighted) residuals sum up to zero and are
    uncorrelated with the places. *)
Theorem C150_residuals : forall fit, fits_least_squares fit -> forall y x method w d a b, data_of y x w d ->
  method <> "robust"%string -> (w <> None -> method = "weighted"%string) -> positive_weights d -> two_places d ->
  (linear_fit fit y x None method w = Ok (a, b) <->
   wsum (fun y x => y - (a * x + b)) d = 0 /\ wsum (fun y x => (y - (a * x + b)) * x) d = 0).
Proof. exact tilt_residuals. Qed.
Print Assumptions C150_residuals.

Example C150_residuals_ex : fits_least_squares normal_fit /\
  data_of [1; 2; 4] [1; 2; 3] (Some [1; 2; 1]) [(1, 1, 1); (2, 2, 2); (4, 3, 1)] /\
  positive_weights [(1, 1, 1); (2, 2, 2); (4, 3, 1)] /\ two_places [(1, 1, 1); (2, 2, 2); (4, 3, 1)] /\
  linear_fit normal_fit [1; 2; 4] [1; 2; 3] None "weighted" (Some [1; 2; 1]) = Ok (3 / 2, -3 / 4).
Proof. exact (conj normal_squares (conj three (conj three_positive (conj three_places three_line)))). Qed.

(** C150: the order of the data does not matter, and neither does the method if the weights are the same. *)
Theorem C150_order : forall fit, fits_least_squares fit -> forall y x method w d y' x' method' w' d',
  data_of y x w d -> data_of y' x' w' d' -> method <> "robust"%string -> method' <> "robust"%string ->
  (w <> None -> method = "weighted"%string) -> (w' <> None -> method' = "weighted"%string) ->
  positive_weights d -> two_places d -> Permutation d d' ->
  linear_fit fit y x None method w = linear_fit fit y' x' None method' w'.
Proof. exact tilt_order. Qed.
Print Assumptions C150_order.

Example C150_order_ex : data_of [4; 1; 2] [3; 1; 2] (Some [1; 1; 2]) [(4, 3, 1); (1, 1, 1); (2, 2, 2)] /\
  Permutation [(1, 1, 1); (2, 2, 2); (4, 3, 1)] [(4, 3, 1); (1, 1, 1); (2, 2, 2)].
Proof. exact three_turned. Qed.

(** C150: in other units of values and places, from other origins and with a line added, the result is
    the line in this form. *)
Theorem C150_moved : forall fit, fits_least_squares fit -> forall k s h l e y x method w d y' x' w' a b, k <> 0 -> l <> 0 ->
  data_of y x w d -> data_of y' x' w' (map (moved k s h l e) d) -> method <> "robust"%string ->
  (w <> None -> method = "weighted"%string) -> (w' <> None -> method = "weighted"%string) ->
  positive_weights d -> two_places d -> linear_fit fit y x None method w = Ok (a, b) ->
  linear_fit fit y' x' None method w' = Ok ((k * a + s) / l, k * b + h - (k * a + s) / l * e).
Proof. exact tilt_moved. Qed.
Print Assumptions C150_moved.

Example C150_moved_ex : 10 <> 0 /\ 2 <> 0 /\
  data_of [10 * 1 + 3 * 1 + 5; 10 * 2 + 3 * 2 + 5; 10 * 4 + 3 * 3 + 5] [2 * 1 + 7; 2 * 2 + 7; 2 * 3 + 7] (Some [1; 2; 1])
    (map (moved 10 3 5 2 7) [(1, 1, 1); (2, 2, 2); (4, 3, 1)]).
Proof. split; [lra|]. split; [lra|exact three_moved]. Qed.

(** C150: only ratios of the weights matter. *)
Theorem C150_weights : forall fit, fits_least_squares fit -> forall q y x w d w', 0 < q ->
  data_of y x w d -> data_of y x w' (map (reweighted q) d) -> positive_weights d -> two_places d ->
  linear_fit fit y x None "weighted" w = linear_fit fit y x None "weighted" w'.
Proof. exact tilt_weights. Qed.
Print Assumptions C150_weights.

Example C150_weights_ex : 0 < 6 /\
  data_of [1; 2; 4] [1; 2; 3] (Some [6 * 1; 6 * 2; 6 * 1]) (map (reweighted 6) [(1, 1, 1); (2, 2, 2); (4, 3, 1)]).
Proof. split; [lra|exact three_reweighted]. Qed.

(** C150: the fit of a superposition of values is the superposition of the fits. *)
Theorem C150_mixed : forall fit, fits_least_squares fit -> forall p q y y' y'' x method w d d' d'' a b a' b',
  data_of y x w d -> data_of y' x w d' -> data_of y'' x w d'' -> mixed p q d d' d'' ->
  method <> "robust"%string -> (w <> None -> method = "weighted"%string) -> positive_weights d -> two_places d ->
  linear_fit fit y x None method w = Ok (a, b) -> linear_fit fit y' x None method w = Ok (a', b') ->
  linear_fit fit y'' x None method w = Ok (p * a + q * a', p * b + q * b').
Proof. exact tilt_mixed. Qed.
Print Assumptions C150_mixed.

Example C150_mixed_ex : mixed 3 5 [(1, 1, 1); (2, 2, 2); (4, 3, 1)] [(2, 1, 1); (2, 2, 2); (2, 3, 1)]
    [(3 * 1 + 5 * 2, 1, 1); (3 * 2 + 5 * 2, 2, 2); (3 * 4 + 5 * 2, 3, 1)] /\
  linear_fit normal_fit [1; 2; 4] [1; 2; 3] None "weighted" (Some [1; 2; 1]) = Ok (3 / 2, -3 / 4) /\
  linear_fit normal_fit [2; 2; 2] [1; 2; 3] None "weighted" (Some [1; 2; 1]) = Ok (0, 2).
Proof. exact (conj (proj2 (proj2 three_mixed)) (conj three_line three_level)). Qed.

(** C150: errors of the values of at most eps change the line at the (weighted) mean place by at most eps. *)
Theorem C150_errors : forall fit, fits_least_squares fit -> forall eps y y' x method w d d' a b a' b' mean,
  data_of y x w d -> data_of y' x w d' -> near eps d d' -> method <> "robust"%string ->
  (w <> None -> method = "weighted"%string) -> positive_weights d -> two_places d ->
  linear_fit fit y x None method w = Ok (a, b) -> linear_fit fit y' x None method w = Ok (a', b') ->
  mean = wsum (fun _ x => x) d / wsum (fun _ _ => 1) d -> Rabs ((a' * mean + b') - (a * mean + b)) <= eps.
Proof. exact tilt_errors. Qed.
Print Assumptions C150_errors.

Example C150_errors_ex : near 1 [(1, 1, 1); (2, 2, 2); (4, 3, 1)] [(1, 1, 1); (3, 2, 2); (4, 3, 1)] /\
  linear_fit normal_fit [1; 2; 4] [1; 2; 3] None "weighted" (Some [1; 2; 1]) = Ok (3 / 2, -3 / 4) /\
  linear_fit normal_fit [1; 3; 4] [1; 2; 3] None "weighted" (Some [1; 2; 1]) = Ok (3 / 2, -1 / 4).
Proof. exact (conj (proj2 three_near) (conj three_line near_fit)). Qed.

(** C150: with a given slope they change the intercept by at most eps. *)
Theorem C150_level : forall fit, fits_least_squares fit -> forall eps m y y' x method w d d' b b',
  data_of y x w d -> data_of y' x w d' -> near eps d d' -> method <> "robust"%string ->
  (w <> None -> method = "weighted"%string) -> positive_weights d -> d <> [] ->
  linear_fit fit y x (Some m) method w = Ok (m, b) -> linear_fit fit y' x (Some m) method w = Ok (m, b') -> Rabs (b' - b) <= eps.
Proof. exact tilt_level. Qed.
Print Assumptions C150_level.

Example C150_level_ex : near 1 [(1, 1, 1); (2, 2, 2); (4, 3, 1)] [(1, 1, 1); (3, 2, 2); (4, 3, 1)] /\
  data_of [1; 2; 4] [1; 2; 3] (Some [1; 2; 1]) [(1, 1, 1); (2, 2, 2); (4, 3, 1)] /\
  data_of [1; 3; 4] [1; 2; 3] (Some [1; 2; 1]) [(1, 1, 1); (3, 2, 2); (4, 3, 1)].
Proof. exact (conj (proj2 three_near) (conj three (proj1 three_near))). Qed.
