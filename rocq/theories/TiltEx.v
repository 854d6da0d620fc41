(** Concrete data for C150. *)
From Coq Require Import String List Reals Lra Permutation.
From Verif Require Import Base DepModel LineModel LineSpec LineProof LineEx TiltSpec TiltProof.
Import ListNotations.
Open Scope R_scope.

Lemma three_turned : data_of [4; 1; 2] [3; 1; 2] (Some [1; 1; 2]) [(4, 3, 1); (1, 1, 1); (2, 2, 2)] /\
  Permutation [(1, 1, 1); (2, 2, 2); (4, 3, 1)] [(4, 3, 1); (1, 1, 1); (2, 2, 2)].
Proof.
  split; [repeat constructor|]. eapply perm_trans; [apply perm_skip, perm_swap|]. apply perm_swap.
Qed.

Lemma three_moved : data_of [10 * 1 + 3 * 1 + 5; 10 * 2 + 3 * 2 + 5; 10 * 4 + 3 * 3 + 5] [2 * 1 + 7; 2 * 2 + 7; 2 * 3 + 7] (Some [1; 2; 1])
  (map (moved 10 3 5 2 7) [(1, 1, 1); (2, 2, 2); (4, 3, 1)]).
Proof. cbn [map moved]. repeat constructor. Qed.

Lemma three_line : linear_fit normal_fit [1; 2; 4] [1; 2; 3] None "weighted" (Some [1; 2; 1]) = Ok (3 / 2, -3 / 4).
Proof.
  apply (tilt_residuals normal_fit normal_squares _ _ _ _ _ _ _ three); [discriminate|reflexivity|exact three_positive|exact three_places|].
  cbn [wsum]. split; lra.
Qed.

Lemma three_reweighted : data_of [1; 2; 4] [1; 2; 3] (Some [6 * 1; 6 * 2; 6 * 1]) (map (reweighted 6) [(1, 1, 1); (2, 2, 2); (4, 3, 1)]).
Proof. cbn [map reweighted]. repeat constructor. Qed.

Lemma three_mixed : data_of [2; 2; 2] [1; 2; 3] (Some [1; 2; 1]) [(2, 1, 1); (2, 2, 2); (2, 3, 1)] /\
  data_of [3 * 1 + 5 * 2; 3 * 2 + 5 * 2; 3 * 4 + 5 * 2] [1; 2; 3] (Some [1; 2; 1])
    [(3 * 1 + 5 * 2, 1, 1); (3 * 2 + 5 * 2, 2, 2); (3 * 4 + 5 * 2, 3, 1)] /\
  mixed 3 5 [(1, 1, 1); (2, 2, 2); (4, 3, 1)] [(2, 1, 1); (2, 2, 2); (2, 3, 1)]
    [(3 * 1 + 5 * 2, 1, 1); (3 * 2 + 5 * 2, 2, 2); (3 * 4 + 5 * 2, 3, 1)].
Proof. repeat split; repeat constructor. Qed.

Lemma three_level : linear_fit normal_fit [2; 2; 2] [1; 2; 3] None "weighted" (Some [1; 2; 1]) = Ok (0, 2).
Proof.
  apply (tilt_residuals normal_fit normal_squares _ _ _ _ _ _ _ (proj1 three_mixed)); [discriminate|reflexivity| | |cbn [wsum]; split; lra].
  - intros y x w I. cbn in I. destruct I as [I|[I|[I|[]]]]; injection I as _ _ <-; lra.
  - exists 2, 1, 1, 2, 2, 2. cbn. repeat split; [now left|right; now left|lra].
Qed.

Lemma three_near : data_of [1; 3; 4] [1; 2; 3] (Some [1; 2; 1]) [(1, 1, 1); (3, 2, 2); (4, 3, 1)] /\
  near 1 [(1, 1, 1); (2, 2, 2); (4, 3, 1)] [(1, 1, 1); (3, 2, 2); (4, 3, 1)].
Proof.
  split; [repeat constructor|]. apply near_cons; [replace (1 - 1) with 0 by ring; rewrite Rabs_R0; lra|].
  apply near_cons; [replace (3 - 2) with 1 by ring; rewrite Rabs_R1; lra|]. apply near_cons; [replace (4 - 4) with 0 by ring; rewrite Rabs_R0; lra|]. constructor.
Qed.

Lemma near_fit : linear_fit normal_fit [1; 3; 4] [1; 2; 3] None "weighted" (Some [1; 2; 1]) = Ok (3 / 2, -1 / 4).
Proof.
  apply (tilt_residuals normal_fit normal_squares _ _ _ _ _ _ _ (proj1 three_near)); [discriminate|reflexivity| | |cbn [wsum]; split; lra].
  - intros y x w I. cbn in I. destruct I as [I|[I|[I|[]]]]; injection I as _ _ <-; lra.
  - exists 1, 1, 1, 3, 2, 2. cbn. repeat split; [now left|right; now left|lra].
Qed.
