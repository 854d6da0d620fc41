(** Property C149: frequency bands in another unit of frequency and in another order.  Theorems only. *)
From Coq Require Import List Bool Reals Lra Permutation.
From Verif Require Import Base FreqsModel PitchSpec PitchProof PitchEx.
Import ListNotations.
Open Scope R_scope.

(** C149: with all frequencies in another unit the bands are the same in this unit, in the same order,
    or there is the same error. *)
Theorem C149_unit : forall k, 0 < k -> forall max min step width cfreqs fbands,
  get_freqs (option_map (Rmult k) max) (option_map (Rmult k) min) step width (option_map (map (Rmult k)) cfreqs)
    (option_map (map (rescaled_corners k)) fbands) =
  match get_freqs max min step width cfreqs fbands with Ok b => Ok (map (rescaled k) b) | Err e => Err e end.
Proof. exact freqs_scaled. Qed.
Print Assumptions C149_unit.

Example C149_unit_ex : 0 < 1000 /\
  get_freqs None None None None None (Some [(4, 6); (1, 3)]) = Ok [(2, (1, 3)); (5, (4, 6))].
Proof. split; [lra|exact pitch_ex]. Qed.

(** C149: given bands may be listed in any order. *)
Theorem C149_order : forall max min step width cfreqs fb fb', Permutation fb fb' ->
  get_freqs max min step width cfreqs (Some fb) = get_freqs max min step width cfreqs (Some fb').
Proof. exact freqs_order. Qed.
Print Assumptions C149_order.

Example C149_order_ex : Permutation [(4, 6); (1, 3)] [(1, 3); (4, 6)] /\
  get_freqs None None None None None (Some [(4, 6); (1, 3)]) = Ok [(2, (1, 3)); (5, (4, 6))].
Proof. split; [exact pitch_perm|exact pitch_ex]. Qed.
