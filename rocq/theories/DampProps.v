(** Property C133: energies which decay faster change the attenuation only.  Theorems only. *)
From Coq Require Import String List Reals.
From Verif Require Import Base Pyf PyfOps FbModel LsqfbModel LsqfbSpec LsqfbEx GainSpec GainEx DampSpec DampProof2 DampEx.
Import ListNotations.
Open Scope string_scope.
Open Scope list_scope.
Open Scope R_scope.

(** C133, command go without bounds of b: if the energies are multiplied by exp (- d t), then b is
    larger by d, and g0, the error, the source terms, the site responses and the number of stations
    are the same; or both bands are skipped. *)
Theorem C133_go : forall d o st dof,
  aligned st -> numeric st -> positive_greens o st -> least_squares_dof (l_wls o) dof -> good_weights o st ->
  l_coda_norm o = false -> l_fix_sites o = None -> 0 < l_R0 o -> one_network st ->
  l_fix o = false -> two_times st -> l_b_bounds o = None ->
  forall lo hi, l_g0_bounds o = Some (lo, hi) -> 0 < lo ->
  forall v0 y y' s s', invert_band o st v0 = Ok (y, s) -> invert_band o (damped d st) v0 = Ok (y', s') ->
  both (more_damped d) y y'.
Proof. exact damped_go. Qed.
Print Assumptions C133_go.

Example C133_go_ex : aligned st_ex /\ numeric st_ex /\ positive_greens damp_ex st_ex /\ least_squares_dof (l_wls damp_ex) dof_one /\
  good_weights damp_ex st_ex /\ one_network st_ex /\ two_times st_ex /\ l_b_bounds damp_ex = None /\
  l_g0_bounds damp_ex = Some (1 / 1000, 1) /\
  (exists r s, invert_band damp_ex st_ex 3 = Ok (Some r, s)) /\
  (exists r s, invert_band damp_ex (damped (1 / 5) st_ex) 3 = Ok (Some r, s)).
Proof. exact damp_hyps. Qed.

(** C133, commands fixed and source: if the energies are multiplied by exp (- d t) and the given b
    is larger by d and stays away from its bounds, the result is the same. *)
Theorem C133_fixed : forall d o st, aligned st -> numeric st -> positive_greens o st ->
  forall g b v0 r s, 0 < g -> (forall l h, l_b_bounds o = Some (l, h) -> 1.01 * l < b + d < 0.99 * h) ->
  invert_band (refixed o g b) st v0 = Ok (Some r, s) ->
  exists s', invert_band (refixed o g (b + d)) (damped d st) v0 = Ok (Some r, s').
Proof. exact damped_fixed. Qed.
Print Assumptions C133_fixed.

Example C133_fixed_ex : numeric st_ex /\ positive_greens fixed_ex st_ex /\
  (forall l h, l_b_bounds fixed_ex = Some (l, h) -> 1.01 * l < bt_ex + 1 / 5 < 0.99 * h) /\
  exists r s, invert_band (refixed fixed_ex (1 / 5) bt_ex) st_ex 3 = Ok (Some r, s).
Proof. exact damp_fixed_hyps. Qed.
