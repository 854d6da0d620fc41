(** Property C132: the results of a band do not depend on the order of the pairs.  Theorems only. *)
From Coq Require Import String List Reals.
From Verif Require Import GreenModel GreenEx Base Pyf PyfOps FbModel LsqfbModel LsqfbSpec LsqfbEx GainSpec ShuffleSpec ShuffleProof3 ShuffleProof4 ShuffleProof5 ShuffleEx.
Import ListNotations.
Open Scope string_scope.
Open Scope list_scope.
Open Scope R_scope.

(** C132, command go: the same observations in another order give the same g0, b, error and number
    of stations and the same source terms and site responses, although the first event, the columns
    of the matrix and the normalisation are other ones; or both bands are skipped. *)
Theorem C132_go : forall o st st2 dof,
  reordered (l_bulk o) st st2 -> aligned st -> numeric st -> least_squares_full (l_wls o) dof ->
  good_weights o st -> l_coda_norm o = false -> positive_greens o st -> greens_lengths o st ->
  l_fix_sites o = None -> 0 < l_R0 o -> one_network st -> l_fix o = false -> two_times st ->
  forall lo hi, l_g0_bounds o = Some (lo, hi) -> 0 < lo ->
  forall v0 y y2 s s2, invert_band o st v0 = Ok (y, s) -> invert_band o st2 v0 = Ok (y2, s2) ->
  both (same_result st) y y2.
Proof. exact shuffled_go. Qed.
Print Assumptions C132_go.

Example C132_go_ex : reordered (l_bulk (shuf_ex false)) st_ex turned_ex /\ aligned st_ex /\ numeric st_ex /\
  least_squares_full (l_wls (shuf_ex false)) dof_1 /\ good_weights (shuf_ex false) st_ex /\
  positive_greens (shuf_ex false) st_ex /\ greens_lengths (shuf_ex false) st_ex /\ one_network st_ex /\ two_times st_ex /\
  l_g0_bounds (shuf_ex false) = Some (1 / 1000, 1) /\ eventids turned_ex <> eventids st_ex /\
  (exists r s, invert_band (shuf_ex false) st_ex 3 = Ok (Some r, s)) /\
  (exists y s, invert_band (shuf_ex false) turned_ex 3 = Ok (y, s)).
Proof. exact shuf_go_hyps. Qed.

(** C132, command fixed. *)
Theorem C132_fixed : forall o st st2 dof,
  reordered (l_bulk o) st st2 -> aligned st -> numeric st -> least_squares_full (l_wls o) dof ->
  good_weights o st -> l_coda_norm o = false -> positive_greens o st -> greens_lengths o st ->
  l_fix_sites o = None -> 0 < l_R0 o -> one_network st ->
  forall g b v0 y y2 s s2, l_fix o = true -> l_fix_params o = Some (Some (FNum g), Some (FNum b)) -> 0 < g ->
  invert_band o st v0 = Ok (y, s) -> invert_band o st2 v0 = Ok (y2, s2) ->
  both (same_result st) y y2.
Proof. exact shuffled_fixed. Qed.
Print Assumptions C132_fixed.

Example C132_fixed_ex : reordered (l_bulk (shuf_ex true)) st_ex turned_ex /\
  least_squares_full (l_wls (shuf_ex true)) dof_1 /\ good_weights (shuf_ex true) st_ex /\
  positive_greens (shuf_ex true) st_ex /\ greens_lengths (shuf_ex true) st_ex /\
  l_fix_params (shuf_ex true) = Some (Some (FNum (1 / 5)), Some (FNum bt_ex)) /\
  (exists r s, invert_band (shuf_ex true) st_ex 3 = Ok (Some r, s)) /\
  (exists y s, invert_band (shuf_ex true) turned_ex 3 = Ok (y, s)).
Proof. exact shuf_fixed_hyps. Qed.

(** C132, command source: the same with given site responses. *)
Theorem C132_source : forall o st st2 dof params,
  reordered (l_bulk o) st st2 -> aligned st -> numeric st -> least_squares_full (l_wls o) dof ->
  good_weights o st -> l_coda_norm o = false -> positive_greens o st -> greens_lengths o st ->
  l_fix_sites o = Some params -> l_fix o = true ->
  (forall x, In x (map snd (pairs st)) -> exists v, 0 < v /\ dget String.eqb params x = Some (FNum v)) ->
  forall g b v0 y y2 s s2, l_fix_params o = Some (Some (FNum g), Some (FNum b)) -> 0 < g ->
  invert_band o st v0 = Ok (y, s) -> invert_band o st2 v0 = Ok (y2, s2) ->
  both (same_sources st) y y2.
Proof. exact shuffled_source. Qed.
Print Assumptions C132_source.

Example C132_source_ex : reordered (l_bulk shuf_sites) st_ex turned_ex /\
  least_squares_full (l_wls shuf_sites) dof_1 /\ good_weights shuf_sites st_ex /\
  positive_greens shuf_sites st_ex /\ greens_lengths shuf_sites st_ex /\ l_fix_sites shuf_sites = Some params_ex /\
  (forall x, In x (map snd (pairs st_ex)) -> exists v, 0 < v /\ dget String.eqb params_ex x = Some (FNum v)) /\
  (exists r s, invert_band shuf_sites st_ex 3 = Ok (Some r, s)) /\
  (exists y s, invert_band shuf_sites turned_ex 3 = Ok (y, s)).
Proof. exact shuf_source_hyps. Qed.

(** C132: the conditions on the Green's functions in C131 to C133 hold for the built-in ones: the
    three radiative transfer models with one of the smoothing windows over at least three samples,
    coda windows behind the wave front and bulk windows around it. *)
Theorem C132_builtin : forall o st ty wl window num v0, In ty ["rt3d"; "rt2d"; "rt1d"] -> 0 < v0 -> (2 <= num)%nat ->
  In window ["flat"; "hanning"; "hamming"; "bartlett"; "blackman"] ->
  l_gcoda o = coda_greens ty (Some wl) window v0 -> l_gbulk o = bulk_greens ty num v0 ->
  coda_behind st wl v0 -> bulk_around st v0 ->
  positive_greens o st /\ greens_lengths o st.
Proof. exact builtin_greens. Qed.
Print Assumptions C132_builtin.

Example C132_builtin_ex : l_gcoda lo_built = coda_greens "rt3d" (Some 3) "flat" 1 /\ l_gbulk lo_built = bulk_greens "rt3d" 50 1 /\
  coda_behind st_built 3 1 /\ bulk_around st_built 1 /\ coda_of st_built 10 t_green /\ bulk_of st_built 10 (8, 12).
Proof. exact builtin_hyps. Qed.
