(** Property C134: the unit of length.  Theorems only. *)
From Coq Require Import String List Reals.
From Verif Require Import Base Pyf PyfOps RtSpec FbModel LsqfbModel LsqfbSpec GreenModel GreenEx GainSpec GainEx UnitSpec UnitProof UnitProof3 UnitEx.
Import ListNotations.
Open Scope string_scope.
Open Scope list_scope.
Open Scope R_scope.

(** C134: with distances and velocity in a unit of length that is smaller by k, and the scattering
    coefficient per this unit, the Green's functions of a coda window (with the direct wave and the
    smoothing) are the same energy densities per unit volume, area or length. *)
Theorem C134_coda : forall k, 0 < k -> forall ty r t v0 g sm window, In ty ["rt3d"; "rt2d"; "rt1d"] ->
  coda_greens ty sm window (k * v0) (k * r) t (per_unit k g) =
  (do l <- coda_greens ty sm window v0 r t g; Ok (map (per_unit (k ^ dimension ty)) l)).
Proof. exact coda_unit. Qed.
Print Assumptions C134_coda.

Example C134_coda_ex : 0 < 2 /\ exists a b c d, 0 < a /\
  coda_greens "rt3d" (Some 3) "flat" 1 10 t_green (FNum (1 / 5)) = Ok [FNum a; FNum b; FNum c; FNum d].
Proof. exact coda_u. Qed.

(** C134: the same for a bulk window. *)
Theorem C134_bulk : forall k, 0 < k -> forall ty r w v0 g num, In ty ["rt3d"; "rt2d"; "rt1d"] ->
  bulk_greens ty num (k * v0) (k * r) w (per_unit k g) =
  (do x <- bulk_greens ty num v0 r w g; Ok (per_unit (k ^ dimension ty) x)).
Proof. exact bulk_unit. Qed.
Print Assumptions C134_bulk.

Example C134_bulk_ex : 0 < 2 /\ exists x, 0 < x /\ bulk_greens "rt3d" 50 1 10 (8, 12) (FNum (1 / 5)) = Ok (FNum x).
Proof. exact bulk_u. Qed.

(** C134, command go: with distances, velocity, bounds of g0 and the optimiser in the other unit
    the band has the same absorption, error, number of stations and site responses, g0 is the same
    in the other unit, and the source terms are multiplied by k to the number of dimensions; or
    both bands are skipped. *)
Theorem C134_go : forall k o st ty window sm num c dof, 0 < k -> In ty ["rt3d"; "rt2d"; "rt1d"] ->
  aligned st -> numeric st -> least_squares_dof (l_wls o) dof -> good_weights o st -> l_coda_norm o = false ->
  l_gcoda o = coda_greens ty sm window c -> l_gbulk o = bulk_greens ty num c -> positive_greens o st ->
  l_fix_sites o = None -> 0 < l_R0 o -> one_network st -> l_fix o = false -> two_times st ->
  forall lo hi, l_g0_bounds o = Some (lo, hi) -> 0 < lo ->
  forall v0 y y' s s', invert_band o st v0 = Ok (y, s) ->
  invert_band (in_unit k (coda_greens ty sm window (k * c)) (bulk_greens ty num (k * c)) o) (stretched k st) (k * v0) = Ok (y', s') ->
  both (unit_result st k (dimension ty)) y y'.
Proof. exact unit_go. Qed.
Print Assumptions C134_go.

Example C134_go_ex :
  (aligned st_u /\ numeric st_u /\ least_squares_dof (l_wls (lo_u false false)) dof_one /\
   good_weights (lo_u false false) st_u /\ positive_greens (lo_u false false) st_u /\ one_network st_u /\ two_times st_u) /\
  (exists r s, invert_band (lo_u false false) st_u 1 = Ok (Some r, s)) /\
  (exists r s, invert_band (in_unit 2 (coda_greens "rt3d" (Some 3) "flat" (2 * 1)) (bulk_greens "rt3d" 50 (2 * 1)) (lo_u false false))
     (stretched 2 st_u) (2 * 1) = Ok (Some r, s)).
Proof. exact (conj (unit_hyps false false) (both_u false false (fun H => H))). Qed.

(** C134, command fixed. *)
Theorem C134_fixed : forall k o st ty window sm num c dof, 0 < k -> In ty ["rt3d"; "rt2d"; "rt1d"] ->
  aligned st -> numeric st -> least_squares_dof (l_wls o) dof -> good_weights o st -> l_coda_norm o = false ->
  l_gcoda o = coda_greens ty sm window c -> l_gbulk o = bulk_greens ty num c -> positive_greens o st ->
  l_fix_sites o = None -> 0 < l_R0 o -> one_network st ->
  forall g b v0 y y' s s', l_fix o = true -> l_fix_params o = Some (Some (FNum g), Some (FNum b)) -> 0 < g ->
  invert_band o st v0 = Ok (y, s) ->
  invert_band (in_unit k (coda_greens ty sm window (k * c)) (bulk_greens ty num (k * c)) o) (stretched k st) (k * v0) = Ok (y', s') ->
  both (unit_result st k (dimension ty)) y y'.
Proof. exact unit_fixed. Qed.
Print Assumptions C134_fixed.

Example C134_fixed_ex :
  (aligned st_u /\ numeric st_u /\ least_squares_dof (l_wls (lo_u true false)) dof_one /\
   good_weights (lo_u true false) st_u /\ positive_greens (lo_u true false) st_u /\ one_network st_u /\ two_times st_u) /\
  (exists r s, invert_band (lo_u true false) st_u 1 = Ok (Some r, s)) /\
  (exists r s, invert_band (in_unit 2 (coda_greens "rt3d" (Some 3) "flat" (2 * 1)) (bulk_greens "rt3d" 50 (2 * 1)) (lo_u true false))
     (stretched 2 st_u) (2 * 1) = Ok (Some r, s)).
Proof. exact (conj (unit_hyps true false) (both_u true false (fun _ => eq_refl))). Qed.

(** C134, command source. *)
Theorem C134_source : forall k o st ty window sm num c dof, 0 < k -> In ty ["rt3d"; "rt2d"; "rt1d"] ->
  aligned st -> numeric st -> least_squares_dof (l_wls o) dof -> good_weights o st -> l_coda_norm o = false ->
  l_gcoda o = coda_greens ty sm window c -> l_gbulk o = bulk_greens ty num c -> positive_greens o st ->
  forall params, l_fix_sites o = Some params -> l_fix o = true ->
  (forall x, In x (map snd (pairs st)) -> exists v, 0 < v /\ dget String.eqb params x = Some (FNum v)) ->
  forall g b v0 y y' s s', l_fix_params o = Some (Some (FNum g), Some (FNum b)) -> 0 < g ->
  invert_band o st v0 = Ok (y, s) ->
  invert_band (in_unit k (coda_greens ty sm window (k * c)) (bulk_greens ty num (k * c)) o) (stretched k st) (k * v0) = Ok (y', s') ->
  both (unit_sources st k (dimension ty)) y y'.
Proof. exact unit_source. Qed.
Print Assumptions C134_source.

Example C134_source_ex :
  (aligned st_u /\ numeric st_u /\ least_squares_dof (l_wls (lo_u true true)) dof_one /\
   good_weights (lo_u true true) st_u /\ positive_greens (lo_u true true) st_u /\ one_network st_u /\ two_times st_u) /\
  (forall x, In x (map snd (pairs st_u)) -> exists v, 0 < v /\ dget String.eqb [("A", FNum 1)] x = Some (FNum v)) /\
  (exists r s, invert_band (lo_u true true) st_u 1 = Ok (Some r, s)) /\
  (exists r s, invert_band (in_unit 2 (coda_greens "rt3d" (Some 3) "flat" (2 * 1)) (bulk_greens "rt3d" 50 (2 * 1)) (lo_u true true))
     (stretched 2 st_u) (2 * 1) = Ok (Some r, s)).
Proof. exact (conj (unit_hyps true true) (conj params_u (both_u true true (fun H => H)))). Qed.
