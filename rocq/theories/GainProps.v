(** Property C131: factors of the energies end up in the source terms and site responses.  Theorems only. *)
From Coq Require Import String List Reals.
From Verif Require Import Base Pyf PyfOps FbModel LsqfbModel LsqfbSpec LsqfbEx GainSpec GainProof4 GainEx.
Import ListNotations.
Open Scope string_scope.
Open Scope list_scope.
Open Scope R_scope.

(** C131, command go: if the energies of each event and each station are multiplied by positive
    factors lam and mu, then g0, b, the error and the number of stations of the band are the same,
    the source terms are multiplied by lam times the geometric mean of mu, and the site responses
    by mu divided by this mean; or both bands are skipped. *)
Theorem C131_go : forall lam mu m o st dof,
  aligned st -> numeric st -> least_squares_dof (l_wls o) dof -> good_weights o st ->
  l_coda_norm o = false -> positive_greens o st ->
  positive_on (map fst (pairs st)) lam -> positive_on (map snd (pairs st)) mu ->
  l_fix_sites o = None -> 0 < l_R0 o -> mean_site st mu m -> one_network st ->
  l_fix o = false -> two_times st ->
  forall lo hi, l_g0_bounds o = Some (lo, hi) -> 0 < lo ->
  forall v0 y y' s s', invert_band o st v0 = Ok (y, s) -> invert_band o (gained lam mu st) v0 = Ok (y', s') ->
  both (scaled_result st (fun e => lam e * m) (fun s => mu s / m)) y y'.
Proof. exact gained_go. Qed.
Print Assumptions C131_go.

Example C131_go_ex : aligned st_ex /\ numeric st_ex /\ least_squares_dof (l_wls (two_ex false)) dof_one /\
  good_weights (two_ex false) st_ex /\ positive_greens (two_ex false) st_ex /\
  positive_on (map fst (pairs st_ex)) lam_ex /\ positive_on (map snd (pairs st_ex)) mu_ex /\
  mean_site st_ex mu_ex 4 /\ one_network st_ex /\ two_times st_ex /\ l_g0_bounds (two_ex false) = Some (1 / 1000, 1) /\
  (exists r s, invert_band (two_ex false) st_ex 3 = Ok (Some r, s)) /\
  (exists y s, invert_band (two_ex false) (gained lam_ex mu_ex st_ex) 3 = Ok (y, s)).
Proof. exact go_gained_hyps. Qed.

(** C131, command fixed. *)
Theorem C131_fixed : forall lam mu m o st dof,
  aligned st -> numeric st -> least_squares_dof (l_wls o) dof -> good_weights o st ->
  l_coda_norm o = false -> positive_greens o st ->
  positive_on (map fst (pairs st)) lam -> positive_on (map snd (pairs st)) mu ->
  l_fix_sites o = None -> 0 < l_R0 o -> mean_site st mu m -> one_network st ->
  forall g b v0 y y' s s', l_fix o = true -> l_fix_params o = Some (Some (FNum g), Some (FNum b)) -> 0 < g ->
  invert_band o st v0 = Ok (y, s) -> invert_band o (gained lam mu st) v0 = Ok (y', s') ->
  both (scaled_result st (fun e => lam e * m) (fun s => mu s / m)) y y'.
Proof. exact gained_fixed. Qed.
Print Assumptions C131_fixed.

Example C131_fixed_ex : numeric st_ex /\ least_squares_dof (l_wls (two_ex true)) dof_one /\
  good_weights (two_ex true) st_ex /\ positive_greens (two_ex true) st_ex /\ mean_site st_ex mu_ex 4 /\ one_network st_ex /\
  l_fix_params (two_ex true) = Some (Some (FNum (1 / 5)), Some (FNum bt_ex)) /\
  (exists r s, invert_band (two_ex true) st_ex 3 = Ok (Some r, s)) /\
  (exists y s, invert_band (two_ex true) (gained lam_ex mu_ex st_ex) 3 = Ok (y, s)).
Proof. exact fixed_gained_hyps. Qed.

(** C131, command source: with given site responses the source terms are multiplied by the
    factors of the events. *)
Theorem C131_source : forall lam o st dof,
  aligned st -> numeric st -> least_squares_dof (l_wls o) dof -> good_weights o st ->
  l_coda_norm o = false -> positive_greens o st -> positive_on (map fst (pairs st)) lam ->
  forall params, l_fix_sites o = Some params -> l_fix o = true ->
  (forall x, In x (map snd (pairs st)) -> exists v, 0 < v /\ dget String.eqb params x = Some (FNum v)) ->
  forall g b v0 y y' s s', l_fix_params o = Some (Some (FNum g), Some (FNum b)) -> 0 < g ->
  invert_band o st v0 = Ok (y, s) -> invert_band o (gained lam (fun _ => 1) st) v0 = Ok (y', s') ->
  both (scaled_sources st lam) y y'.
Proof. exact gained_source. Qed.
Print Assumptions C131_source.

Example C131_source_ex : numeric st_ex /\ least_squares_dof (l_wls sites_ex) dof_one /\
  good_weights sites_ex st_ex /\ positive_greens sites_ex st_ex /\ l_fix_sites sites_ex = Some params_ex /\
  (forall x, In x (map snd (pairs st_ex)) -> exists v, 0 < v /\ dget String.eqb params_ex x = Some (FNum v)) /\
  (exists r s, invert_band sites_ex st_ex 3 = Ok (Some r, s)) /\
  (exists y s, invert_band sites_ex (gained lam_ex (fun _ => 1) st_ex) 3 = Ok (y, s)).
Proof. exact source_gained_hyps. Qed.
