(** Property C136: energies with errors.  Theorems only. *)
From Coq Require Import String List Reals.
From Verif Require Import Base Pyf PyfOps FbModel LsqfbModel LsqfbSpec LsqfbEx ShuffleSpec ShuffleEx NoiseSpec NoiseProof6 NoiseEx.
Import ListNotations.
Open Scope string_scope.
Open Scope list_scope.
Open Scope R_scope.

(** C136, command go: if every energy is W R G exp(-b t), with the Green's functions of the g0 that is
    returned, up to a factor between exp(-eps) and exp(eps), then the absorption that is returned is
    b up to 2 d / D with d = eps sqrt(total weight), where D is a time between two samples of a coda window;
    the source terms and the site responses are W and R up to factors that depend on d, D, the last
    time T and the number n of common events needed to connect two stations; and the error is at
    most eps sqrt(total weight / degrees of freedom). *)
Theorem C136_go : forall eps n o st dof site source bt D T, 0 <= eps -> aligned st ->
  least_squares_full (l_wls o) dof -> good_weights o st -> l_coda_norm o = false ->
  positive_on (map snd (pairs st)) site -> positive_on (map fst (pairs st)) source ->
  l_fix_sites o = None -> 0 < l_R0 o -> mean_site st site (l_R0 o) -> network_within n st ->
  0 < D -> coda_span st D T ->
  forall v0 r s g, l_fix o = false -> invert_band o st v0 = Ok (Some r, s) -> fb_g0 r = Some g ->
  noisy_band eps o st g site source bt ->
  let d := eps * sqrt (total_weight o st) in
  let k := dof (List.length (samples st)) (unknowns o st) in
  (exists b, fb_b r = Some (FNum b) /\ Rabs (b - bt) <= 2 * d / D) /\
  (exists W, fb_W r = Some W /\ near_table ((2 * INR n + 1) * (d * (1 + 2 * T / D))) (map fst (pairs st)) source W) /\
  (exists Rs, fb_R r = Some Rs /\ near_table (2 * INR n * (d * (1 + 2 * T / D))) (map snd (pairs st)) site Rs) /\
  (positive_bounds (l_b_bounds o) -> positive_bounds (l_g0_bounds o) -> 0 < k ->
   exists x, fb_error r = FNum x /\ 0 <= x <= eps * sqrt (total_weight o st / k)).
Proof. exact go_errors. Qed.
Print Assumptions C136_go.

Example C136_go_ex : 0 <= 1 / 10 /\ aligned st_ex /\ least_squares_full (l_wls (shuf_ex false)) dof_1 /\
  good_weights (shuf_ex false) st_ex /\ positive_on (map snd (pairs st_ex)) site_ex /\
  positive_on (map fst (pairs st_ex)) source_n /\ mean_site st_ex site_ex (l_R0 (shuf_ex false)) /\
  network_within 1 st_ex /\ coda_span st_ex 1 2 /\ total_weight (shuf_ex false) st_ex = 15 /\
  (forall g, noisy_band (1 / 10) (shuf_ex false) st_ex g site_ex source_n bt_ex) /\
  (forall g, ~ synthetic_band (shuf_ex false) st_ex g site_ex source_n bt_ex) /\
  exists r s g, invert_band (shuf_ex false) st_ex 3 = Ok (Some r, s) /\ fb_g0 r = Some g.
Proof. exact noise_go. Qed.

(** C136, command fixed: with given transport parameters the source terms are W up to the factor
    exp((2 n + 1) d) and the site responses are R up to exp(2 n d), whatever the times of the samples. *)
Theorem C136_fixed : forall eps n o st dof site source bt, 0 <= eps -> aligned st ->
  least_squares_full (l_wls o) dof -> good_weights o st -> l_coda_norm o = false ->
  positive_on (map snd (pairs st)) site -> positive_on (map fst (pairs st)) source ->
  l_fix_sites o = None -> 0 < l_R0 o -> mean_site st site (l_R0 o) -> network_within n st ->
  forall v0 r s g, l_fix o = true -> l_fix_params o = Some (Some g, Some (FNum bt)) ->
  noisy_band eps o st g site source bt -> invert_band o st v0 = Ok (Some r, s) ->
  let d := eps * sqrt (total_weight o st) in
  let k := dof (List.length (samples st)) (unknowns o st) in
  (exists W, fb_W r = Some W /\ near_table ((2 * INR n + 1) * d) (map fst (pairs st)) source W) /\
  (exists Rs, fb_R r = Some Rs /\ near_table (2 * INR n * d) (map snd (pairs st)) site Rs) /\
  (0 < k -> exists x, fb_error r = FNum x /\ 0 <= x <= eps * sqrt (total_weight o st / k)).
Proof. exact fixed_errors. Qed.
Print Assumptions C136_fixed.

Example C136_fixed_ex : least_squares_full (l_wls (shuf_ex true)) dof_1 /\ good_weights (shuf_ex true) st_ex /\
  l_fix_params (shuf_ex true) = Some (Some (FNum (1 / 5)), Some (FNum bt_ex)) /\
  noisy_band (1 / 10) (shuf_ex true) st_ex (FNum (1 / 5)) site_ex source_n bt_ex /\
  total_weight (shuf_ex true) st_ex = 15 /\ dof_1 (List.length (samples st_ex)) (unknowns (shuf_ex true) st_ex) = 1 /\
  exists r s, invert_band (shuf_ex true) st_ex 3 = Ok (Some r, s).
Proof. exact noise_fixed. Qed.

(** C136, command source: with given site responses the source terms are W up to the factor exp(d),
    however the stations are connected. *)
Theorem C136_source : forall eps o st dof site source bt params, 0 <= eps -> aligned st ->
  least_squares_full (l_wls o) dof -> good_weights o st -> l_coda_norm o = false ->
  positive_on (map snd (pairs st)) site -> positive_on (map fst (pairs st)) source ->
  l_fix_sites o = Some params -> l_fix o = true ->
  (forall x, In x (map snd (pairs st)) -> dget String.eqb params x = Some (FNum (site x))) ->
  forall v0 r s g, l_fix_params o = Some (Some g, Some (FNum bt)) ->
  noisy_band eps o st g site source bt -> invert_band o st v0 = Ok (Some r, s) ->
  let k := dof (List.length (samples st)) (distinct (map fst (pairs st))) in
  (exists W, fb_W r = Some W /\ near_table (eps * sqrt (total_weight o st)) (map fst (pairs st)) source W) /\
  (0 < k -> exists x, fb_error r = FNum x /\ 0 <= x <= eps * sqrt (total_weight o st / k)).
Proof. exact source_errors. Qed.
Print Assumptions C136_source.

Example C136_source_ex : least_squares_full (l_wls shuf_sites) dof_1 /\ good_weights shuf_sites st_ex /\
  l_fix_sites shuf_sites = Some params_ex /\
  (forall x, In x (map snd (pairs st_ex)) -> dget String.eqb params_ex x = Some (FNum (site_ex x))) /\
  l_fix_params shuf_sites = Some (Some (FNum (1 / 5)), Some (FNum bt_ex)) /\
  noisy_band (1 / 10) shuf_sites st_ex (FNum (1 / 5)) site_ex source_n bt_ex /\
  exists r s, invert_band shuf_sites st_ex 3 = Ok (Some r, s).
Proof. exact noise_source. Qed.
