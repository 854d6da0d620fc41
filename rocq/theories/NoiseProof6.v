(** C136: the statements without further hypotheses. *)
From Coq Require Import String List Bool Reals Lra Lia ZArith Arith.
From Verif Require Import Base Pyf PyfOps FbModel LsqfbModel LsqfbSpec LsqfbProof ShuffleSpec NoiseSpec NoiseProof NoiseProof2 NoiseProof3 NoiseProof4 NoiseProof5.
Import ListNotations.
Open Scope list_scope.
Open Scope R_scope.

Lemma csamples_in st x : In x (csamples st) -> In x (samples st).
Proof. intros I. rewrite samples_split. apply in_or_app. now left. Qed.

Lemma span_two st D T : aligned st -> 0 < D -> coda_span st D T -> two_times st.
Proof.
  intros AL DP [(t & t1 & t2 & I & I1 & I2 & E) _]. destruct (coda_pair st AL t I) as (p & P).
  destruct (P t1 I1) as (e1 & S1). destruct (P t2 I2) as (e2 & S2). exists p, t1, t2, e1, e2.
  split; [lra|]. split; now apply csamples_in.
Qed.

Lemma fixed_errors : forall eps n o st dof site source bt, 0 <= eps -> aligned st ->
  least_squares_full (l_wls o) dof -> good_weights o st -> l_coda_norm o = false ->
  positive_on (map snd (pairs st)) site -> positive_on (map fst (pairs st)) source ->
  l_fix_sites o = None -> 0 < l_R0 o -> mean_site st site (l_R0 o) -> network_within n st ->
  forall v0 r s g, l_fix o = true -> l_fix_params o = Some (Some g, Some (FNum bt)) ->
  noisy_band eps o st g site source bt -> invert_band o st v0 = Ok (Some r, s) ->
  let d := eps * sqrt (total_weight o st) in
  let k := dof (List.length (samples st)) (unknowns o st) in
  (exists W, fb_W r = Some W /\ near_table ((2 * INR n + 1) * d) (map fst (pairs st)) source W) /\
  (exists Rs, fb_R r = Some Rs /\ near_table (2 * INR n * d) (map snd (pairs st)) site Rs) /\
  (0 < k -> exists x, fb_error r = FNum x /\ 0 <= x <= eps * sqrt (total_weight o st / k)).
Proof.
  intros eps n o st dof site source bt E0 AL LS WP CN P1 P2 FS R0 MS NW v0 r s g FX FP NB H.
  apply (near_fixed eps n o st dof site source bt E0 AL LS WP CN P1 P2 FS R0 MS NW) with (v0 := v0) (s := s) (g := g);
    try assumption. congruence.
Qed.

Lemma go_errors : forall eps n o st dof site source bt D T, 0 <= eps -> aligned st ->
  least_squares_full (l_wls o) dof -> good_weights o st -> l_coda_norm o = false ->
  positive_on (map snd (pairs st)) site -> positive_on (map fst (pairs st)) source ->
  l_fix_sites o = None -> 0 < l_R0 o -> mean_site st site (l_R0 o) -> network_within n st ->
  0 < D -> coda_span st D T ->
  forall v0 r s g, l_fix o = false -> invert_band o st v0 = Ok (Some r, s) -> fb_g0 r = Some g ->
  noisy_band eps o st g site source bt ->
  let d := eps * sqrt (total_weight o st) in
  let k := dof (List.length (samples st)) (unknowns o st) in
  (exists b, fb_b r = Some (FNum b) /\ Rabs (b - bt) <= 2 * d / D) /\
  (exists W, fb_W r = Some W /\ near_table ((2 * INR n + 1) * (d * (1 + 2 * T / D))) (map fst (pairs st)) source W) /\
  (exists Rs, fb_R r = Some Rs /\ near_table (2 * INR n * (d * (1 + 2 * T / D))) (map snd (pairs st)) site Rs) /\
  (positive_bounds (l_b_bounds o) -> positive_bounds (l_g0_bounds o) -> 0 < k ->
   exists x, fb_error r = FNum x /\ 0 <= x <= eps * sqrt (total_weight o st / k)).
Proof.
  intros eps n o st dof site source bt D T E0 AL LS WP CN P1 P2 FS R0 MS NW DP CS v0 r s g FX H G NB.
  exact (near_go eps n o st dof site source bt E0 AL LS WP CN P1 P2 FS R0 MS NW (fun _ => span_two st D T AL DP CS) D T v0 r s g FX DP CS H G NB).
Qed.

Lemma source_errors : forall eps o st dof site source bt params, 0 <= eps -> aligned st ->
  least_squares_full (l_wls o) dof -> good_weights o st -> l_coda_norm o = false ->
  positive_on (map snd (pairs st)) site -> positive_on (map fst (pairs st)) source ->
  l_fix_sites o = Some params -> l_fix o = true ->
  (forall x, In x (map snd (pairs st)) -> dget String.eqb params x = Some (FNum (site x))) ->
  forall v0 r s g, l_fix_params o = Some (Some g, Some (FNum bt)) ->
  noisy_band eps o st g site source bt -> invert_band o st v0 = Ok (Some r, s) ->
  let k := dof (List.length (samples st)) (distinct (map fst (pairs st))) in
  (exists W, fb_W r = Some W /\ near_table (eps * sqrt (total_weight o st)) (map fst (pairs st)) source W) /\
  (0 < k -> exists x, fb_error r = FNum x /\ 0 <= x <= eps * sqrt (total_weight o st / k)).
Proof.
  intros eps o st dof site source bt params E0 AL LS WP CN P1 P2 FS FX PA v0 r s g FP NB H.
  exact (near_source eps o st dof site source bt params E0 AL LS WP CN P1 P2 FS FX PA v0 r s g FP NB H).
Qed.

(** synthetic energies are energies with errors for other source terms *)
Lemma synthetic_noisy eps o st g site source source' bt : (forall s, 0 < site s) ->
  (forall e, up_to eps (source e) (source' e)) -> synthetic_band o st g site source bt -> noisy_band eps o st g site source' bt.
Proof.
  intros SP UP [A B].
  assert (K : forall x y, synthetic site source bt x y -> noisy eps site source' bt x y).
  { intros x y (t & e & v & E1 & E2 & E3 & E4). exists t, e, v. split; [exact E1|]. split; [exact E2|]. split; [exact E3|].
    subst e. specialize (UP (fst (fst x))). specialize (SP (snd (fst x))). unfold up_to in *.
    assert (0 < site (snd (fst x)) * v * exp (- (bt * t))) by (repeat apply Rmult_lt_0_compat; [exact SP|exact E3|apply exp_pos]).
    set (c := site (snd (fst x)) * v * exp (- (bt * t))) in *.
    replace (source (fst (fst x)) * site (snd (fst x)) * v * exp (- (bt * t))) with (source (fst (fst x)) * c) by (unfold c; ring).
    replace (source' (fst (fst x)) * site (snd (fst x)) * v * exp (- (bt * t))) with (source' (fst (fst x)) * c) by (unfold c; ring).
    split; rewrite <- Rmult_assoc; apply Rmult_le_compat_r; lra. }
  split.
  - intros i p r t e gs H1 H2 H3 H4 H5. specialize (A i p r t e gs H1 H2 H3 H4 H5).
    clear - A K. induction A as [|x y l l' X Y IH]; constructor; [now apply K|exact IH].
  - intros i p r w t e gg H1 H2 H3 H4 H5 H6. apply K. exact (B i p r w t e gg H1 H2 H3 H4 H5 H6).
Qed.
