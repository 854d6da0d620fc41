(** Proofs for LineProps.v: the plot. *)
From Coq Require Import String List Reals Lra Lia Arith.
From Verif Require Import Base DepModel DepProof GridProof SourceModel SourceProof LineModel LineSpec LineProof.
Import ListNotations.
Open Scope R_scope.

Lemma least_spec : forall l v, (least v l = v \/ In (least v l) l) /\ least v l <= v /\ forall u, In u l -> least v l <= u.
Proof.
  induction l as [| u l IH]; intros v; [cbn; repeat split; [left; reflexivity | lra | intros ? []] |].
  change (least v (u :: l)) with (least (Rmin v u) l). destruct (IH (Rmin v u)) as [A [B C]].
  assert (Rmin v u <= v) by apply Rmin_l. assert (Rmin v u <= u) by apply Rmin_r. split; [| split].
  - destruct A as [A | A]; [| right; right; assumption]. rewrite A. unfold Rmin. destruct (Rle_dec v u); [left | right; left]; reflexivity.
  - lra.
  - intros t [-> | I]; [lra | apply C; assumption].
Qed.

Lemma largest_spec : forall l v, (largest v l = v \/ In (largest v l) l) /\ v <= largest v l /\ forall u, In u l -> u <= largest v l.
Proof.
  induction l as [| u l IH]; intros v; [cbn; repeat split; [left; reflexivity | lra | intros ? []] |].
  change (largest v (u :: l)) with (largest (Rmax v u) l). destruct (IH (Rmax v u)) as [A [B C]].
  assert (v <= Rmax v u) by apply Rmax_l. assert (u <= Rmax v u) by apply Rmax_r. split; [| split].
  - destruct A as [A | A]; [| right; right; assumption]. rewrite A. unfold Rmax. destruct (Rle_dec v u); [right; left | left]; reflexivity.
  - lra.
  - intros t [-> | I]; [lra | apply C; assumption].
Qed.

Lemma linspace_nth : forall lo hi n k m, nth_error (linspace lo hi n) k = Some m ->
  m = lo + INR k * ((hi - lo) / INR (n - 1)).
Proof.
  intros lo hi n k m H. unfold linspace in H.
  destruct (nth_error (seq 0 n) k) as [j |] eqn:J; [| rewrite nth_error_map, J in H; discriminate].
  rewrite (map_nth_error _ _ _ J) in H. assert (k < n)%nat.
  { rewrite <- (seq_length n 0). apply nth_error_Some. congruence. }
  rewrite nth_error_seq in J by assumption. assert (j = k) by (injection J; lia). subst. congruence.
Qed.

Lemma linspace_get : forall lo hi n k, (k < n)%nat -> nth_error (linspace lo hi n) k = Some (lo + INR k * ((hi - lo) / INR (n - 1))).
Proof.
  intros lo hi n k H. unfold linspace. rewrite nth_error_map, nth_error_seq by assumption. reflexivity.
Qed.

Lemma line_drawn : forall lo hi a b n, (0 < n)%nat ->
  drawn n (map (fun v => (v, a * v + b)) (linspace lo hi (S n))) lo hi a b.
Proof.
  intros lo hi a b n N. assert (P : 0 < INR n) by (apply lt_0_INR; assumption).
  replace (S n - 1)%nat with n in * by lia. split; [| split; [| split; [| split]]].
  - unfold linspace. rewrite !map_length, seq_length. reflexivity.
  - eexists. rewrite nth_error_map, linspace_get by lia. cbn [option_map]. f_equal. f_equal. cbn [INR]. ring.
  - eexists. rewrite nth_error_map, linspace_get by lia. cbn [option_map]. f_equal. f_equal.
    replace (S n - 1)%nat with n by lia. field. lra.
  - intros k m y m' y' A B. rewrite nth_error_map in A, B.
    destruct (nth_error (linspace lo hi (S n)) k) as [v |] eqn:E; [| discriminate].
    destruct (nth_error (linspace lo hi (S n)) (S k)) as [v' |] eqn:E'; [| discriminate].
    cbn [option_map] in A, B. apply linspace_nth in E, E'.
    assert (V : v = m) by congruence. assert (V' : v' = m') by congruence. rewrite <- V, <- V', E, E'.
    replace (S n - 1)%nat with n by lia. rewrite S_INR. lra.
  - intros m y I. apply in_map_iff in I. destruct I as [v [E _]]. assert (v = m) by congruence. subst v. congruence.
Qed.

Lemma plotted_iff : forall fit events only pts l, plot_mags fit events only = Some (pts, l) ->
  (forall c w, In (c, w) pts <-> plotted events only c w) /\ pts <> [].
Proof. intros fit events only pts l H. apply mags_points in H. split; apply H. Qed.

Lemma mags_none : forall fit events only, plot_mags fit events only = None <-> forall c w, ~ plotted events only c w.
Proof.
  intros fit events only. split.
  - intros H c w [e [I [C [W S]]]]. unfold plot_mags in H. cbv zeta in H.
    match type of H with match ?t with _ => _ end = _ => assert (E : t = []) by (destruct t; [reflexivity | discriminate]) end.
    assert (J : In (c, w) []).
    { rewrite <- E. apply in_flat_map. exists e. split; [assumption |]. rewrite C, W. destruct only as [l |].
      - assert (B : inb String.eqb (m_id e) l = true) by (apply (inb_In String.eqb string_eqb_spec); apply S; reflexivity).
        rewrite B. left; reflexivity.
      - left; reflexivity. }
    contradiction.
  - intros N. destruct (plot_mags fit events only) as [[pts l] |] eqn:E; [| reflexivity].
    destruct (plotted_iff _ _ _ _ _ E) as [A B]. destruct pts as [| [c w] pts]; [congruence |].
    exfalso. apply (N c w). apply A. left; reflexivity.
Qed.

Lemma line_none : forall fit events only xlim,
  plot_line fit events only xlim = Ok None <-> forall c w, ~ plotted events only c w.
Proof.
  intros fit events only xlim. rewrite <- (mags_none (fun _ _ => (0, 0))). unfold plot_line.
  destruct (plot_mags (fun _ _ => (0, 0)) events only) as [[pts l] |]; [| split; reflexivity].
  split; [| discriminate]. intros H. exfalso.
  destruct (match xlim with Some l => Ok l | None => _ end) as [[lo hi] | e]; [| discriminate].
  cbv zeta in H. destruct (Nat.ltb 3 _); [| discriminate].
  destruct (linear_fit _ _ _ _ _ _) as [[a b] |]; discriminate.
Qed.

Lemma fst_in : forall (pts : list (R * R)) c, In c (map fst pts) -> exists w, In (c, w) pts.
Proof. intros pts c H. apply in_map_iff in H. destruct H as [[c' w] [E I]]. cbn in E. subst. eauto. Qed.

Lemma limits : forall events only xlim pts l, plot_mags (fun _ _ => (0, 0)) events only = Some (pts, l) ->
  exists lo hi, (match xlim with
                  | Some l => Ok l
                  | None => match map fst pts with [] => Err ValueError | v :: l => Ok (least v l, largest v l) end
                  end) = Ok (lo, hi) /\ ends_of events only xlim lo hi.
Proof.
  intros events only xlim pts l H. destruct (plotted_iff _ _ _ _ _ H) as [A B].
  destruct xlim as [[lo hi] |]; [exists lo, hi; split; reflexivity |].
  destruct pts as [| [c0 w0] pts]; [congruence |]. cbn [map fst].
  exists (least c0 (map fst pts)), (largest c0 (map fst pts)). split; [reflexivity |].
  destruct (least_spec (map fst pts) c0) as [L1 [L2 L3]]. destruct (largest_spec (map fst pts) c0) as [M1 [M2 M3]].
  assert (P : forall c, c = c0 \/ In c (map fst pts) -> exists w, plotted events only c w).
  { intros c [-> | I].
    - exists w0. apply A. left; reflexivity.
    - destruct (fst_in _ _ I) as [w J]. exists w. apply A. right. assumption. }
  cbn. split; [apply P; assumption | split; [apply P; assumption |]].
  intros c w Q. apply A in Q. destruct Q as [Q | Q].
  - assert (c = c0) by congruence. subst. split; assumption.
  - assert (In c (map fst pts)) by (apply (in_map fst) in Q; exact Q). split; [apply L3 | apply M3]; assumption.
Qed.

Lemma line_shown : forall fit events only xlim fig, plot_line fit events only xlim = Ok (Some fig) ->
  (forall c w, In (c, w) (mf_points fig) <-> plotted events only c w) /\ mf_xlim fig = xlim /\
  (mf_line fig <> None <-> (3 < length (mf_points fig))%nat) /\
  (forall l, mf_line fig = Some l -> exists lo hi a b, ends_of events only xlim lo hi /\
     linear_fit fit (map snd (mf_points fig)) (map fst (mf_points fig)) None "robust" None = Ok (a, b) /\
     drawn 99 l lo hi a b).
Proof.
  intros fit events only xlim fig H. unfold plot_line in H.
  destruct (plot_mags (fun _ _ => (0, 0)) events only) as [[pts l0] |] eqn:E; [| discriminate].
  destruct (plotted_iff _ _ _ _ _ E) as [A B].
  destruct (limits events only xlim pts l0 E) as [lo [hi [L Q]]]. cbv zeta in H. rewrite L in H.
  rewrite map_length in H. destruct (Nat.ltb_spec 3 (length pts)) as [T | T].
  - destruct (linear_fit fit _ _ _ _ _) as [[a b] |] eqn:F; [| discriminate].
    match type of H with Ok (Some ?f) = _ => assert (G : fig = f) by congruence end. subst fig. cbn [mf_points mf_line mf_xlim].
    split; [assumption |]. split; [reflexivity |]. split; [split; [intros; assumption | discriminate] |].
    intros l S. exists lo, hi, a, b. split; [assumption |]. split; [assumption |].
    match type of S with Some ?t = _ => assert (l = t) by congruence end. subst l. apply line_drawn. lia.
  - match type of H with Ok (Some ?f) = _ => assert (G : fig = f) by congruence end. subst fig. cbn [mf_points mf_line mf_xlim].
    split; [assumption |]. split; [reflexivity |]. split; [split; [congruence | intros; lia] |]. discriminate.
Qed.

Lemma data_pairs : forall pts : list (R * R), data_of (map snd pts) (map fst pts) None (map (fun q => (snd q, fst q, 1)) pts).
Proof. induction pts as [| [c w] pts IH]; cbn; constructor. assumption. Qed.

Lemma line_true : forall fit, fits_exact_data fit -> forall events only xlim A B,
  (forall c w, plotted events only c w -> w = A * c + B) ->
  (exists c1 w1 c2 w2, plotted events only c1 w1 /\ plotted events only c2 w2 /\ c1 <> c2) ->
  exists fig, plot_line fit events only xlim = Ok (Some fig) /\
    (forall l m y, mf_line fig = Some l -> In (m, y) l -> y = A * m + B).
Proof.
  intros fit F events only xlim A B O [c1 [w1 [c2 [w2 [P1 [P2 N]]]]]].
  destruct (plot_mags (fun _ _ => (0, 0)) events only) as [[pts l0] |] eqn:E.
  2:{ exfalso. apply (proj1 (mags_none _ _ _) E c1 w1). assumption. }
  destruct (plotted_iff _ _ _ _ _ E) as [I NE].
  assert (L : linear_fit fit (map snd pts) (map fst pts) None "robust" None = Ok (A, B)).
  { apply fit_robust_line with (d := map (fun q => (snd q, fst q, 1)) pts); try assumption.
    - apply data_pairs.
    - exists w1, c1, 1, w2, c2, 1. split; [| split; [| assumption]]; apply in_map_iff.
      + exists (c1, w1). split; [reflexivity |]. apply I; assumption.
      + exists (c2, w2). split; [reflexivity |]. apply I; assumption.
    - eapply data_none_weights; [apply data_pairs | reflexivity].
    - intros y x s J. apply in_map_iff in J. destruct J as [[c w] [Q J]]. cbn in Q.
      assert (y = w) by congruence. assert (x = c) by congruence. subst. apply O, I. assumption. }
  destruct (limits events only xlim pts l0 E) as [lo [hi [M _]]].
  assert (R : exists fig, plot_line fit events only xlim = Ok (Some fig)).
  { unfold plot_line. rewrite E. cbv zeta. rewrite M, L. destruct (Nat.ltb 3 _); eexists; reflexivity. }
  destruct R as [fig R]. exists fig. split; [assumption |]. intros l m y S J.
  destruct (line_shown _ _ _ _ _ R) as [_ [_ [_ D]]]. destruct (D l S) as [lo' [hi' [a [b [_ [Q W]]]]]].
  assert (PE : mf_points fig = pts).
  { unfold plot_line in R. rewrite E in R. cbv zeta in R. rewrite M, L in R.
    destruct (Nat.ltb 3 _); match type of R with Ok (Some ?f) = _ => assert (G : fig = f) by congruence end; subst fig; reflexivity. }
  rewrite PE in Q. assert (a = A) by congruence. assert (b = B) by congruence. subst.
  destruct W as [_ [_ [_ [_ W]]]]. apply W. assumption.
Qed.

Lemma axis_ok : forall inverse there back, secondary_axis inverse = (there, back) ->
  (forall v, (inverse = true -> 0 < v) -> back (there v) = v) /\
  (forall v, (inverse = false -> 0 < v) -> there (back v) = v) /\
  (forall u v, (inverse = true -> 0 < u) -> u < v -> there u < there v).
Proof.
  intros [] there back H; unfold secondary_axis in H; cbv zeta in H.
  - assert (there = moment_magnitude) as -> by congruence. assert (back = moment_magnitude_inverse) as -> by congruence.
    split; [| split].
    + intros v P. apply mm_inverse. apply P. reflexivity.
    + intros v _. apply mm_inverse'.
    + intros u v P L. apply mm_increasing; [apply P; reflexivity | assumption].
  - assert (there = moment_magnitude_inverse) as -> by congruence. assert (back = moment_magnitude) as -> by congruence.
    split; [| split].
    + intros v _. apply mm_inverse'.
    + intros v P. apply mm_inverse. apply P. reflexivity.
    + intros u v _ L. unfold moment_magnitude_inverse. apply Rpower_lt; lra.
Qed.

(** The values themselves: magnitude 0 and the moment of magnitude 2 *)
Lemma axis_values : forall Mw, fst (secondary_axis false) Mw = Rpower 10 (15 / 10 * Mw + 9105 / 1000) /\
  snd (secondary_axis true) Mw = Rpower 10 (15 / 10 * Mw + 9105 / 1000).
Proof. intros. split; cbn; unfold moment_magnitude_inverse; f_equal; lra. Qed.
