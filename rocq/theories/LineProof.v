(** Proofs for LineProps.v. *)
From Coq Require Import String List Reals Lra Lia Arith.
From Verif Require Import Base DepModel DepProof SourceModel SourceProof LineModel LineSpec.
Import ListNotations.
Open Scope R_scope.

Lemma data_lengths : forall y x w d, data_of y x w d ->
  length x = length y /\ length d = length y /\ (forall l, w = Some l -> length l = length y).
Proof.
  induction 1; cbn; (split; [| split]); try lia; intros; try discriminate.
  - assert (l = []) by congruence. subst. reflexivity.
  - assert (l = s :: w) by congruence. subst. destruct IHdata_of as [_ [_ I]]. cbn. rewrite (I w eq_refl). reflexivity.
Qed.

Lemma distance_line : forall y x w d a b, data_of y x w d ->
  distance y (map (fun v => [v; 1]) x) w [a; b] = misfit d a b.
Proof.
  induction 1; cbn [distance misfit map]; try reflexivity; rewrite IHdata_of; cbn [dot]; ring.
Qed.

Lemma distance_level : forall y x w d m b, data_of y x w d ->
  distance (map (fun q => fst q - m * snd q) (combine y x)) (repeat [1] (length y)) w [b] = misfit d m b.
Proof.
  induction 1; cbn [distance misfit map combine repeat length]; try reflexivity; rewrite IHdata_of; cbn [dot fst snd]; ring.
Qed.

Lemma data_weights : forall y x w d, data_of y x w d -> positive_weights d ->
  forall l, w = Some l -> length l = length y /\ forall s, In s l -> 0 < s.
Proof.
  intros y x w d D P l E. split; [exact (proj2 (proj2 (data_lengths _ _ _ _ D)) l E) |]. revert l E.
  induction D; intros l E; try discriminate.
  - assert (l = []) by congruence. subst. intros ? [].
  - assert (l = s :: w) by congruence. subst. intros t [-> | I].
    + eapply P. left; reflexivity.
    + eapply IHD; [intros ? ? ? J; eapply P; right; exact J | reflexivity | assumption].
Qed.

Lemma regular_line : forall y x w d, data_of y x w d -> positive_weights d -> d <> [] ->
  regular 2 y (map (fun v => [v; 1]) x) w.
Proof.
  intros y x w d D P N. destruct (data_lengths _ _ _ _ D) as [A [B C]]. split; [| split].
  - intros ->. destruct d; [congruence | discriminate].
  - rewrite <- A. constructor.
  - exact (data_weights _ _ _ _ D P).
Qed.

Lemma regular_level : forall y x w d m, data_of y x w d -> positive_weights d -> d <> [] ->
  regular 1 (map (fun q => fst q - m * snd q) (combine y x)) (repeat [1] (length y)) w.
Proof.
  intros y x w d m D P N. destruct (data_lengths _ _ _ _ D) as [A [B C]].
  assert (L : length (map (fun q => fst q - m * snd q) (combine y x)) = length y).
  { rewrite map_length, combine_length, A. apply Nat.min_id. }
  split; [| split].
  - intros E. rewrite E in L. destruct d; [congruence | cbn in *; lia].
  - rewrite L. constructor.
  - rewrite L. exact (data_weights _ _ _ _ D P).
Qed.

Lemma column_ok : forall n x, length x = n -> column n x = Ok x.
Proof. intros n x H. unfold column. rewrite H, Nat.eqb_refl. reflexivity. Qed.

(** The regression of a method that is not robust *)
Lemma regression_squares : forall method (w : option (list R)), method <> "robust"%string -> (w <> None -> method = "weighted"%string) ->
  (regression_of method = OLS /\ w = None \/ regression_of method = WLS).
Proof.
  intros method w N W. unfold regression_of. destruct (String.eqb_spec method "robust"); [congruence |].
  destruct (String.eqb_spec method "weighted"); [right; reflexivity |]. left. split; [reflexivity |].
  destruct w; [| reflexivity]. exfalso. apply n0. apply W. discriminate.
Qed.

Section Fit.
  Variable fit : fitter.

  Lemma fit_closest : fits_least_squares fit -> forall y x method w d, data_of y x w d -> positive_weights d -> d <> [] ->
    method <> "robust"%string -> (w <> None -> method = "weighted"%string) ->
    exists a b, linear_fit fit y x None method w = Ok (a, b) /\ forall a' b', misfit d a b <= misfit d a' b'.
  Proof.
    intros F y x method w d D P N M W. destruct (data_lengths _ _ _ _ D) as [A _].
    unfold linear_fit. cbv zeta. rewrite column_ok by assumption.
    destruct (F 2%nat _ _ _ (regression_of method) (regular_line _ _ _ _ D P N) (regression_squares _ _ M W)) as [p [E [L B]]].
    rewrite E. destruct p as [| a [| b [|]]]; try discriminate. exists a, b. split; [reflexivity |].
    intros a' b'. specialize (B [a'; b'] eq_refl). rewrite !(distance_line _ _ _ _ _ _ D) in B. assumption.
  Qed.

  Lemma fit_fixed_min : fits_least_squares fit -> forall y x m method w d, data_of y x w d -> positive_weights d -> d <> [] ->
    method <> "robust"%string -> (w <> None -> method = "weighted"%string) ->
    exists b, linear_fit fit y x (Some m) method w = Ok (m, b) /\ forall b', misfit d m b <= misfit d m b'.
  Proof.
    intros F y x m method w d D P N M W. destruct (data_lengths _ _ _ _ D) as [A _].
    unfold linear_fit, minus_line. cbv zeta. rewrite A, Nat.eqb_refl.
    rewrite map_length, combine_length, A, Nat.min_id, Nat.eqb_refl.
    destruct (F 1%nat _ _ _ (regression_of method) (regular_level _ _ _ _ m D P N) (regression_squares _ _ M W)) as [p [E [L B]]].
    rewrite E. destruct p as [| b [|]]; try discriminate. exists b. split; [reflexivity |].
    intros b'. specialize (B [b'] eq_refl). rewrite !(distance_level _ _ _ _ _ _ D) in B. assumption.
  Qed.
End Fit.

Lemma misfit_mid : forall d a b a' b', misfit d ((a + a') / 2) ((b + b') / 2) =
  (misfit d a b + misfit d a' b') / 2 - 1 / 4 * wsum (fun _ x => ((a - a') * x + (b - b')) ^ 2) d.
Proof.
  induction d as [| [[y x] w] d IH]; intros; cbn [misfit wsum]; [field |]. rewrite IH. field.
Qed.

Lemma wsum_ge0 : forall f d, positive_weights d -> (forall y x, 0 <= f y x) -> 0 <= wsum f d.
Proof.
  induction d as [| [[y x] w] d IH]; intros P F; cbn [wsum]; [lra |].
  assert (0 < w) by (eapply P; left; reflexivity).
  assert (0 <= wsum f d) by (apply IH; [intros ? ? ? I; eapply P; right; exact I | assumption]).
  assert (0 <= w * f y x) by (apply Rmult_le_pos; [lra | apply F]). lra.
Qed.

Lemma wsum_zero : forall f d, positive_weights d -> (forall y x, 0 <= f y x) -> wsum f d <= 0 ->
  forall y x w, In (y, x, w) d -> f y x = 0.
Proof.
  induction d as [| [[y x] w] d IH]; intros P F Z y' x' w' I; [contradiction |]. cbn [wsum] in Z.
  assert (Q : positive_weights d) by (intros ? ? ? J; eapply P; right; exact J).
  assert (0 < w) by (eapply P; left; reflexivity).
  assert (G := wsum_ge0 f d Q F). assert (0 <= f y x) by apply F.
  assert (0 <= w * f y x) by (apply Rmult_le_pos; lra).
  destruct I as [I | I].
  - assert (y' = y /\ x' = x) as [-> ->] by (split; congruence).
    assert (Z' : w * f y x = 0) by lra. apply Rmult_integral in Z'. destruct Z'; lra.
  - eapply IH; try eassumption. lra.
Qed.

Lemma sq_ge0 : forall u : R, 0 <= u ^ 2.
Proof. intros. rewrite <- Rsqr_pow2. apply Rle_0_sqr. Qed.

Lemma sq_zero : forall u : R, u ^ 2 = 0 -> u = 0.
Proof. intros u H. rewrite <- Rsqr_pow2 in H. apply Rsqr_0_uniq. assumption. Qed.

Lemma same_line : forall d a b a' b', positive_weights d -> two_places d ->
  wsum (fun _ x => ((a - a') * x + (b - b')) ^ 2) d <= 0 -> a' = a /\ b' = b.
Proof.
  intros d a b a' b' P [y1 [x1 [w1 [y2 [x2 [w2 [I1 [I2 N]]]]]]]] Z.
  assert (G := wsum_zero (fun _ x => ((a - a') * x + (b - b')) ^ 2) d P (fun _ _ => sq_ge0 _) Z).
  assert (A := G _ _ _ I1). assert (B := G _ _ _ I2). cbv beta in A, B. apply sq_zero in A, B.
  assert (C : (a - a') * (x1 - x2) = 0) by lra. apply Rmult_integral in C.
  destruct C as [C | C]; [| lra]. split; [lra |]. rewrite C in A. lra.
Qed.

Lemma minimum_unique : forall d a b a' b', positive_weights d -> two_places d ->
  (forall a'' b'', misfit d a b <= misfit d a'' b'') -> misfit d a' b' <= misfit d a b -> a' = a /\ b' = b.
Proof.
  intros d a b a' b' P T M L. apply (same_line d); try assumption.
  assert (Q := M ((a + a') / 2) ((b + b') / 2)). rewrite misfit_mid in Q. lra.
Qed.

Lemma misfit_on : forall d a b, on_line d a b -> misfit d a b = 0.
Proof.
  induction d as [| [[y x] w] d IH]; intros a b O; cbn [misfit]; [reflexivity |].
  rewrite IH by (intros ? ? ? I; eapply O; right; exact I).
  rewrite (O y x w) by (left; reflexivity). ring.
Qed.

Lemma misfit_wsum : forall d a b, misfit d a b = wsum (fun y x => (y - (a * x + b)) ^ 2) d.
Proof. induction d as [| [[y x] w] d IH]; intros; cbn [misfit wsum]; [reflexivity |]. rewrite IH. reflexivity. Qed.

Lemma misfit_zero : forall d a b, positive_weights d -> misfit d a b <= 0 -> on_line d a b.
Proof.
  intros d a b P Z y x w I. rewrite misfit_wsum in Z.
  assert (G := wsum_zero _ d P (fun _ _ => sq_ge0 _) Z _ _ _ I). apply sq_zero in G. lra.
Qed.

Lemma line_unique : forall d a b a' b', two_places d -> on_line d a b -> on_line d a' b' -> a' = a /\ b' = b.
Proof.
  intros d a b a' b' [y1 [x1 [w1 [y2 [x2 [w2 [I1 [I2 N]]]]]]]] O O'.
  assert (A := O _ _ _ I1). assert (B := O _ _ _ I2). assert (A' := O' _ _ _ I1). assert (B' := O' _ _ _ I2).
  assert (C : (a - a') * (x1 - x2) = 0) by lra. apply Rmult_integral in C.
  destruct C as [C | C]; [| lra]. assert (a' = a) by lra. subst. split; [reflexivity | lra].
Qed.

Lemma fixed_shift : forall d m b t, misfit d m (b + t) =
  misfit d m b - 2 * t * wsum (fun y x => y - m * x - b) d + t ^ 2 * wsum (fun _ _ => 1) d.
Proof. induction d as [| [[y x] w] d IH]; intros; cbn [misfit wsum]; [ring |]. rewrite IH. ring. Qed.

Lemma wsum_minus : forall d m b, wsum (fun y x => y - m * x - b) d = wsum (fun y x => y - m * x) d - b * wsum (fun _ _ => 1) d.
Proof. induction d as [| [[y x] w] d IH]; intros; cbn [wsum]; [ring |]. rewrite IH. ring. Qed.

Lemma weight_pos : forall d, positive_weights d -> d <> [] -> 0 < wsum (fun _ _ => 1) d.
Proof.
  intros [| [[y x] w] d] P N; [congruence |]. cbn [wsum].
  assert (0 < w) by (eapply P; left; reflexivity).
  assert (0 <= wsum (fun _ _ => 1) d) by (apply wsum_ge0; [intros ? ? ? I; eapply P; right; exact I | intros; lra]). lra.
Qed.

Lemma fixed_mean : forall d m b, positive_weights d -> d <> [] ->
  (forall b', misfit d m b <= misfit d m b') -> b = wsum (fun y x => y - m * x) d / wsum (fun _ _ => 1) d.
Proof.
  intros d m b P N M. assert (W := weight_pos d P N).
  set (S := wsum (fun y x => y - m * x - b) d). set (V := wsum (fun _ _ => 1) d) in *.
  assert (Q := M (b + S / V)). rewrite fixed_shift in Q. fold S V in Q.
  assert (E : 2 * (S / V) * S - (S / V) ^ 2 * V = S ^ 2 / V) by (field; lra).
  assert (L : S ^ 2 / V <= 0) by lra.
  assert (Z : S ^ 2 = 0).
  { assert (0 <= S ^ 2) by apply sq_ge0. assert (S ^ 2 = S ^ 2 / V * V) by (field; lra).
    assert (S ^ 2 / V * V <= 0 * V) by (apply Rmult_le_compat_r; lra). lra. }
  apply sq_zero in Z. unfold S in Z. rewrite wsum_minus in Z. fold V in Z.
  apply Rmult_eq_reg_r with V; [| lra]. unfold Rdiv. rewrite Rmult_assoc, Rinv_l by lra. lra.
Qed.

Section Fit2.
  Variable fit : fitter.

  Lemma fit_only : fits_least_squares fit -> forall y x method w d a b, data_of y x w d ->
    method <> "robust"%string -> (w <> None -> method = "weighted"%string) -> positive_weights d -> two_places d ->
    (linear_fit fit y x None method w = Ok (a, b) <-> forall a' b', misfit d a b <= misfit d a' b').
  Proof.
    intros F y x method w d a b D M W P T.
    assert (N : d <> []). { intros ->. destruct T as [? [? [? [? [? [? [[] _]]]]]]]. }
    destruct (fit_closest fit F y x method w d D P N M W) as [a0 [b0 [E B]]]. split.
    - intros E'. assert (a0 = a /\ b0 = b) as [-> ->] by (split; congruence). assumption.
    - intros L. destruct (minimum_unique d a0 b0 a b P T B (L a0 b0)) as [-> ->]. assumption.
  Qed.

  Lemma fit_fixed : fits_least_squares fit -> forall y x m method w d, data_of y x w d -> positive_weights d -> d <> [] ->
    method <> "robust"%string -> (w <> None -> method = "weighted"%string) ->
    linear_fit fit y x (Some m) method w = Ok (m, wsum (fun v u => v - m * u) d / wsum (fun _ _ => 1) d).
  Proof.
    intros F y x m method w d D P N M W.
    destruct (fit_fixed_min fit F y x m method w d D P N M W) as [b [E B]].
    rewrite E. rewrite <- (fixed_mean d m b P N B). reflexivity.
  Qed.

  Lemma fit_robust_line : fits_exact_data fit -> forall y x d a b, data_of y x None d -> two_places d ->
    positive_weights d -> on_line d a b -> linear_fit fit y x None "robust" None = Ok (a, b).
  Proof.
    intros F y x d a b D T P O. destruct (data_lengths _ _ _ _ D) as [A _].
    assert (N : d <> []). { intros ->. destruct T as [? [? [? [? [? [? [[] _]]]]]]]. }
    unfold linear_fit. cbv zeta. rewrite column_ok by assumption.
    destruct (F 2%nat _ _ (regular_line _ _ _ _ D P N)) as [p [E [L B]]].
    { exists [a; b]. split; [reflexivity |]. rewrite (distance_line _ _ _ _ _ _ D). apply misfit_on. assumption. }
    change (regression_of "robust") with RLM. rewrite E.
    destruct p as [| a0 [| b0 [|]]]; try discriminate. rewrite (distance_line _ _ _ _ _ _ D) in B.
    destruct (line_unique d a b a0 b0 T O) as [-> ->]; [apply misfit_zero; [assumption | lra] | reflexivity].
  Qed.

  Lemma fit_robust_fixed : fits_exact_data fit -> forall y x d m b, data_of y x None d -> d <> [] ->
    positive_weights d -> on_line d m b -> linear_fit fit y x (Some m) "robust" None = Ok (m, b).
  Proof.
    intros F y x d m b D N P O. destruct (data_lengths _ _ _ _ D) as [A _].
    unfold linear_fit, minus_line. cbv zeta. rewrite A, Nat.eqb_refl.
    rewrite map_length, combine_length, A, Nat.min_id, Nat.eqb_refl.
    destruct (F 1%nat _ _ (regular_level _ _ _ _ m D P N)) as [p [E [L B]]].
    { exists [b]. split; [reflexivity |]. rewrite (distance_level _ _ _ _ _ _ D). apply misfit_on. assumption. }
    change (regression_of "robust") with RLM. rewrite E.
    destruct p as [| b0 [|]]; try discriminate. rewrite (distance_level _ _ _ _ _ _ D) in B.
    assert (Q : on_line d m b0) by (apply misfit_zero; [assumption | lra]).
    destruct d as [| [[v u] s] d]; [congruence |].
    assert (v = m * u + b) by (eapply O; left; reflexivity).
    assert (v = m * u + b0) by (eapply Q; left; reflexivity).
    assert (b0 = b) by lra. subst. reflexivity.
  Qed.
End Fit2.

Lemma data_none_weights : forall y x w d, data_of y x w d -> w = None -> positive_weights d.
Proof.
  induction 1; intros E a b c I; try discriminate; [contradiction |].
  destruct I as [I | I]; [assert (c = 1) by congruence; lra | exact (IHdata_of E _ _ _ I)].
Qed.

(** All methods find the line of data without errors *)
Lemma fit_exact : forall fit, fits_least_squares fit -> fits_exact_data fit ->
  forall y x method w d a b, data_of y x w d ->
  (w <> None -> method = "weighted"%string) -> positive_weights d -> on_line d a b ->
  (two_places d -> linear_fit fit y x None method w = Ok (a, b)) /\
  (d <> [] -> linear_fit fit y x (Some a) method w = Ok (a, b)).
Proof.
  intros fit F G y x method w d a b D W P O.
  destruct (string_dec method "robust") as [-> | M].
  - destruct w as [l |]; [assert ("robust" = "weighted")%string by (apply W; discriminate); discriminate |].
    split; intros; [eapply fit_robust_line | eapply fit_robust_fixed]; eassumption.
  - split; intros T.
    + apply (fit_only fit F _ _ _ _ _ a b D M W P T). intros a' b'. rewrite (misfit_on d a b O).
      rewrite misfit_wsum. apply wsum_ge0; [assumption | intros; apply sq_ge0].
    + destruct (fit_fixed_min fit F y x a method w d D P T M W) as [b0 [E B]]. rewrite E.
      assert (Q : on_line d a b0).
      { apply misfit_zero; [assumption |]. rewrite <- (misfit_on d a b O). apply B. }
      destruct d as [| [[v u] s] d]; [congruence |].
      assert (v = a * u + b) by (eapply O; left; reflexivity).
      assert (v = a * u + b0) by (eapply Q; left; reflexivity).
      assert (b0 = b) by lra. subst. reflexivity.
Qed.
