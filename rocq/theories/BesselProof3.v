(** Radiative transfer in one dimension at late times. *)
From Coq Require Import Reals Lra Lia.
From Coquelicot Require Import Coquelicot.
From Verif Require Import Base RtModel RtProof2 RtProof4 GaussProof DiffuProof BesselProof BesselProof2.
Open Scope R_scope.

Lemma iv_vi x : 0 < x -> iv0 x = exp x * (sqrt (PI / (2 * x)) * vi 0 x) / PI /\ iv1 x = exp x * (sqrt (PI / (2 * x)) * vi 1 x) / PI.
Proof.
  intros X. pose proof PI_RGT_0 as P. assert (S : 0 < sqrt (PI / (2 * x))) by (apply sqrt_lt_R0, Rdiv_lt_0_compat; lra).
  assert (V : forall j, sqrt (PI / (2 * x)) * vi j x = wi j x) by (intros j; unfold vi; field; lra). rewrite !V, <- !bi_wi.
  split; [rewrite <- iv0_integral|rewrite <- iv1_integral]; field; lra.
Qed.

Definition aw (r t c : R) : R := 1 - (r / c) ^ 2 / t ^ 2.

Lemma front_root r t c : 0 < c -> Rabs (r / c) < t -> sqrt (c ^ 2 * t ^ 2 - r ^ 2) = c * t * sqrt (aw r t c) /\ 0 < aw r t c.
Proof.
  intros C T. pose proof (Rabs_pos (r / c)). destruct (a_range (r / c) t T) as [A _]. split; [|exact A].
  assert (0 < c * t) by (apply Rmult_lt_0_compat; lra).
  rewrite <- (sqrt_Rsqr (c * t)) by lra. rewrite <- sqrt_mult_alt by apply Rle_0_sqr. f_equal. unfold aw, Rsqr. field. split; lra.
Qed.

Lemma rt1d_ratio r t c g0 : 0 < c -> 0 < g0 -> Rabs (r / c) < t ->
  let b := sqrt (aw r t c) in let x := g0 / 2 * (c * t * b) in
  rt1d_coda r t c g0 / diff 1 r t c g0 =
  sqrt (/ b) / 2 * exp (g0 * c / 2 * (t * (b - 1)) + g0 * r ^ 2 / (4 * c) / t) * (vi 0 x + / b * vi 1 x).
Proof.
  intros C G T b x. destruct (front_root r t c C T) as [A0 A]. fold b in A0. pose proof (Rabs_pos (r / c)). assert (T0 : 0 < t) by lra.
  assert (B : 0 < b) by (apply sqrt_lt_R0, A). pose proof PI_RGT_0 as P.
  assert (CT : 0 < c * t) by now apply Rmult_lt_0_compat. assert (CTB : 0 < c * t * b) by now apply Rmult_lt_0_compat.
  assert (X : 0 < x) by (unfold x; apply Rmult_lt_0_compat; lra).
  unfold rt1d_coda. cbv zeta. rewrite A0.
  replace (c * t * b / 2 / (1 / g0)) with x by (unfold x; field; lra).
  destruct (iv_vi x X) as [E0 E1]. rewrite E0, E1.
  unfold diff. cbv zeta. cbn [INR].
  replace (4 * PI * (c / (1 * g0)) * t) with (4 * PI * c * t / g0) by (field; lra).
  assert (Q : 0 < 4 * PI * c * t / g0) by (apply Rdiv_lt_0_compat; [|assumption]; rewrite Rmult_assoc; apply Rmult_lt_0_compat; lra).
  replace (- (1) / 2) with (- 1 / 2) by lra. rewrite power_half by exact Q.
  assert (SQ : sqrt (PI / (2 * x)) * sqrt (4 * PI * c * t / g0) = 2 * PI / g0 * sqrt (/ b)).
  { rewrite <- sqrt_mult_alt by (left; apply Rdiv_lt_0_compat; lra).
    rewrite <- (sqrt_Rsqr (2 * PI / g0)) by (left; apply Rdiv_lt_0_compat; lra). rewrite <- sqrt_mult_alt by apply Rle_0_sqr.
    f_equal. unfold x, Rsqr. field. repeat split; lra. }
  assert (S1 : 0 < sqrt (4 * PI * c * t / g0)) by now apply sqrt_lt_R0.
  set (e1 := exp (- c * t / 2 / (1 / g0))). set (e2 := exp (- r ^ 2 / (4 * (c / (1 * g0)) * t))).
  assert (EE : exp (g0 * c / 2 * (t * (b - 1)) + g0 * r ^ 2 / (4 * c) / t) = e1 * exp x / e2).
  { replace (e1 * exp x / e2) with (e1 * exp x * / e2) by reflexivity. unfold e1, e2. rewrite <- exp_Ropp, <- !exp_plus. f_equal. unfold x. field. repeat split; lra. }
  rewrite EE. set (ex := exp x). assert (0 < e2) by apply exp_pos.
  replace (sqrt (/ b) / 2) with (g0 / (4 * PI) * (sqrt (PI / (2 * x)) * sqrt (4 * PI * c * t / g0))) by (rewrite SQ; field; lra).
  set (s1 := sqrt (4 * PI * c * t / g0)) in *. set (s2 := sqrt (PI / (2 * x))). field. repeat split; lra.
Qed.

Lemma lim_mult (f g : R -> R) (a b : R) : is_lim f p_infty a -> is_lim g p_infty b -> is_lim (fun t => f t * g t) p_infty (a * b).
Proof. intros F G. change (Finite (a * b)) with (Rbar_mult (Finite a) (Finite b)). apply is_lim_mult; [exact F|exact G|exact I]. Qed.

Lemma rt1d_late r c g0 : 0 < c -> 0 < g0 -> is_lim (fun t => rt1d_coda r t c g0 / diff 1 r t c g0) p_infty 1.
Proof.
  intros C G.
  assert (LB : is_lim (fun t => sqrt (aw r t c)) p_infty 1).
  { apply (lim_cont (fun t => aw r t c) sqrt 1); [apply lim_a|apply sqrt_1|]. apply (@ex_derive_continuous R_AbsRing R_NormedModule). auto_derive. lra. }
  assert (LI : is_lim (fun t => / sqrt (aw r t c)) p_infty 1).
  { apply (lim_cont (fun t => sqrt (aw r t c)) Rinv 1); [exact LB|apply Rinv_1|]. apply (@ex_derive_continuous R_AbsRing R_NormedModule). auto_derive. lra. }
  assert (LX : filterlim (fun t => g0 / 2 * (c * t * sqrt (aw r t c))) (Rbar_locally' p_infty) (Rbar_locally' p_infty)).
  { assert (L : is_lim (fun t => (g0 / 2 * c * sqrt (aw r t c)) * t) p_infty p_infty).
    { assert (K : 0 < g0 / 2 * c) by (apply Rmult_lt_0_compat; lra).
      replace p_infty with (Rbar_mult (Finite (g0 / 2 * c * 1)) p_infty) at 2.
      2:{ rewrite Rmult_1_r. cbn. destruct (Rle_dec 0 (g0 / 2 * c)) as [L|L]; [|lra]. destruct (Rle_lt_or_eq_dec 0 (g0 / 2 * c) L) as [Q|Q]; [reflexivity|lra]. }
      apply is_lim_mult; [|apply is_lim_id|cbn; lra].
      apply (is_lim_scal_l (fun t => sqrt (aw r t c)) (g0 / 2 * c) p_infty 1). exact LB. }
    apply (is_lim_ext _ (fun t => g0 / 2 * (c * t * sqrt (aw r t c)))) in L; [exact L|]. intros t. field. }
  assert (LV : forall j, (j <= 1)%nat -> is_lim (fun t => vi j (g0 / 2 * (c * t * sqrt (aw r t c)))) p_infty 1).
  { intros j J. unfold is_lim. eapply filterlim_comp; [exact LX|apply (vi_lim j J)]. }
  assert (LE : is_lim (fun t => g0 * c / 2 * (t * (sqrt (aw r t c) - 1)) + g0 * r ^ 2 / (4 * c) / t) p_infty 0).
  { replace (Finite 0) with (Finite (g0 * c / 2 * 0 + 0)) by (f_equal; ring). apply is_lim_plus'; [|apply lim_inv_t].
    apply (is_lim_scal_l (fun t => t * (sqrt (aw r t c) - 1)) (g0 * c / 2) p_infty 0).
    apply (is_lim_ext_loc (fun t => t * (Rpower (1 - (r / c) ^ 2 / t ^ 2) (/ 2) - 1))); [|apply lim_t_a; lra].
    generalize (ev_gt (Rabs (r / c))). apply filter_imp. intros t T. rewrite Rpower_sqrt; [reflexivity|]. now apply a_range. }
  apply (is_lim_ext_loc (fun t => sqrt (/ sqrt (aw r t c)) / 2 * exp (g0 * c / 2 * (t * (sqrt (aw r t c) - 1)) + g0 * r ^ 2 / (4 * c) / t) *
    (vi 0 (g0 / 2 * (c * t * sqrt (aw r t c))) + / sqrt (aw r t c) * vi 1 (g0 / 2 * (c * t * sqrt (aw r t c)))))).
  { generalize (ev_gt (Rabs (r / c))). apply filter_imp. intros t T. symmetry. now apply rt1d_ratio. }
  replace (Finite 1) with (Finite (1 / 2 * 1 * (1 + 1 * 1))) by (f_equal; field).
  apply lim_mult; [apply lim_mult|].
  - apply (lim_cont (fun t => / sqrt (aw r t c)) (fun x => sqrt x / 2) 1); [exact LI|rewrite sqrt_1; reflexivity|].
    apply (@ex_derive_continuous R_AbsRing R_NormedModule). auto_derive. lra.
  - apply (lim_cont (fun t => g0 * c / 2 * (t * (sqrt (aw r t c) - 1)) + g0 * r ^ 2 / (4 * c) / t) exp 0); [exact LE|apply exp_0|].
    apply (@ex_derive_continuous R_AbsRing R_NormedModule). auto_derive. trivial.
  - apply is_lim_plus'; [apply LV; lia|]. apply lim_mult; [exact LI|apply LV; lia].
Qed.
