(** The modified Bessel functions of large arguments. *)
From Coq Require Import Reals Lra Lia.
From Coquelicot Require Import Coquelicot.
From Verif Require Import Base RtModel RtProof2 GaussProof DiffuProof Rt3Proof BesselProof.
Open Scope R_scope.

Definition wi (j : nat) (x : R) : R := RInt (fun u => cos u ^ j * exp (- (x * (1 - cos u)))) 0 PI.

Lemma wi_int j x a b : ex_RInt (fun u => cos u ^ j * exp (- (x * (1 - cos u)))) a b.
Proof.
  apply (@ex_RInt_continuous R_CompleteNormedModule). intros z _. apply (@ex_derive_continuous R_AbsRing R_NormedModule). auto_derive. trivial.
Qed.

Lemma bi_wi j x : bi j x = exp x * wi j x.
Proof.
  unfold bi, wi. apply is_RInt_unique. apply (is_RInt_ext (fun u => scal (exp x) (cos u ^ j * exp (- (x * (1 - cos u)))))).
  - intros u _. r_eq. unfold scal; cbn -[pow]; unfold mult; cbn -[pow]. replace (x * cos u) with (x + - (x * (1 - cos u))) by ring. rewrite exp_plus. ring.
  - apply (@is_RInt_scal R_NormedModule), (@RInt_correct R_CompleteNormedModule), wi_int.
Qed.

Lemma cos_lower u : 1 - u ^ 2 / 2 <= cos u.
Proof.
  replace u with (2 * (u / 2)) at 2 by field. rewrite cos_2a_sin.
  assert (H : sin (u / 2) * sin (u / 2) <= (u / 2) * (u / 2)).
  { assert (A : forall v, 0 <= v -> sin v * sin v <= v * v).
    { intros v V. destruct (Rle_dec v 1) as [L|L].
      - pose proof PI2_3_2. assert (0 <= sin v) by (apply sin_ge_0; lra).
        assert (sin v <= v). { destruct (Req_dec v 0) as [->|N]; [rewrite sin_0; lra|]. left. apply sin_lt_x. lra. } nra.
      - pose proof (SIN_bound v). nra. }
    destruct (Rle_dec 0 (u / 2)) as [P|N]; [now apply A|]. specialize (A (- (u / 2)) ltac:(lra)). rewrite sin_neg in A. lra. }
  lra.
Qed.

Lemma cos_upper u : 0 <= u <= 1 -> cos u <= 1 - u ^ 2 / 2 + u ^ 4 / 24.
Proof.
  intros H. destruct (pre_cos_bound u 0 ltac:(lra) ltac:(lra)) as [_ U]. eapply Rle_trans; [exact U|].
  unfold cos_approx, cos_term. cbn -[pow]. right. field.
Qed.

(** integral of the bell *)
Lemma bell k d : 0 < k -> is_RInt (fun u => exp (- (k ^ 2 * u ^ 2))) 0 d (Gi (d * k) / k).
Proof.
  intros K. apply (is_RInt_ext (fun u => scal (/ k) (scal k (gauss (k * u + 0))))).
  - intros u _. r_eq. unfold scal; cbn -[pow]; unfold mult; cbn -[pow]. unfold gauss. replace ((k * u + 0) ^ 2) with (k ^ 2 * u ^ 2) by ring. field. lra.
  - replace (Gi (d * k) / k) with (scal (/ k) (Gi (d * k))) by (unfold scal; cbn -[Gi]; unfold mult; cbn -[Gi]; field; lra).
    apply (@is_RInt_scal R_NormedModule). apply (@is_RInt_comp_lin R_NormedModule gauss k 0 0 d).
    replace (k * 0 + 0) with 0 by ring. replace (k * d + 0) with (d * k) by ring. apply (@RInt_correct R_CompleteNormedModule), gauss_int.
Qed.

Lemma Gi_bounds v : 0 <= v -> sqrt PI / 2 * (1 - exp (- v ^ 2)) <= Gi v <= sqrt PI / 2.
Proof.
  intros V. pose proof PI_RGT_0 as P. pose proof (sqrt_lt_R0 _ P) as S. destruct (erf_bounds v V) as [A B]. unfold erf in A, B.
  assert (E : Gi v = sqrt PI / 2 * (2 / sqrt PI * Gi v)) by (field; lra). rewrite E. split.
  - apply Rmult_le_compat_l; lra.
  - rewrite <- (Rmult_1_r (sqrt PI / 2)) at 2. apply Rmult_le_compat_l; lra.
Qed.

(** the part far from 0 *)
Lemma far_part j x d : 0 < x -> 0 < d <= 1 ->
  Rabs (RInt (fun u => cos u ^ j * exp (- (x * (1 - cos u)))) d PI) <= 4 * exp (- (x * d ^ 2 / 3)).
Proof.
  intros X D. pose proof PI_RGT_0 as P. pose proof PI_4 as P4. pose proof PI2_3_2 as P3.
  assert (B : forall u, d <= u <= PI -> Rabs (cos u ^ j * exp (- (x * (1 - cos u)))) <= exp (- (x * d ^ 2 / 3))).
  { intros u U. rewrite Rabs_mult, (Rabs_pos_eq (exp _)) by (left; apply exp_pos).
    assert (CJ : 0 <= Rabs (cos u ^ j) <= 1).
    { split; [apply Rabs_pos|]. rewrite <- RPow_abs. replace 1 with (1 ^ j) by apply pow1. apply pow_incr.
      split; [apply Rabs_pos|apply Rabs_le, COS_bound]. }
    assert (C : cos u <= cos d). { destruct (Req_dec u d) as [->|N]; [lra|]. left. apply cos_decreasing_1; lra. }
    assert (C2 := cos_upper d ltac:(lra)). assert (0 <= d ^ 2 <= 1) by nra. assert (d ^ 4 <= d ^ 2) by (replace (d ^ 4) with (d ^ 2 * d ^ 2) by ring; set (dd := d ^ 2) in *; nra).
    assert (d ^ 2 / 3 <= 1 - cos u) by (assert (0 <= d ^ 2) by nra; lra).
    assert (exp (- (x * (1 - cos u))) <= exp (- (x * d ^ 2 / 3))) by (apply exp_mono; nra).
    pose proof (exp_pos (- (x * (1 - cos u)))). nra. }
  pose proof (@norm_RInt_le R_NormedModule _ (fun _ => exp (- (x * d ^ 2 / 3))) d PI _ ((PI - d) * exp (- (x * d ^ 2 / 3))) ltac:(lra) (fun u U => B u U)
      (@RInt_correct R_CompleteNormedModule _ _ _ (wi_int j x d PI))
      (@is_RInt_const R_NormedModule d PI (exp (- (x * d ^ 2 / 3))))) as Q.
  eapply Rle_trans; [exact Q|]. apply Rmult_le_compat_r; [left; apply exp_pos|lra].
Qed.

(** the part near 0 *)
Lemma near_part j x d : (j <= 1)%nat -> 0 < x -> 0 < d <= 1 ->
  (1 - d ^ 2 / 2) * (sqrt (PI / (2 * x)) * (1 - exp (- (x * d ^ 2 / 2)))) <= RInt (fun u => cos u ^ j * exp (- (x * (1 - cos u)))) 0 d <= sqrt (PI / (2 * x)) * (1 + d ^ 2).
Proof.
  intros J X D. pose proof PI_RGT_0 as P. pose proof PI_4 as P4. pose proof PI2_3_2 as P3.
  set (q := 1 - d ^ 2 / 12). assert (D2 : 0 < d ^ 2 <= 1) by nra. assert (Q : 11 / 12 <= q < 1) by (unfold q; lra).
  set (k := sqrt (x / 2)). assert (K : 0 < k) by (apply sqrt_lt_R0; lra). assert (KK2 : k ^ 2 = x / 2) by (cbn; rewrite Rmult_1_r; apply sqrt_sqrt; lra).
  set (m := q * k). assert (M : 0 < m) by (apply Rmult_lt_0_compat; lra).
  assert (SQ : sqrt (PI / (2 * x)) = sqrt PI / 2 / k).
  { unfold k. replace (2 * x) with (4 * (x / 2)) by field. rewrite sqrt_div by lra. rewrite sqrt_mult by lra.
    replace (sqrt 4) with 2; [field; apply Rgt_not_eq, K|]. replace 4 with (2 * 2) by ring. symmetry. apply sqrt_square. lra. }
  rewrite SQ. pose proof (sqrt_lt_R0 _ P) as SP.
  assert (CJ : forall u, 0 <= u <= d -> 1 - d ^ 2 / 2 <= cos u ^ j <= 1).
  { intros u U. assert (C := cos_lower u). assert (C1 := COS_bound u). destruct j as [|[|j]]; [cbn; lra|cbn; nra|lia]. }
  split.
  - apply Rle_trans with ((1 - d ^ 2 / 2) * (Gi (d * k) / k)).
    + apply Rmult_le_compat_l; [lra|]. destruct (Gi_bounds (d * k) ltac:(nra)) as [G _].
      replace (- (d * k) ^ 2) with (- (x * d ^ 2 / 2)) in G by (rewrite Rpow_mult_distr, KK2; field).
      replace (sqrt PI / 2 / k * (1 - exp (- (x * d ^ 2 / 2)))) with (sqrt PI / 2 * (1 - exp (- (x * d ^ 2 / 2))) / k) by (field; lra).
      apply Rmult_le_compat_r; [left; now apply Rinv_0_lt_compat|exact G].
    + apply (is_RInt_le (fun u => (1 - d ^ 2 / 2) * exp (- (k ^ 2 * u ^ 2))) (fun u => cos u ^ j * exp (- (x * (1 - cos u)))) 0 d);
        [lra|apply (@is_RInt_scal R_NormedModule), bell, K|apply (@RInt_correct R_CompleteNormedModule), wi_int|].
      intros u U. apply Rmult_le_compat; [lra|left; apply exp_pos|apply CJ; lra|]. apply exp_mono. rewrite KK2. pose proof (cos_lower u). nra.
  - apply Rle_trans with (Gi (d * m) / m).
    + apply (is_RInt_le (fun u => cos u ^ j * exp (- (x * (1 - cos u)))) (fun u => exp (- (m ^ 2 * u ^ 2))) 0 d);
        [lra|apply (@RInt_correct R_CompleteNormedModule), wi_int|apply bell, M|].
      intros u U. rewrite <- (Rmult_1_l (exp (- (m ^ 2 * u ^ 2)))). apply Rmult_le_compat; [specialize (CJ u ltac:(lra)); lra|left; apply exp_pos|apply CJ; lra|].
      apply exp_mono. unfold m. rewrite Rpow_mult_distr, KK2. assert (C := cos_upper u ltac:(lra)).
      assert (U2 : 0 <= u ^ 2 <= d ^ 2) by nra. assert (q ^ 2 <= q) by nra.
      assert (q * u ^ 2 / 2 <= 1 - cos u). { unfold q. replace (u ^ 4) with (u ^ 2 * u ^ 2) in C by ring. nra. }
      assert (q ^ 2 * u ^ 2 <= q * u ^ 2) by (apply Rmult_le_compat_r; lra).
      assert (q ^ 2 * u ^ 2 / 2 <= 1 - cos u) by lra. replace (q ^ 2 * (x / 2) * u ^ 2) with (x * (q ^ 2 * u ^ 2 / 2)) by field. nra.
    + destruct (Gi_bounds (d * m) ltac:(nra)) as [_ G]. apply Rle_trans with (sqrt PI / 2 / m).
      * apply Rmult_le_compat_r; [left; now apply Rinv_0_lt_compat|exact G].
      * unfold m. replace (sqrt PI / 2 / (q * k)) with (sqrt PI / 2 / k * / q) by (field; split; lra).
        apply Rmult_le_compat_l; [left; apply Rdiv_lt_0_compat; lra|].
        apply (Rmult_le_reg_r q); [lra|]. rewrite Rinv_l by lra. unfold q. nra.
Qed.

Lemma exp_inv v : 0 < v -> exp (- v) <= / v.
Proof. intros V. rewrite exp_Ropp. apply Rinv_le_contravar; [exact V|]. pose proof (exp_ineq1_le v). lra. Qed.

Definition vi (j : nat) (x : R) : R := wi j x / sqrt (PI / (2 * x)).

Lemma vi_bounds j x d : (j <= 1)%nat -> 1 <= x -> 0 < d <= 1 -> Rabs (vi j x - 1) <= d ^ 2 + 20 / (d ^ 2 * sqrt x).
Proof.
  intros J X D. pose proof PI_RGT_0 as P. pose proof PI2_3_2 as P3. assert (D2 : 0 < d ^ 2 <= 1) by nra.
  assert (XX : 0 < x) by lra.
  set (s := sqrt (PI / (2 * x))). assert (S : 0 < s) by (apply sqrt_lt_R0, Rdiv_lt_0_compat; lra).
  assert (R : 0 < sqrt x) by (apply sqrt_lt_R0; lra). assert (RR := sqrt_sqrt x ltac:(lra)).
  assert (SX : 1 <= s * sqrt x * 1).
  { unfold s. rewrite Rmult_1_r, <- sqrt_mult_alt by (left; apply Rdiv_lt_0_compat; lra). rewrite <- sqrt_1. apply sqrt_le_1_alt.
    replace (PI / (2 * x) * x) with (PI / 2) by (field; lra). lra. }
  destruct (near_part j x d J ltac:(lra) D) as [A B]. fold s in A, B. pose proof (far_part j x d ltac:(lra) D) as F.
  assert (W : wi j x = RInt (fun u => cos u ^ j * exp (- (x * (1 - cos u)))) 0 d + RInt (fun u => cos u ^ j * exp (- (x * (1 - cos u)))) d PI).
  { unfold wi. symmetry. apply (RInt_Chasles (fun u => cos u ^ j * exp (- (x * (1 - cos u)))) 0 d PI); apply wi_int. }
  set (n := RInt _ 0 d) in *. set (f := RInt _ d PI) in *.
  assert (E3 : exp (- (x * d ^ 2 / 3)) <= 3 / (x * d ^ 2)).
  { replace (3 / (x * d ^ 2)) with (/ (x * d ^ 2 / 3)) by (field; lra). apply exp_inv. nra. }
  assert (E2 : exp (- (x * d ^ 2 / 2)) <= 2 / (x * d ^ 2)).
  { replace (2 / (x * d ^ 2)) with (/ (x * d ^ 2 / 2)) by (field; lra). apply exp_inv. nra. }
  assert (XD : 0 < x * d ^ 2) by nra.
  (* x >= sqrt x, 1 / s <= sqrt x *)
  assert (RX : sqrt x <= x) by nra.
  assert (I1 : / (x * d ^ 2) <= / (d ^ 2 * sqrt x)) by (apply Rinv_le_contravar; nra).
  assert (F2 : Rabs f / s <= 12 / (d ^ 2 * sqrt x)).
  { apply (Rmult_le_reg_r s); [exact S|]. unfold Rdiv at 1. rewrite Rmult_assoc, Rinv_l by lra. rewrite Rmult_1_r.
    apply Rle_trans with (12 / (x * d ^ 2)); [unfold Rdiv in *; lra|].
    replace (12 / (x * d ^ 2)) with (12 * / (d ^ 2 * sqrt x) * / sqrt x) by (rewrite <- RR at 3; field; lra).
    unfold Rdiv. assert (/ sqrt x <= s). { apply (Rmult_le_reg_r (sqrt x)); [exact R|]. rewrite Rinv_l by lra. lra. }
    apply Rmult_le_compat_l; [|assumption]. assert (0 < / (d ^ 2 * sqrt x)) by (apply Rinv_0_lt_compat; nra). lra. }
  assert (V : vi j x = n / s + f / s) by (unfold vi; fold s; rewrite W; field; lra).
  assert (N1 : n / s <= 1 + d ^ 2). { apply (Rmult_le_reg_r s); [exact S|]. unfold Rdiv at 1. rewrite Rmult_assoc, Rinv_l by lra. lra. }
  assert (N2 : (1 - d ^ 2 / 2) * (1 - exp (- (x * d ^ 2 / 2))) <= n / s).
  { apply (Rmult_le_reg_r s); [exact S|]. unfold Rdiv at 3. rewrite (Rmult_assoc n), Rinv_l by lra. lra. }
  pose proof (exp_pos (- (x * d ^ 2 / 2))). 
  assert (N3 : 1 - d ^ 2 / 2 - exp (- (x * d ^ 2 / 2)) <= n / s) by nra.
  assert (FS : Rabs (f / s) <= 12 / (d ^ 2 * sqrt x)).
  { unfold Rdiv at 1. rewrite Rabs_mult, (Rabs_pos_eq (/ s)) by (left; now apply Rinv_0_lt_compat). exact F2. }
  apply Rabs_le_between in FS. assert (0 < / (d ^ 2 * sqrt x)) by (apply Rinv_0_lt_compat; nra).
  rewrite V. apply Rabs_le. unfold Rdiv in *. lra.
Qed.

Lemma vi_lim j : (j <= 1)%nat -> is_lim (vi j) p_infty 1.
Proof.
  intros J. apply is_lim_spec. intros eps. destruct eps as [eps E]. cbn [pos].
  set (d := sqrt (Rmin 1 (eps / 2))).
  assert (M : 0 < Rmin 1 (eps / 2)) by (apply Rmin_pos; lra). assert (D0 : 0 < d) by (apply sqrt_lt_R0, M).
  assert (D2 : d ^ 2 = Rmin 1 (eps / 2)) by (cbn; rewrite Rmult_1_r; apply sqrt_sqrt; lra).
  pose proof (Rmin_l 1 (eps / 2)). pose proof (Rmin_r 1 (eps / 2)). assert (D1 : d <= 1) by nra.
  set (k := 40 / (d ^ 2 * eps)). assert (K : 0 < k) by (unfold k; apply Rdiv_lt_0_compat; [lra|]; nra).
  exists (1 + k ^ 2). intros x X. assert (0 < k ^ 2) by nra.
  eapply Rle_lt_trans; [apply (vi_bounds j x d J); lra|].
  assert (S : k < sqrt x). { rewrite <- (sqrt_pow2 k) by lra. apply sqrt_lt_1_alt. lra. }
  assert (20 / (d ^ 2 * sqrt x) < eps / 2); [|lra].
  assert (DD : 0 < d ^ 2) by nra.
  apply (Rmult_lt_reg_r (d ^ 2 * sqrt x)); [nra|]. unfold Rdiv at 1. rewrite Rmult_assoc, Rinv_l by nra.
  assert (Q : 40 = k * (d ^ 2 * eps)) by (unfold k; field; split; lra).
  assert (k * (d ^ 2 * eps) < sqrt x * (d ^ 2 * eps)) by (apply Rmult_lt_compat_r; nra). nra.
Qed.
