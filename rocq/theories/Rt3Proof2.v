(** Distance of radiative transfer from diffusion (C16). *)
From Coq Require Import String List Bool Reals Lra Lia.
From Coquelicot Require Import Coquelicot.
From Verif Require Import Base RtModel RtSpec GaussProof DiffuSpec DiffuProof Rt3Proof.
Open Scope R_scope.

Lemma diff_reduced r t c g0 : 0 < c -> 0 < g0 -> 0 < t -> diff 3 r t c g0 = diff 3 (r * g0) (t * c * g0) 1 1 * g0 ^ 3.
Proof.
  intros C G T. pose proof PI_RGT_0 as P. unfold diff. cbv zeta. replace (INR 3) with 3 by (cbn; lra).
  assert (S : 0 < t * c * g0) by (apply Rmult_lt_0_compat; [now apply Rmult_lt_0_compat|assumption]).
  assert (Q : 0 < 4 * PI * (1 / (3 * 1)) * (t * c * g0)) by (apply Rmult_lt_0_compat; lra).
  replace (4 * PI * (c / (3 * g0)) * t) with ((4 * PI * (1 / (3 * 1)) * (t * c * g0)) * (/ g0 * / g0)) by (field; lra).
  rewrite <- Rpower_mult_distr; [|exact Q|apply Rmult_lt_0_compat; now apply Rinv_0_lt_compat].
  replace (- (3) / 2) with (- 3 / 2) by lra. rewrite (power_three (/ g0 * / g0)) by (apply Rmult_lt_0_compat; now apply Rinv_0_lt_compat).
  rewrite sqrt_square by (left; now apply Rinv_0_lt_compat).
  replace (- r ^ 2 / (4 * (c / (3 * g0)) * t)) with (- (r * g0) ^ 2 / (4 * (1 / (3 * 1)) * (t * c * g0))) by (field; repeat split; lra).
  field. lra.
Qed.

Lemma rt3d_bounds r t c g0 : 0 < c -> 0 < g0 -> 0 < r -> r <= c * t / 2 ->
  let y := (r / (c * t)) ^ 2 in
  (1 - y) * exp (- (3 / 2 * (c * t * g0 * y ^ 2))) <= rt3d_coda r t c g0 / diff 3 r t c g0 <= 1 + 2 / (c * t * g0).
Proof.
  intros C G R1 R2 y. assert (CT : 0 < c * t) by lra. assert (T : 0 < t) by (apply (Rmult_lt_reg_l c); lra).
  unfold rt3d_coda. rewrite diff_reduced by assumption. set (s := t * c * g0). assert (S : 0 < s) by (unfold s; replace (t * c) with (c * t) by ring; now apply Rmult_lt_0_compat).
  set (q := r * g0). assert (Q : 0 < q) by now apply Rmult_lt_0_compat.
  assert (QS : q <= s / 2) by (unfold q, s; nra). assert (G3 : 0 < g0 ^ 3) by (apply pow_lt, G).
  assert (Y : q ^ 2 / s ^ 2 = y) by (unfold y, q, s; field; lra).
  assert (D : 0 < diff 3 q s 1 1) by (unfold diff; cbv zeta; apply Rmult_lt_0_compat; [apply exp_pos|apply exp_pos]).
  replace (rt3d_coda_reduced q s * g0 ^ 3 / (diff 3 q s 1 1 * g0 ^ 3)) with (rt3d_coda_reduced q s / diff 3 q s 1 1) by (field; lra).
  replace (c * t * g0) with s by (unfold s; ring). pose proof PI_RGT_0 as P. assert (PQ : 0 < 4 * PI * q ^ 2) by (apply Rmult_lt_0_compat; [lra|nra]).
  pose proof (hh_below s q q ltac:(lra) ltac:(lra)) as A. pose proof (hh_near s q S ltac:(lra)) as B. unfold hh, dk, surface in A, B. rewrite Y in A.
  replace (q ^ 4 / s ^ 3) with (s * y ^ 2) in A by (rewrite <- Y; field; lra).
  split.
  - apply (Rmult_le_reg_r (diff 3 q s 1 1)); [exact D|]. unfold Rdiv at 2. rewrite (Rmult_assoc (rt3d_coda_reduced q s)), Rinv_l, Rmult_1_r by lra.
    apply (Rmult_le_reg_l (4 * PI * q ^ 2)); [exact PQ|]. lra.
  - apply (Rmult_le_reg_r (diff 3 q s 1 1)); [exact D|]. unfold Rdiv at 1. rewrite Rmult_assoc, Rinv_l, Rmult_1_r by lra.
    apply (Rmult_le_reg_l (4 * PI * q ^ 2)); [exact PQ|]. lra.
Qed.

Lemma rt2d_bounds r t c g0 : 0 < c -> 0 < g0 -> 0 <= r < c * t ->
  let y := (r / (c * t)) ^ 2 in
  exp (- (c * t * g0 * y ^ 2 / 2)) <= rt2d_coda r t c g0 / diff 2 r t c g0 <= / sqrt (1 - y).
Proof.
  intros C G H y. assert (CT : 0 < c * t) by lra. assert (T : 0 < t) by (apply (Rmult_lt_reg_l c); lra). pose proof PI_RGT_0 as P.
  assert (Y : 0 <= y < 1).
  { unfold y. split; [apply pow2_ge_0|]. assert (0 <= r / (c * t) < 1); [|nra]. split.
    - apply Rmult_le_pos; [lra|left; now apply Rinv_0_lt_compat].
    - apply (Rmult_lt_reg_r (c * t)); [exact CT|]. unfold Rdiv. rewrite Rmult_assoc, Rinv_l by lra. lra. }
  set (b := sqrt (1 - y)). assert (B : 0 < b) by (apply sqrt_lt_R0; lra). assert (BB : b * b = 1 - y) by (apply sqrt_sqrt; lra).
  assert (B1 : b <= 1) by nra.
  assert (RT : rt2d_coda r t c g0 / diff 2 r t c g0 = / b * exp (c * t * g0 * (b - 1 + y / 2))).
  { unfold rt2d_coda, diff. cbv zeta. replace (INR 2) with 2 by (cbn; lra).
    replace (1 - r ^ 2 / c ^ 2 / t ^ 2) with (1 - y) by (unfold y; field; lra).
    replace (-1 / 2) with (- / 2) by lra. rewrite Rpower_Ropp, Rpower_sqrt by lra. fold b.
    assert (A0 : sqrt (c ^ 2 * t ^ 2 - r ^ 2) = c * t * b).
    { unfold b. rewrite <- (sqrt_Rsqr (c * t)) by lra. rewrite <- sqrt_mult_alt by apply Rle_0_sqr. f_equal. unfold y, Rsqr. field. lra. }
    rewrite A0. assert (Q : 0 < 4 * PI * (c / (2 * g0)) * t).
    { apply Rmult_lt_0_compat; [|exact T]. apply Rmult_lt_0_compat; [lra|]. apply Rdiv_lt_0_compat; lra. }
    replace (- (2) / 2) with (- 2 / 2) by lra. rewrite power_one by exact Q.
    set (e2 := exp (- r ^ 2 / (4 * (c / (2 * g0)) * t))). assert (E0 : 0 < e2) by apply exp_pos.
    assert (EE : exp (c * t * g0 * (b - 1 + y / 2)) = exp ((c * t * b - c * t) / (1 / g0)) * / e2).
    { unfold e2. rewrite <- exp_Ropp, <- exp_plus. f_equal. unfold y. field. repeat split; lra. }
    rewrite EE. field. repeat split; lra. }
  rewrite RT. assert (S : 0 < c * t * g0) by now apply Rmult_lt_0_compat. assert (IB : 1 <= / b) by (rewrite <- Rinv_1 at 1; apply Rinv_le_contravar; lra).
  assert (Z : b - 1 + y / 2 = - ((1 - b) ^ 2 / 2)) by (replace y with (1 - b * b) by lra; field).
  assert (Z2 : 0 <= (1 - b) ^ 2 <= y ^ 2). { split; [apply pow2_ge_0|]. assert (1 - b <= y) by nra. nra. }
  split.
  - apply Rle_trans with (exp (c * t * g0 * (b - 1 + y / 2))).
    + apply exp_mono. rewrite Z. nra.
    + pose proof (exp_pos (c * t * g0 * (b - 1 + y / 2))). nra.
  - rewrite <- (Rmult_1_r (/ b)) at 2. apply Rmult_le_compat_l; [lra|]. eapply Rle_trans; [apply (exp_mono _ 0)|rewrite exp_0; lra]. rewrite Z. nra.
Qed.
