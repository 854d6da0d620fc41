(** Lemmas on the energy of the solutions of the diffusion equation (C127). *)
From Coq Require Import String List Bool Reals Lra Lia.
From Coquelicot Require Import Coquelicot.
From Verif Require Import Base RtModel RtSpec GaussProof DiffuSpec.
Import ListNotations.
Open Scope R_scope.

Ltac r_eq := match goal with |- ?x = ?y => change (@eq R x y) end.

Lemma diff_kernel dim r t c g0 : (1 <= dim)%nat -> 0 < c -> 0 < g0 -> 0 < t ->
  let k := INR dim * g0 / (4 * c * t) in
  0 < k /\ diff dim r t c g0 = Rpower (PI / k) (- INR dim / 2) * exp (- (k * r ^ 2)).
Proof.
  intros D Hc Hg Ht k. assert (0 < INR dim) by (apply lt_0_INR; lia). assert (0 < c * t) by (apply Rmult_lt_0_compat; assumption).
  split. { unfold k. apply Rdiv_lt_0_compat; [now apply Rmult_lt_0_compat|lra]. }
  unfold diff. cbv zeta. f_equal.
  - f_equal. unfold k. field. repeat split; lra.
  - f_equal. unfold k. field. repeat split; lra.
Qed.

Lemma power_half p : 0 < p -> Rpower p (- 1 / 2) = / sqrt p.
Proof. intros P. replace (- 1 / 2) with (- (/ 2)) by lra. rewrite Rpower_Ropp, Rpower_sqrt by exact P. reflexivity. Qed.

Lemma power_one p : 0 < p -> Rpower p (- 2 / 2) = / p.
Proof. intros P. replace (- 2 / 2) with (- (1)) by lra. rewrite Rpower_Ropp, Rpower_1 by exact P. reflexivity. Qed.

Lemma power_three p : 0 < p -> Rpower p (- 3 / 2) = / (p * sqrt p).
Proof.
  intros P. replace (- 3 / 2) with (- (1 + / 2)) by lra. rewrite Rpower_Ropp, Rpower_plus, Rpower_1, Rpower_sqrt by exact P. reflexivity.
Qed.

Lemma diff_inside dim t c g0 rho : dimension dim -> 0 < c -> 0 < g0 -> 0 < t ->
  is_RInt (fun r => surface dim r * diff dim r t c g0) 0 rho (inside dim (rho * sqrt (INR dim * g0 / (4 * c * t)))).
Proof.
  intros D Hc Hg Ht. pose proof PI_RGT_0 as P. pose proof (sqrt_lt_R0 _ P) as SP. assert (PP := sqrt_sqrt PI ltac:(lra)).
  assert (D1 : (1 <= dim)%nat) by (destruct D as [->|[->| ->]]; lia).
  set (k := INR dim * g0 / (4 * c * t)).
  assert (K : 0 < k) by apply (diff_kernel dim 0 t c g0 D1 Hc Hg Ht).
  set (s := sqrt k). assert (S : 0 < s) by (apply sqrt_lt_R0, K). assert (SS : s * s = k) by (apply sqrt_sqrt; lra).
  assert (SQ : sqrt (PI / k) = sqrt PI / s) by (unfold s; apply sqrt_div; lra).
  assert (PK : 0 < PI / k) by (apply Rdiv_lt_0_compat; assumption).
  apply (is_RInt_ext (fun r => surface dim r * (Rpower (PI / k) (- INR dim / 2) * exp (- (k * r ^ 2))))).
  { intros r _. r_eq. f_equal. symmetry. apply (diff_kernel dim r t c g0 D1 Hc Hg Ht). }
  replace (rho * s) with (s * rho + 0) by ring.
  assert (Z : s * 0 + 0 = 0) by ring.
  destruct D as [->|[->| ->]].
  - unfold inside. cbv zeta. change (RInt (fun u => exp (- u ^ 2)) 0 (s * rho + 0)) with (Gi (s * rho + 0)).
    replace (2 / sqrt PI * Gi (s * rho + 0)) with (scal (2 / sqrt PI) (Gi (s * rho + 0))) by reflexivity.
    apply (is_RInt_ext (fun r => scal (2 / sqrt PI) (scal s (gauss (s * r + 0))))).
    + intros r _. r_eq. cbn [surface INR]. rewrite power_half, SQ by exact PK. unfold gauss.
      change (2 / sqrt PI * (s * exp (- (s * r + 0) ^ 2)) = 2 * (/ (sqrt PI / s) * exp (- (k * r ^ 2)))).
      replace ((s * r + 0) ^ 2) with (k * r ^ 2) by (rewrite <- SS; ring). field. split; lra.
    + apply (@is_RInt_scal R_NormedModule). apply (@is_RInt_comp_lin R_NormedModule gauss s 0 0 rho). rewrite Z.
      apply (@RInt_correct R_CompleteNormedModule), gauss_int.
  - unfold inside. cbv zeta.
    replace (1 - exp (- (s * rho + 0) ^ 2)) with (minus ((fun r => - exp (- (k * r ^ 2))) rho) ((fun r => - exp (- (k * r ^ 2))) 0)).
    2:{ unfold minus, plus, opp; cbn -[pow]. replace (- (k * 0 ^ 2)) with 0 by ring. rewrite exp_0.
        replace ((s * rho + 0) ^ 2) with (k * rho ^ 2) by (rewrite <- SS; ring). ring. }
    apply (is_RInt_ext (fun r => 2 * k * r * exp (- (k * r ^ 2)))).
    + intros r _. r_eq. cbn [surface]. replace (INR 2) with 2 by (cbn; lra). rewrite power_one by exact PK. field. split; lra.
    + apply (@is_RInt_derive R_CompleteNormedModule (fun r => - exp (- (k * r ^ 2)))).
      * intros x _. auto_derive; [trivial|]. replace (x * (x * 1)) with (x ^ 2) by ring. ring.
      * intros x _. apply (@ex_derive_continuous R_AbsRing R_NormedModule). auto_derive. trivial.
  - unfold inside. cbv zeta. change (RInt (fun u => exp (- u ^ 2)) 0 (s * rho + 0)) with (Gi (s * rho + 0)).
    set (y := s * rho + 0). change (exp (- y ^ 2)) with (gauss y).
    replace (2 / sqrt PI * Gi y - 2 / sqrt PI * y * gauss y) with (scal (4 / sqrt PI) (Gi y / 2 - y * gauss y / 2)).
    2:{ change (4 / sqrt PI * (Gi y / 2 - y * gauss y / 2) = 2 / sqrt PI * Gi y - 2 / sqrt PI * y * gauss y). field. lra. }
    apply (is_RInt_ext (fun r => scal (4 / sqrt PI) (scal s ((s * r + 0) ^ 2 * gauss (s * r + 0))))).
    + intros r _. r_eq. cbn [surface]. replace (INR 3) with 3 by (cbn; lra). rewrite power_three, SQ by exact PK. unfold gauss.
      change (4 / sqrt PI * (s * ((s * r + 0) ^ 2 * exp (- (s * r + 0) ^ 2))) = 4 * PI * r ^ 2 * (/ (PI / k * (sqrt PI / s)) * exp (- (k * r ^ 2)))).
      replace ((s * r + 0) ^ 2) with (k * r ^ 2) by (rewrite <- SS; ring). field. repeat split; lra.
    + apply (@is_RInt_scal R_NormedModule). apply (@is_RInt_comp_lin R_NormedModule (fun u => u ^ 2 * gauss u) s 0 0 rho). rewrite Z.
      apply gauss_second.
Qed.

(** ** bounds *)
Lemma inside_bounds dim x : dimension dim -> 0 < x ->
  1 - (1 + 2 / sqrt PI * x) * exp (- x ^ 2) <= inside dim x < 1 /\ (dim <> 3%nat -> 1 - exp (- x ^ 2) <= inside dim x).
Proof.
  intros D X. destruct (erf_bounds x ltac:(lra)) as [A B]. unfold erf in A, B. change (Gi x) with (RInt (fun u => exp (- u ^ 2)) 0 x) in A, B.
  pose proof (exp_pos (- x ^ 2)) as E. pose proof PI_RGT_0 as P. pose proof (sqrt_lt_R0 _ P) as SP.
  assert (0 < 2 / sqrt PI) as Q by (apply Rdiv_lt_0_compat; lra).
  assert (0 < 2 / sqrt PI * x) as QX by (apply Rmult_lt_0_compat; lra).
  assert (0 < 2 / sqrt PI * x * exp (- x ^ 2)) by (apply Rmult_lt_0_compat; lra).
  destruct D as [->|[->| ->]]; unfold inside; cbv zeta; (split; [|intros N; try congruence; try lra]); split; lra.
Qed.

Lemma inside_late dim x : dimension dim -> 1 <= x -> 1 - 3 / x <= inside dim x < 1.
Proof.
  intros D X. destruct (inside_bounds dim x D ltac:(lra)) as [[A B] _]. split; [|exact B].
  pose proof PI_RGT_0 as P. pose proof (sqrt_lt_R0 _ P) as SP.
  assert (1 <= sqrt PI). { rewrite <- sqrt_1. apply sqrt_le_1_alt. pose proof PI2_1. lra. }
  assert (Q : 0 < 2 / sqrt PI <= 2).
  { split; [apply Rdiv_lt_0_compat; lra|]. apply (Rmult_le_reg_r (sqrt PI)); [lra|]. unfold Rdiv. rewrite Rmult_assoc, Rinv_l by lra. lra. }
  assert (E : exp (- x ^ 2) <= / x ^ 2).
  { rewrite exp_Ropp. apply Rinv_le_contravar; [nra|]. pose proof (exp_ineq1 (x ^ 2) ltac:(nra)). lra. }
  pose proof (exp_pos (- x ^ 2)) as EP.
  assert ((1 + 2 / sqrt PI * x) * exp (- x ^ 2) <= 3 / x); [|lra].
  apply Rle_trans with (3 * x * / x ^ 2); [|right; field; lra].
  apply Rmult_le_compat; [|lra| |exact E]; nra.
Qed.

Lemma inside_tends dim (f : R -> R) : dimension dim -> filterlim f (Rbar_locally p_infty) (Rbar_locally p_infty) ->
  filterlim (fun y => inside dim (f y)) (Rbar_locally p_infty) (locally 1).
Proof.
  intros D F P [eps H]. unfold filtermap. apply (F (fun x => P (inside dim x))).
  exists (Rmax 1 (3 / eps)). intros x X. assert (X1 := Rle_lt_trans _ _ _ (Rmax_l _ _) X). assert (X2 := Rle_lt_trans _ _ _ (Rmax_r _ _) X).
  apply H. pose proof (cond_pos eps) as EP. destruct (inside_late dim x D ltac:(lra)) as [A B].
  change (Rabs (inside dim x - 1) < eps). rewrite Rabs_left by lra.
  assert (3 / x < eps); [|lra]. apply (Rmult_lt_reg_r x); [lra|]. unfold Rdiv. rewrite Rmult_assoc, Rinv_l by lra.
  apply (Rmult_lt_compat_r eps) in X2; [|exact EP]. unfold Rdiv in X2. rewrite Rmult_assoc, Rinv_l in X2 by lra. lra.
Qed.

(** ** the whole space *)
Lemma diff_conserved dim t c g0 : dimension dim -> 0 < c -> 0 < g0 -> 0 < t ->
  filterlim (fun rho => RInt (fun r => surface dim r * diff dim r t c g0) 0 rho) (Rbar_locally p_infty) (locally 1).
Proof.
  intros D Hc Hg Ht. assert (D1 : (1 <= dim)%nat) by (destruct D as [->|[->| ->]]; lia).
  destruct (diff_kernel dim 0 t c g0 D1 Hc Hg Ht) as [K _]. apply sqrt_lt_R0 in K. set (s := sqrt _) in K.
  apply (filterlim_ext (fun rho => inside dim (rho * s))).
  { intros rho. symmetry. apply is_RInt_unique. now apply diff_inside. }
  apply inside_tends; [exact D|]. intros P [M H]. unfold filtermap. exists (M / s). intros x X. apply H.
  apply (Rmult_lt_compat_r s) in X; [|exact K]. unfold Rdiv in X. rewrite Rmult_assoc, Rinv_l in X by lra. lra.
Qed.

(** ** up to the wave front *)
Lemma diff_select dim r t c g0 : dimension dim -> 0 < c -> 0 <= r <= c * t ->
  ok_value (G_scalar (diff_type dim) r t c g0) = diff dim r t c g0.
Proof.
  intros D Hc Hr. unfold G_scalar. destruct (Rlt_dec (t - r / c) 0) as [L|_].
  { exfalso. apply (Rmult_lt_compat_r c) in L; [|assumption]. replace ((t - r / c) * c) with (c * t - r) in L by (field; lra). lra. }
  destruct D as [->|[->| ->]]; reflexivity.
Qed.

Lemma front_inside dim t c g0 rho : dimension dim -> 0 < c -> 0 < g0 -> 0 < t -> 0 <= rho <= c * t ->
  is_RInt (fun r => surface dim r * ok_value (G_scalar (diff_type dim) r t c g0)) 0 rho
    (inside dim (rho * sqrt (INR dim * g0 / (4 * c * t)))).
Proof.
  intros D Hc Hg Ht Hr. apply (is_RInt_ext (fun r => surface dim r * diff dim r t c g0)); [|now apply diff_inside].
  rewrite Rmin_left, Rmax_right by lra. intros r R1. r_eq. f_equal. symmetry. apply diff_select; [exact D|exact Hc|lra].
Qed.

Lemma front_place dim t c g0 : 0 < c -> 0 < g0 -> 0 < t ->
  c * t * sqrt (INR dim * g0 / (4 * c * t)) = sqrt (INR dim * g0 * c * t / 4).
Proof.
  intros Hc Hg Ht. assert (0 < c * t) by (apply Rmult_lt_0_compat; assumption). pose proof (pos_INR dim).
  rewrite <- (sqrt_Rsqr (c * t)) at 1 by lra. rewrite <- sqrt_mult.
  - f_equal. unfold Rsqr. field. split; lra.
  - apply Rle_0_sqr.
  - apply Rmult_le_pos; [apply Rmult_le_pos; lra|left; apply Rinv_0_lt_compat; lra].
Qed.

Lemma front_energy dim t c g0 : dimension dim -> 0 < c -> 0 < g0 -> 0 < t ->
  let E := RInt (fun r => surface dim r * ok_value (G_scalar (diff_type dim) r t c g0)) 0 (c * t) in
  let lost := exp (- (INR dim * g0 * c * t / 4)) in
  E < 1 /\ 1 - (1 + sqrt (INR dim * g0 * c * t / PI)) * lost <= E /\ (dim <> 3%nat -> 1 - lost <= E).
Proof.
  intros D Hc Hg Ht E lost. assert (0 < c * t) by (apply Rmult_lt_0_compat; assumption).
  assert (D1 : (1 <= dim)%nat) by (destruct D as [->|[->| ->]]; lia). assert (0 < INR dim) by (apply lt_0_INR; lia).
  assert (EE : E = inside dim (sqrt (INR dim * g0 * c * t / 4))).
  { unfold E. rewrite <- front_place by assumption. apply is_RInt_unique. apply front_inside; try assumption. lra. }
  set (q := INR dim * g0 * c * t) in *.
  assert (Q : 0 < q) by (unfold q; rewrite Rmult_assoc; apply Rmult_lt_0_compat; [now apply Rmult_lt_0_compat|assumption]).
  assert (X : 0 < sqrt (q / 4)) by (apply sqrt_lt_R0; lra).
  destruct (inside_bounds dim _ D X) as [[A B] C]. rewrite <- EE in A, B, C.
  assert (L : exp (- sqrt (q / 4) ^ 2) = lost). { unfold lost. f_equal. f_equal. cbn. rewrite Rmult_1_r. apply sqrt_sqrt. lra. }
  rewrite L in A, C. split; [exact B|]. split; [|exact C].
  assert (S : 2 / sqrt PI * sqrt (q / 4) = sqrt (q / PI)).
  { pose proof PI_RGT_0 as P. pose proof (sqrt_lt_R0 _ P) as SP.
    rewrite (sqrt_div q 4), (sqrt_div q PI) by lra. replace (sqrt 4) with 2; [field; lra|].
    replace 4 with (2 * 2) by ring. symmetry. apply sqrt_square. lra. }
  rewrite S in A. exact A.
Qed.

Lemma front_late dim c g0 : dimension dim -> 0 < c -> 0 < g0 ->
  filterlim (fun t => RInt (fun r => surface dim r * ok_value (G_scalar (diff_type dim) r t c g0)) 0 (c * t))
    (Rbar_locally p_infty) (locally 1).
Proof.
  intros D Hc Hg. assert (D1 : (1 <= dim)%nat) by (destruct D as [->|[->| ->]]; lia). assert (N : 0 < INR dim) by (apply lt_0_INR; lia).
  apply (filterlim_ext_loc (fun t => inside dim (sqrt (INR dim * g0 * c * t / 4)))).
  { exists 0. intros t Ht. symmetry. rewrite <- front_place by assumption. apply is_RInt_unique. apply front_inside; try assumption.
    split; [|lra]. left. now apply Rmult_lt_0_compat. }
  apply inside_tends; [exact D|]. intros P [M H]. set (q := INR dim * g0 * c / 4).
  assert (Q : 0 < q) by (unfold q; apply Rdiv_lt_0_compat; [|lra]; apply Rmult_lt_0_compat; [now apply Rmult_lt_0_compat|assumption]).
  exists (Rmax 0 (M ^ 2 / q)). intros t T. assert (T1 := Rle_lt_trans _ _ _ (Rmax_l _ _) T). assert (T2 := Rle_lt_trans _ _ _ (Rmax_r _ _) T).
  apply H. apply Rle_lt_trans with (Rabs M); [apply Rle_abs|]. rewrite <- sqrt_Rsqr_abs. apply sqrt_lt_1_alt. split; [apply Rle_0_sqr|].
  apply (Rmult_lt_compat_r q) in T2; [|exact Q]. replace (M ^ 2 / q * q) with (Rsqr M) in T2 by (unfold Rsqr; field; lra).
  replace (INR dim * g0 * c * t / 4) with (t * q) by (unfold q; field). exact T2.
Qed.

(** ** one dimension: energy of the coda *)
Lemma front_1d t c g0 : 0 < c -> 0 < g0 -> 0 < t ->
  let E := RInt (fun r => 2 * ok_value (G_scalar "diff1d" r t c g0)) 0 (c * t) in
  1 - exp (- (g0 * c * t / 4)) <= E ^ 2 <= 1 - 2 * rt1d_direct t c g0.
Proof.
  intros Hc Hg Ht E. assert (0 < c * t) by (apply Rmult_lt_0_compat; assumption).
  assert (D : dimension 1) by now left.
  assert (EE : E = erf (sqrt (INR 1 * g0 * c * t / 4))).
  { unfold E. rewrite <- front_place by assumption. apply is_RInt_unique. apply (front_inside 1); try assumption. lra. }
  rewrite EE. change (INR 1) with 1.
  assert (0 < g0 * (c * t)) by now apply Rmult_lt_0_compat.
  assert (S : sqrt (1 * g0 * c * t / 4) ^ 2 = g0 * c * t / 4). { cbn. rewrite Rmult_1_r, sqrt_sqrt; lra. }
  destruct (erf_square (sqrt (1 * g0 * c * t / 4))) as [A B]. rewrite S in A, B. split; [exact A|].
  replace (2 * rt1d_direct t c g0) with (exp (- (2 * (g0 * c * t / 4)))); [exact B|].
  unfold rt1d_direct. cbv zeta. replace (- c * t / 2 / (1 / g0)) with (- (2 * (g0 * c * t / 4))) by (field; lra). field.
Qed.
