(** Lemmas on the mean square of the distance of the approximation of 3D radiative transfer (C129). *)
From Coq Require Import String List Bool Reals Lra Lia Arith.
From Coquelicot Require Import Coquelicot.
From Verif Require Import Base RtModel RtSpec GaussProof DiffuSpec DiffuProof Rt3Proof SpreadSpec SpreadProof2.
Import ListNotations.
Open Scope R_scope.

Definition h2 (t r : R) : R := r ^ 2 * hh t r.
Definition d2 (t r : R) : R := r ^ 2 * dk t r.

Lemma h2_int t a b : 0 <= a <= b -> b < t -> ex_RInt (h2 t) a b.
Proof.
  intros A B. apply (@ex_RInt_continuous R_CompleteNormedModule). rewrite Rmin_left, Rmax_right by lra. intros r R1.
  apply (continuous_mult (fun r => r ^ 2) (hh t)); [|apply hh_cont; lra].
  apply (@ex_derive_continuous R_AbsRing R_NormedModule). auto_derive. trivial.
Qed.

Lemma h2_nonneg t r : 0 <= r < t -> 0 <= h2 t r.
Proof. intros H. apply Rmult_le_pos; [apply pow2_ge_0|now apply hh_nonneg]. Qed.

Lemma d2_int t rho : 0 < t -> is_RInt (d2 t) 0 rho (2 * t * (inside 3 (rho * sqrt (3 / (4 * t))) - rho * dk t rho / 3)).
Proof.
  intros T. pose proof (diff_second 3 t 1 1 ltac:(right; right; reflexivity) ltac:(lra) ltac:(lra) T rho) as D.
  replace (INR 3 * 1 / (4 * 1 * t)) with (3 / (4 * t)) in D by (replace (INR 3) with 3 by (cbn; lra); f_equal; ring).
  replace (INR 3) with 3 in D by (cbn; lra).
  replace (rho * surface 3 rho * diff 3 rho t 1 1) with (rho * dk t rho) in D by (unfold dk; ring).
  replace (2 * 1 * t / 1) with (2 * t) in D by field. exact D.
Qed.

Lemma dk_nonneg t r : 0 < t -> 0 <= dk t r.
Proof.
  intros T. rewrite dk_eq by exact T. apply Rmult_le_pos; [|left; apply Rinv_0_lt_compat, exp_pos].
  apply Rmult_le_pos; [|left; apply exp_pos]. pose proof PI_RGT_0. pose proof (pow2_ge_0 r). apply Rmult_le_pos; lra.
Qed.

Lemma second_near t a : 0 < t -> 0 <= a <= t / 2 -> RInt (h2 t) 0 a <= 2 * t * (1 + 2 / t).
Proof.
  intros T A. assert (IT : 0 < / t) by now apply Rinv_0_lt_compat.
  apply Rle_trans with ((1 + 2 / t) * (2 * t * (inside 3 (a * sqrt (3 / (4 * t))) - a * dk t a / 3))).
  - apply (is_RInt_le (h2 t) (fun r => (1 + 2 / t) * d2 t r) 0 a); [lra|apply (@RInt_correct R_CompleteNormedModule), h2_int; lra| |].
    + apply (@is_RInt_scal R_NormedModule). now apply d2_int.
    + intros r R1. unfold h2, d2. rewrite (Rmult_comm (1 + 2 / t)), Rmult_assoc. apply Rmult_le_compat_l; [apply pow2_ge_0|].
      rewrite Rmult_comm. apply hh_near; lra.
  - replace (2 * t * (1 + 2 / t)) with ((1 + 2 / t) * (2 * t)) by ring. apply Rmult_le_compat_l; [unfold Rdiv; lra|]. rewrite <- (Rmult_1_r (2 * t)) at 2.
    apply Rmult_le_compat_l; [lra|]. assert (0 <= a * dk t a) by (apply Rmult_le_pos; [lra|now apply dk_nonneg]).
    assert (inside 3 (a * sqrt (3 / (4 * t))) <= 1); [|lra].
    destruct (Rle_lt_or_eq_dec 0 a ltac:(lra)) as [L|<-].
    + left. apply inside_bounds; [right; right; reflexivity|]. apply Rmult_lt_0_compat; [exact L|]. apply sqrt_lt_R0. apply Rdiv_lt_0_compat; lra.
    + rewrite Rmult_0_l. unfold inside. cbv zeta. rewrite RInt_point. unfold zero; cbn -[pow]. lra.
Qed.

Lemma exp_fifth t : 0 < t -> exp (- (3 * t / 16)) <= (80 / 3) ^ 5 / t ^ 5.
Proof.
  intros T. rewrite exp_Ropp. replace ((80 / 3) ^ 5 / t ^ 5) with (/ ((3 * t / 80) ^ 5)) by (field; lra). apply Rinv_le_contravar; [apply pow_lt; lra|].
  replace (3 * t / 16) with (3 * t / 80 + 3 * t / 80 + 3 * t / 80 + 3 * t / 80 + 3 * t / 80) by field. rewrite !exp_plus. set (e := exp (3 * t / 80)).
  assert (3 * t / 80 <= e) by (pose proof (exp_ineq1 (3 * t / 80) ltac:(lra)); unfold e; lra).
  replace (e * e * e * e * e) with (e ^ 5) by ring. apply pow_incr. lra.
Qed.

Lemma second_far t rho : 1 <= t -> t / 2 <= rho < t -> 0 <= RInt (h2 t) (t / 2) rho <= 2 * t * ((80 / 3) ^ 5 * (4 / 3) / t).
Proof.
  intros T1 H. assert (T : 0 < t) by lra. split.
  { apply RInt_ge_0; [lra|apply h2_int; lra|]. intros r R1. apply h2_nonneg. lra. }
  destruct (far_energy t (t / 2) rho ltac:(lra) ltac:(lra)) as [B0 B].
  apply Rle_trans with (t ^ 2 * RInt (hh t) (t / 2) rho).
  { apply (is_RInt_le (h2 t) (fun r => t ^ 2 * hh t r) (t / 2) rho); [lra|apply (@RInt_correct R_CompleteNormedModule), h2_int; lra| |].
    - apply (@is_RInt_scal R_NormedModule). apply (@RInt_correct R_CompleteNormedModule), hh_int; lra.
    - intros r R1. unfold h2. apply Rmult_le_compat_r; [apply hh_nonneg; lra|]. apply pow_incr. lra. }
  apply Rle_trans with (t ^ 2 * (8 / 3 * PI * t ^ 3 * sqrt (1 + KK / t) * exp (- (3 / 4 * ((t / 2) ^ 2 / t))) / NN t)).
  { apply Rmult_le_compat_l; [apply pow2_ge_0|exact B]. }
  replace (- (3 / 4 * ((t / 2) ^ 2 / t))) with (- (3 * t / 16)) by (field; lra).
  pose proof PI_RGT_0 as P. pose proof PI_4 as P4. assert (N0 : 0 < NN t) by apply exp_pos. assert (NL := NN_lower t T). assert (X := exp_fifth t T).
  assert (S : 1 <= sqrt t) by (rewrite <- sqrt_1; apply sqrt_le_1_alt; lra).
  assert (Q : sqrt (1 + KK / t) <= 2).
  { replace 2 with (sqrt (2 * 2)) by (apply sqrt_square; lra). apply sqrt_le_1_alt. unfold KK, Rdiv. assert (/ t <= 1) by (rewrite <- Rinv_1; apply Rinv_le_contravar; lra). lra. }
  assert (0 < t ^ 3) as T3 by (apply pow_lt, T). pose proof (exp_pos (- (3 * t / 16))) as X0. pose proof (sqrt_pos (1 + KK / t)) as Q0.
  assert (IN : / NN t <= / (8 * t)) by (apply Rinv_le_contravar; nra). assert (IN0 : 0 < / NN t) by now apply Rinv_0_lt_compat.
  apply Rle_trans with (t ^ 2 * (8 / 3 * 4 * t ^ 3 * 2 * ((80 / 3) ^ 5 / t ^ 5) * / (8 * t))).
  - apply Rmult_le_compat_l; [apply pow2_ge_0|]. unfold Rdiv at 1. apply Rmult_le_compat; [|lra| |exact IN].
    + apply Rmult_le_pos; [|lra]. apply Rmult_le_pos; [|exact Q0]. apply Rmult_le_pos; [|lra]. lra.
    + apply Rmult_le_compat; [|lra| |exact X].
      * apply Rmult_le_pos; [|exact Q0]. apply Rmult_le_pos; lra.
      * apply Rmult_le_compat; [apply Rmult_le_pos; lra|exact Q0| |exact Q]. apply Rmult_le_compat_r; lra.
  - set (k := (80 / 3) ^ 5). assert (0 < k) by (apply pow_lt; lra). 
    apply Rle_trans with (8 / 3 * k * / t); [right; field; lra|].
    apply Rle_trans with (8 / 3 * k); [|right; field; lra]. rewrite <- (Rmult_1_r (8 / 3 * k)) at 2.
    apply Rmult_le_compat_l; [lra|]. rewrite <- Rinv_1. apply Rinv_le_contravar; lra.
Qed.

Lemma second_above t rho : 1 <= t -> t / 2 <= rho < t -> RInt (h2 t) 0 rho <= 2 * t * (1 + (2 + (80 / 3) ^ 5 * (4 / 3)) / t).
Proof.
  intros T1 H. rewrite <- (RInt_Chasles (h2 t) 0 (t / 2) rho) by (apply h2_int; lra).
  change (RInt (h2 t) 0 (t / 2) + RInt (h2 t) (t / 2) rho <= 2 * t * (1 + (2 + (80 / 3) ^ 5 * (4 / 3)) / t)).
  assert (A := second_near t (t / 2) ltac:(lra) ltac:(lra)). destruct (second_far t rho T1 H) as [_ B].
  set (k := (80 / 3) ^ 5 * (4 / 3)) in *. replace (2 * t * (1 + (2 + k) / t)) with (2 * t * (1 + 2 / t) + 2 * t * (k / t)) by (field; lra). lra.
Qed.

Lemma second_below0 t a b : 0 <= a <= b -> b < t ->
  (1 - a ^ 2 / t ^ 2) * exp (- (3 / 2 * (a ^ 4 / t ^ 3))) * (2 * t * (inside 3 (a * sqrt (3 / (4 * t))) - a * dk t a / 3)) <= RInt (h2 t) 0 b.
Proof.
  intros A B. assert (T : 0 < t) by lra. apply Rle_trans with (RInt (h2 t) 0 a).
  - set (k := (1 - a ^ 2 / t ^ 2) * exp (- (3 / 2 * (a ^ 4 / t ^ 3)))).
    apply (is_RInt_le (fun r => k * d2 t r) (h2 t) 0 a); [lra| |apply (@RInt_correct R_CompleteNormedModule), h2_int; lra|].
    + apply (@is_RInt_scal R_NormedModule). now apply d2_int.
    + intros r R1. unfold h2, d2. replace (k * (r ^ 2 * dk t r)) with (r ^ 2 * (k * dk t r)) by ring.
      apply Rmult_le_compat_l; [apply pow2_ge_0|]. apply hh_below; lra.
  - rewrite <- (RInt_Chasles (h2 t) 0 a b) by (apply h2_int; lra).
    assert (0 <= RInt (h2 t) a b). { apply RInt_ge_0; [lra|apply h2_int; lra|]. intros r R1. apply h2_nonneg. lra. }
    change (RInt (h2 t) 0 a <= RInt (h2 t) 0 a + RInt (h2 t) a b). lra.
Qed.

Lemma edge3 t l : 0 < t -> 0 < l -> l * sqrt t * dk t (l * sqrt t) / 3 <= 8 / l.
Proof.
  intros T L. rewrite dk_eq by exact T. rewrite NN_eq by exact T. pose proof PI_RGT_0 as P. assert (P3 : 3 <= PI) by (pose proof PI2_3_2; lra).
  assert (S := sqrt_lt_R0 _ T). assert (SS := sqrt_sqrt t ltac:(lra)).
  assert (W : 0 < 4 * PI / 3) by lra. assert (WS := sqrt_lt_R0 _ W).
  assert (W2 : 2 <= sqrt (4 * PI / 3)). { replace 2 with (sqrt (2 * 2)) by (apply sqrt_square; lra). apply sqrt_le_1_alt. lra. }
  replace (4 * PI * t / 3) with (4 * PI / 3 * t) by field. rewrite sqrt_mult by lra.
  replace ((l * sqrt t) ^ 2) with (l ^ 2 * t) by (rewrite Rpow_mult_distr; f_equal; rewrite <- SS at 1; ring).
  replace (l ^ 2 * t / t) with (l ^ 2) by (field; lra).
  set (e := exp (- (3 / 4 * l ^ 2))). set (w := sqrt (4 * PI / 3)) in *. set (s := sqrt t) in *.
  assert (L2 : 0 < l ^ 2) by (apply pow_lt, L).
  assert (E0 : 0 < e) by apply exp_pos.
  assert (E : e <= 4 / (3 / 4 * l ^ 2) ^ 2).
  { unfold e. rewrite exp_Ropp. set (y := 3 / 4 * l ^ 2). assert (Y : 0 < y) by (unfold y; lra).
    replace (4 / y ^ 2) with (/ (y ^ 2 / 4)) by (field; lra).
    apply Rinv_le_contravar; [pose proof (pow_lt _ 2 Y); lra|].
    replace (exp y) with (exp (y / 2 + y / 2)) by (f_equal; field). rewrite exp_plus. pose proof (exp_ineq1 (y / 2) ltac:(lra)). nra. }
  replace (l * s * (4 * PI * (l ^ 2 * t) * e / (4 * PI / 3 * t * (w * s))) / 3) with (l ^ 3 * e * / w) by (field; lra).
  apply Rle_trans with (l ^ 3 * (4 / (3 / 4 * l ^ 2) ^ 2) * / 2).
  - assert (L3 : 0 < l ^ 3) by (apply pow_lt, L). apply Rmult_le_compat; [apply Rmult_le_pos; lra|left; now apply Rinv_0_lt_compat| |].
    + apply Rmult_le_compat_l; lra.
    + apply Rinv_le_contravar; lra.
  - replace (l ^ 3 * (4 / (3 / 4 * l ^ 2) ^ 2) * / 2) with (32 / 9 * / l) by (field; lra). unfold Rdiv. assert (0 < / l) by now apply Rinv_0_lt_compat. lra.
Qed.

Lemma second_below t rho l : 2 <= l -> 4 * l ^ 4 <= t -> t / 2 <= rho < t -> 2 * t * (1 - 3 * l ^ 4 / t - 14 / l) <= RInt (h2 t) 0 rho.
Proof.
  intros L T4 H. assert (L2 : 4 <= l ^ 2) by nra. assert (L4 : l ^ 4 = l ^ 2 * l ^ 2) by ring. assert (16 <= l ^ 4) by nra.
  assert (T : 0 < t) by lra. set (a := l * sqrt t). assert (S := sqrt_lt_R0 _ T). assert (SS := sqrt_sqrt t ltac:(lra)).
  assert (A2 : a ^ 2 = l ^ 2 * t) by (unfold a; rewrite Rpow_mult_distr; f_equal; rewrite <- SS at 2; ring).
  assert (A0 : 0 < a) by (unfold a; apply Rmult_lt_0_compat; lra).
  assert (A : a <= t / 2). { destruct (Rle_dec a (t / 2)) as [?|N]; [assumption|exfalso]. assert (t / 2 * (t / 2) < a ^ 2) by nra. rewrite A2 in *. nra. }
  assert (B := second_below0 t a rho ltac:(lra) ltac:(lra)).
  assert (NN0 : 0 <= RInt (h2 t) 0 rho). { apply RInt_ge_0; [lra|apply h2_int; lra|]. intros r R1. apply h2_nonneg. lra. }
  assert (G := edge3 t l T ltac:(lra)). fold a in G. assert (G0 : 0 <= a * dk t a) by (apply Rmult_le_pos; [lra|now apply dk_nonneg]).
  replace (a ^ 2 / t ^ 2) with (l ^ 2 / t) in B by (rewrite A2; field; lra).
  replace (a ^ 4 / t ^ 3) with (l ^ 4 / t) in B by (replace (a ^ 4) with (a ^ 2 * a ^ 2) by ring; rewrite A2; field; lra).
  assert (X : a * sqrt (3 / (4 * t)) = l * sqrt (3 / 4)).
  { unfold a. rewrite Rmult_assoc. f_equal. rewrite <- sqrt_mult_alt by lra. f_equal. field. lra. }
  rewrite X in B. assert (Q : 1 / 2 <= sqrt (3 / 4)). { rewrite <- (sqrt_Rsqr (1 / 2)) by lra. apply sqrt_le_1_alt. unfold Rsqr. lra. }
  assert (X1 : l / 2 <= l * sqrt (3 / 4)) by nra.
  destruct (inside_late 3 (l * sqrt (3 / 4)) ltac:(right; right; reflexivity) ltac:(lra)) as [I J].
  assert (I2 : 3 / (l * sqrt (3 / 4)) <= 6 / l).
  { replace (6 / l) with (3 * / (l / 2)) by (field; lra). apply Rmult_le_compat_l; [lra|]. apply Rinv_le_contravar; lra. }
  set (i := inside 3 (l * sqrt (3 / 4))) in *.
  assert (IT : 0 < / t) by now apply Rinv_0_lt_compat.
  assert (U : l ^ 4 / t <= 1 / 4). { apply (Rmult_le_reg_r t); [exact T|]. unfold Rdiv at 1. rewrite Rmult_assoc, Rinv_l by lra. lra. }
  assert (U0 : l ^ 2 / t <= l ^ 4 / t) by (unfold Rdiv; apply Rmult_le_compat_r; nra).
  assert (V0 : 0 < l ^ 2 / t) by (apply Rdiv_lt_0_compat; lra).
  pose proof (exp_ineq1_le (- (3 / 2 * (l ^ 4 / t)))) as E. set (e := exp (- (3 / 2 * (l ^ 4 / t)))) in *.
  assert (E1 : e <= 1). { unfold e. rewrite <- exp_0. apply exp_mono. lra. }
  assert (E0 : 0 < e) by apply exp_pos.
  set (u := l ^ 4 / t) in *. set (v := l ^ 2 / t) in *. replace (3 * l ^ 4 / t) with (3 * u) by (unfold u; field; lra).
  assert (W : 0 < / l) by (apply Rinv_0_lt_compat; lra). unfold Rdiv in I2, G. unfold Rdiv. set (w := / l) in *.
  set (y := i - a * dk t a * / 3). replace (i - a * dk t a / 3) with y in B by reflexivity.
  assert (Y : 1 - 14 * w <= y) by (unfold y; lra).
  assert (VE : 1 - u - 3 / 2 * u <= (1 - v) * e) by nra.
  assert (VE1 : 0 < (1 - v) * e <= 1) by nra.
  destruct (Rle_dec 0 (1 - 14 * w)) as [P|N].
  - eapply Rle_trans; [|exact B].
    replace ((1 - v) * e * (2 * t * y)) with (2 * t * ((1 - v) * e * y)) by ring. apply Rmult_le_compat_l; [lra|].
    assert ((1 - v) * e * (1 - 14 * w) <= (1 - v) * e * y) by (apply Rmult_le_compat_l; lra). nra.
  - assert (0 <= u) by lra. apply Rle_trans with 0; [|exact NN0]. assert (1 - 3 * u - 14 * w <= 0) by lra. nra.
Qed.

(** ** the Green's function *)
Lemma coda_second t c g0 rho : 0 < c -> 0 < g0 -> 0 < t -> 0 <= rho < c * t ->
  is_RInt (fun r => r ^ 2 * (4 * PI * r ^ 2 * ok_value (G_scalar "rt3d" r t c g0))) 0 rho (/ g0 ^ 2 * RInt (h2 (t * c * g0)) 0 (rho * g0)).
Proof.
  intros Hc Hg Ht H. set (s := t * c * g0). assert (ST : rho * g0 < s) by (unfold s; nra).
  apply (is_RInt_ext (fun r => scal (/ g0 ^ 2) (scal g0 (h2 s (g0 * r + 0))))).
  - rewrite Rmin_left, Rmax_right by lra. intros r R1. r_eq. unfold G_scalar. destruct (Rlt_dec (t - r / c) 0) as [L|_].
    { exfalso. apply (Rmult_lt_compat_r c) in L; [|assumption]. replace ((t - r / c) * c) with (c * t - r) in L by (field; lra). lra. }
    change (/ g0 ^ 2 * (g0 * h2 s (g0 * r + 0)) = r ^ 2 * (4 * PI * r ^ 2 * rt3d_coda r t c g0)). unfold h2, hh, rt3d_coda. fold s.
    replace (g0 * r + 0) with (r * g0) by ring. field. lra.
  - apply (@is_RInt_scal R_NormedModule). apply (@is_RInt_comp_lin R_NormedModule (h2 s) g0 0 0 rho).
    replace (g0 * 0 + 0) with 0 by ring. replace (g0 * rho + 0) with (rho * g0) by ring.
    apply (@RInt_correct R_CompleteNormedModule), h2_int; [|exact ST]. split; [lra|]. apply Rmult_le_pos; lra.
Qed.

Lemma rt3d_second_late eps : 0 < eps -> exists T, forall t c g0 rho, 0 < c -> 0 < g0 -> 0 < t -> T < c * t * g0 -> c * t / 2 <= rho < c * t ->
  let M := RInt (fun r => r ^ 2 * (4 * PI * r ^ 2 * ok_value (G_scalar "rt3d" r t c g0))) 0 rho
           + (c * t) ^ 2 * (4 * PI * (c * t) ^ 2 * rt3d_direct t c g0) in
  Rabs (M / (2 * c * t / g0) - 1) < eps.
Proof.
  intros He. set (l := 2 + 28 / eps). assert (IE : 0 < / eps) by now apply Rinv_0_lt_compat.
  assert (L : 2 <= l) by (unfold l, Rdiv; lra). assert (L4 : 0 < l ^ 4) by (apply pow_lt; lra).
  set (k := 2 + (80 / 3) ^ 5 * (4 / 3)). assert (K0 : 0 < k) by (unfold k; pose proof (pow_lt (80 / 3) 5 ltac:(lra)); lra).
  exists (1 + (k + 2) / eps + 4 * l ^ 4 + 6 * l ^ 4 / eps). intros t c g0 rho Hc Hg Ht HT H M.
  assert (P1 : 0 < (k + 2) / eps) by (apply Rdiv_lt_0_compat; lra). assert (P2 : 0 < 6 * l ^ 4 / eps) by (apply Rdiv_lt_0_compat; lra).
  assert (CT : 0 < c * t) by now apply Rmult_lt_0_compat.
  assert (EE := coda_second t c g0 rho Hc Hg Ht ltac:(lra)). apply (@is_RInt_unique R_CompleteNormedModule) in EE. unfold M. clear M.
  match type of EE with ?x = _ => set (E := x) in * end. change (@eq R E (/ g0 ^ 2 * RInt (h2 (t * c * g0)) 0 (rho * g0))) in EE.
  rewrite direct_energy by assumption. set (s := t * c * g0) in *. replace (c * t * g0) with s in HT by (unfold s; ring).
  assert (R1 : s / 2 <= rho * g0 < s) by (unfold s; split; nra). assert (S1 : 1 < s) by lra.
  assert (A := second_above s (rho * g0) ltac:(lra) R1). assert (B := second_below s (rho * g0) l L ltac:(lra) R1). fold k in A.
  set (I := RInt (h2 s) 0 (rho * g0)) in *.
  assert (X : s ^ 2 * exp (- s) <= 4).
  { replace s with (s / 2 + s / 2) at 2 by field. rewrite Ropp_plus_distr, exp_plus, exp_Ropp. pose proof (exp_ineq1_le (s / 2)) as Y. set (y := exp (s / 2)) in *.
    assert (0 < y) by lra. assert (0 < / y) by (now apply Rinv_0_lt_compat). apply Rle_trans with ((2 * y) ^ 2 * (/ y * / y)); [|right; field; lra].
    apply Rmult_le_compat_r; [apply Rmult_le_pos; lra|]. apply pow_incr. lra. }
  pose proof (exp_pos (- s)) as X0. assert (S2 : 0 < s ^ 2) by nra.
  assert (V : (E + (c * t) ^ 2 * exp (- s)) / (2 * c * t / g0) = (I + s ^ 2 * exp (- s)) / (2 * s)).
  { rewrite EE. set (e := exp (- s)). clearbody e I. unfold s. field. repeat split; lra. }
  rewrite V. assert (D0 : 0 <= s ^ 2 * exp (- s)) by (apply Rmult_le_pos; lra). set (d := s ^ 2 * exp (- s)) in *.
  assert (IS : 0 < / s) by (apply Rinv_0_lt_compat; lra).
  assert (U1 : (I + d) / (2 * s) <= 1 + (k + 2) / s).
  { apply (Rmult_le_reg_r (2 * s)); [lra|]. replace ((I + d) / (2 * s) * (2 * s)) with (I + d) by (field; lra).
    replace ((1 + (k + 2) / s) * (2 * s)) with (2 * s * (1 + k / s) + 4) by (field; lra). lra. }
  assert (U2 : 1 - 3 * l ^ 4 / s - 14 / l <= (I + d) / (2 * s)).
  { apply (Rmult_le_reg_r (2 * s)); [lra|]. replace ((I + d) / (2 * s) * (2 * s)) with (I + d) by (field; lra).
    rewrite (Rmult_comm _ (2 * s)). lra. }
  assert (F : forall a, 0 < a -> a / eps < s -> a / s < eps).
  { intros a A0 AS. apply (Rmult_lt_reg_r s); [lra|]. unfold Rdiv. rewrite Rmult_assoc, Rinv_l by lra.
    apply (Rmult_lt_compat_r eps) in AS; [|exact He]. unfold Rdiv in AS. rewrite Rmult_assoc, Rinv_l in AS by lra. lra. }
  assert (F1 := F (k + 2) ltac:(lra) ltac:(lra)). assert (F2 := F (6 * l ^ 4) ltac:(lra) ltac:(lra)).
  assert (F3 : 14 / l < eps / 2).
  { apply (Rmult_lt_reg_r l); [lra|]. unfold Rdiv at 1. rewrite Rmult_assoc, Rinv_l by lra. unfold l. replace (eps / 2 * (2 + 28 / eps)) with (eps + 14) by (field; lra). lra. }
  replace (3 * l ^ 4 / s) with (6 * l ^ 4 / s / 2) in U2 by (field; lra).
  apply Rabs_def1; lra.
Qed.
