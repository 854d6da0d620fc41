(** Lemmas on the mean square of the distance of the solutions of the diffusion equation (C129). *)
From Coq Require Import String List Bool Reals Lra Lia Arith.
From Coquelicot Require Import Coquelicot.
From Verif Require Import Base RtModel RtSpec GaussProof DiffuSpec DiffuProof SpreadSpec SpreadProof.
Import ListNotations.
Open Scope R_scope.

Lemma surface_pow dim : dimension dim -> exists C, 0 < C /\ forall r, surface dim r * r = C * r ^ dim.
Proof.
  pose proof PI_RGT_0. intros [->|[->| ->]]; cbn [surface].
  - exists 2. split; [lra|]. intros r. ring.
  - exists (2 * PI). split; [lra|]. intros r. ring.
  - exists (4 * PI). split; [lra|]. intros r. ring.
Qed.

Lemma surface_pow1 dim : dimension dim -> exists C, forall r, surface dim r * r = C * r ^ dim /\ surface dim r * INR dim = C * (INR dim * r ^ pred dim).
Proof.
  intros [->|[->| ->]]; cbn [surface].
  - exists 2. intros r. cbn. split; ring.
  - exists (2 * PI). intros r. cbn. split; ring.
  - exists (4 * PI). intros r. cbn. split; ring.
Qed.

Section D.
Variables (dim : nat) (t c g0 : R).
Hypothesis D : dimension dim.
Hypothesis Hc : 0 < c.
Hypothesis Hg : 0 < g0.
Hypothesis Ht : 0 < t.
Let k := INR dim * g0 / (4 * c * t).
Let A := Rpower (PI / k) (- INR dim / 2).

Lemma D1 : (1 <= dim)%nat.
Proof. destruct D as [->|[->| ->]]; lia. Qed.

Lemma kp : 0 < k.
Proof. apply (diff_kernel dim 0 t c g0 D1 Hc Hg Ht). Qed.

Lemma kf r : diff dim r t c g0 = A * exp (- (k * r ^ 2)).
Proof. apply (diff_kernel dim r t c g0 D1 Hc Hg Ht). Qed.

Lemma diff_second rho :
  is_RInt (fun r => r ^ 2 * (surface dim r * diff dim r t c g0)) 0 rho
    (2 * c * t / g0 * (inside dim (rho * sqrt k) - rho * surface dim rho * diff dim rho t c g0 / INR dim)).
Proof.
  assert (K := kp). destruct (surface_pow1 dim D) as [C HC]. assert (ND : 0 < INR dim) by (apply lt_0_INR; pose proof D1; lia).
  assert (0 < c * t) as CT by (apply Rmult_lt_0_compat; assumption).
  set (F := fun r => C * r ^ dim * (A * exp (- (k * r ^ 2)))).
  assert (I : is_RInt (fun r => INR dim * (surface dim r * diff dim r t c g0) - 2 * k * (r ^ 2 * (surface dim r * diff dim r t c g0))) 0 rho
               (minus (F rho) (F 0))).
  { apply (is_RInt_ext (fun r => C * (INR dim * r ^ pred dim) * (A * exp (- (k * r ^ 2))) - C * r ^ dim * (A * (2 * k * r * exp (- (k * r ^ 2)))))).
    { intros r _. r_eq. rewrite kf. destruct (HC r) as [H1 H2]. rewrite <- H1, <- H2. ring. }
    apply (@is_RInt_derive R_CompleteNormedModule F).
    - intros r _. unfold F. auto_derive; [trivial|]. replace (r * (r * 1)) with (r ^ 2) by ring.
      destruct dim as [|n]; cbn -[INR pow]; ring.
    - intros r _. apply (@ex_derive_continuous R_AbsRing R_NormedModule). auto_derive. trivial. }
  pose proof (diff_inside dim t c g0 rho D Hc Hg Ht) as J. fold k in J.
  pose proof (is_RInt_minus _ _ _ _ _ _ (is_RInt_scal _ _ _ (INR dim) _ J) I) as S. apply (is_RInt_scal _ _ _ (/ (2 * k))) in S.
  match type of S with is_RInt _ _ _ ?v => match goal with |- is_RInt _ _ _ ?w => replace w with v end end.
  - revert S. apply is_RInt_ext. intros r _. unfold scal, minus, plus, opp; cbn -[pow surface INR]; unfold mult; cbn -[pow surface INR]. r_eq. field. lra.
  - unfold scal, minus, plus, opp; cbn -[pow surface INR]; unfold mult; cbn -[pow surface INR].
    assert (Z : F 0 = 0). { unfold F. rewrite pow_i by (pose proof D1; lia). ring. }
    assert (Fr : F rho = rho * surface dim rho * diff dim rho t c g0). { unfold F. rewrite kf. destruct (HC rho) as [H1 _]. rewrite <- H1. ring. }
    rewrite Z, Fr. unfold k at 1. field. repeat split; lra.
Qed.

Lemma edge_late : filterlim (fun rho => rho * surface dim rho * diff dim rho t c g0) (Rbar_locally p_infty) (locally 0).
Proof.
  assert (K := kp). destruct (surface_pow dim D) as [C [CP HC]].
  assert (AP : 0 < A) by apply exp_pos.
  intros P [eps H]. pose proof (cond_pos eps) as EP. unfold filtermap. set (M := C * A * (4 / k ^ 2)).
  assert (MP : 0 < M). { unfold M. apply Rmult_lt_0_compat; [now apply Rmult_lt_0_compat|]. apply Rdiv_lt_0_compat; [lra|now apply pow_lt]. }
  exists (Rmax 1 (M / eps)). intros r X. assert (X1 := Rle_lt_trans _ _ _ (Rmax_l _ _) X). assert (X2 := Rle_lt_trans _ _ _ (Rmax_r _ _) X).
  apply H. rewrite kf. replace (r * surface dim r) with (C * r ^ dim) by (rewrite <- HC; ring).
  assert (R0 : 0 < r ^ dim) by (apply pow_lt; lra). pose proof (exp_pos (- (k * r ^ 2))) as E0.
  assert (V : 0 < C * r ^ dim * (A * exp (- (k * r ^ 2)))) by (apply Rmult_lt_0_compat; apply Rmult_lt_0_compat; assumption).
  change (Rabs (C * r ^ dim * (A * exp (- (k * r ^ 2))) - 0) < eps). rewrite Rabs_pos_eq by lra. rewrite Rminus_0_r.
  assert (RD : r ^ dim <= r ^ 3). { apply Rle_pow; [lra|]. destruct D as [->|[->| ->]]; lia. }
  assert (KR : 0 < k * r ^ 2) by (apply Rmult_lt_0_compat; [assumption|apply pow_lt; lra]).
  assert (EE : exp (- (k * r ^ 2)) <= 4 / (k * r ^ 2) ^ 2).
  { rewrite exp_Ropp. replace (4 / (k * r ^ 2) ^ 2) with (/ ((k * r ^ 2) ^ 2 / 4)) by (field; split; lra).
    apply Rinv_le_contravar; [pose proof (pow_lt _ 2 KR); lra|]. set (y := k * r ^ 2) in *.
    replace y with (y / 2 + y / 2) at 2 by field. rewrite exp_plus. pose proof (exp_ineq1 (y / 2) ltac:(lra)). nra. }
  apply Rle_lt_trans with (C * r ^ 3 * (A * (4 / (k * r ^ 2) ^ 2))).
  { apply Rmult_le_compat; [apply Rmult_le_pos; lra|apply Rmult_le_pos; lra| |]; apply Rmult_le_compat_l; lra. }
  replace (C * r ^ 3 * (A * (4 / (k * r ^ 2) ^ 2))) with (M / r) by (unfold M; field; lra).
  apply (Rmult_lt_reg_r r); [lra|]. unfold Rdiv. rewrite Rmult_assoc, Rinv_l by lra.
  apply (Rmult_lt_compat_r eps) in X2; [|exact EP]. unfold Rdiv in X2. rewrite Rmult_assoc, Rinv_l in X2 by lra. lra.
Qed.

Lemma diff_second_all :
  filterlim (fun rho => RInt (fun r => r ^ 2 * (surface dim r * diff dim r t c g0)) 0 rho) (Rbar_locally p_infty) (locally (2 * c * t / g0)).
Proof.
  assert (K := sqrt_lt_R0 _ kp). assert (ND : 0 < INR dim) by (apply lt_0_INR; pose proof D1; lia).
  apply (filterlim_ext (fun rho => 2 * c * t / g0 * (inside dim (rho * sqrt k) - rho * surface dim rho * diff dim rho t c g0 / INR dim))).
  { intros rho. symmetry. apply is_RInt_unique, diff_second. }
  assert (I : is_lim (fun rho => inside dim (rho * sqrt k)) p_infty 1).
  { apply (inside_tends dim (fun rho => rho * sqrt k)); [exact D|]. intros P [M H]. unfold filtermap. exists (M / sqrt k). intros x X. apply H.
    apply (Rmult_lt_compat_r (sqrt k)) in X; [|exact K]. unfold Rdiv in X. rewrite Rmult_assoc, Rinv_l in X by lra. lra. }
  assert (E : is_lim (fun rho => rho * surface dim rho * diff dim rho t c g0) p_infty 0) by exact edge_late.
  assert (L : is_lim (fun rho => 2 * c * t / g0 * (inside dim (rho * sqrt k) - rho * surface dim rho * diff dim rho t c g0 / INR dim)) p_infty
                (2 * c * t / g0 * (1 - 0 * / INR dim))).
  { apply (is_lim_scal_l _ (2 * c * t / g0) p_infty (1 - 0 * / INR dim)). apply is_lim_minus'; [exact I|].
    apply (is_lim_scal_r _ (/ INR dim) p_infty 0). exact E. }
  assert (V : 2 * c * t / g0 * (1 - 0 * / INR dim) = 2 * c * t / g0) by ring. rewrite V in L. exact L.
Qed.
End D.

Lemma front_second dim t c g0 rho : dimension dim -> 0 < c -> 0 < g0 -> 0 < t -> 0 <= rho <= c * t ->
  is_RInt (fun r => r ^ 2 * (surface dim r * ok_value (G_scalar (diff_type dim) r t c g0))) 0 rho
    (2 * c * t / g0 * (inside dim (rho * sqrt (INR dim * g0 / (4 * c * t))) - rho * surface dim rho * diff dim rho t c g0 / INR dim)).
Proof.
  intros D Hc Hg Ht Hr. apply (is_RInt_ext (fun r => r ^ 2 * (surface dim r * diff dim r t c g0))); [|now apply diff_second].
  rewrite Rmin_left, Rmax_right by lra. intros r R1. r_eq. f_equal. f_equal. symmetry. apply diff_select; [exact D|exact Hc|lra].
Qed.

(** ** comparison *)
Lemma walk_bounds g0 T : 0 < g0 -> 0 < T -> 0 < walk_square g0 T < T ^ 2 /\ 2 * T / g0 - 2 / g0 ^ 2 < walk_square g0 T < 2 * T / g0.
Proof.
  intros Hg HT. unfold walk_square. set (y := g0 * T). assert (Y : 0 < y) by (now apply Rmult_lt_0_compat).
  assert (G2 : 0 < 2 / g0 ^ 2) by (apply Rdiv_lt_0_compat; [lra|now apply pow_lt]).
  replace (2 * T / g0) with (2 / g0 ^ 2 * y) by (unfold y; field; lra). replace (T ^ 2) with (2 / g0 ^ 2 * (y ^ 2 / 2)) by (unfold y; field; lra).
  assert (E0 := exp_pos (- y)). assert (E1 : exp (- y) < 1) by (rewrite <- exp_0; apply exp_increasing; lra).
  assert (E2 : 1 - y < exp (- y)) by (pose proof (exp_ineq1 (- y) ltac:(lra)); lra).
  assert (E3 : exp (- y) < 1 - y + y ^ 2 / 2).
  { destruct (MVT_cor2 (fun x => 1 - x + x ^ 2 / 2 - exp (- x)) (fun z => -1 + z + exp (- z)) 0 y Y) as [z [Z1 Z2]].
    { intros z _. apply is_derive_Reals. auto_derive; [trivial|]. field. }
    cbv beta in Z1. rewrite Ropp_0, exp_0 in Z1. pose proof (exp_ineq1 (- z) ltac:(lra)).
    assert (0 < (-1 + z + exp (- z)) * (y - 0)) by (apply Rmult_lt_0_compat; lra). nra. }
  split; split; try (apply Rmult_lt_compat_l; [exact G2|lra]).
  - apply Rmult_lt_0_compat; lra.
  - assert (0 < 2 / g0 ^ 2 * exp (- y)) by (apply Rmult_lt_0_compat; lra). nra.
Qed.

Lemma rt1d_second_bounds t c g0 : 0 < c -> 0 < g0 -> 0 < t ->
  let M := RInt (fun r => r ^ 2 * (2 * ok_value (G_scalar "rt1d" r t c g0))) 0 (c * t) + (c * t) ^ 2 * (2 * rt1d_direct t c g0) in
  0 < M < (c * t) ^ 2 /\ 2 * (c * t) / g0 - 2 / g0 ^ 2 < M < 2 * (c * t) / g0.
Proof.
  intros Hc Hg Ht. cbv zeta. rewrite (rt1d_second t c g0 Hc Hg Ht). apply walk_bounds; [exact Hg|now apply Rmult_lt_0_compat].
Qed.
