(** Lemmas about the energy of 1D radiative transfer. *)
From Coq Require Import String List Bool Reals Lra Lia Arith.
From Coquelicot Require Import Coquelicot.
From Verif Require Import Base RtModel RtSpec RtProof RtProof2.
Import ListNotations.
Open Scope R_scope.

Ltac req := match goal with |- ?x = ?y => change (@eq R x y) end.

(** ** integrals of powers of T^2 - r^2 *)
Fixpoint J (T : R) (k : nat) : R :=
  match k with
  | O => T
  | S k => 2 * INR (S k) * T ^ 2 / (2 * INR k + 3) * J T k
  end.

Lemma J_int T k : is_RInt (fun r => (T ^ 2 - r ^ 2) ^ k) 0 T (J T k).
Proof.
  induction k as [|k IH].
  - cbn [J]. replace T with (scal (T - 0) 1) at 2 by (unfold scal; cbn; unfold mult; cbn; ring).
    apply (is_RInt_ext (fun _ => 1)); [reflexivity|]. apply (@is_RInt_const R_NormedModule).
  - assert (P : 0 < 2 * INR k + 3) by (pose proof (pos_INR k); lra).
    assert (D : is_RInt (fun r => (2 * INR k + 3) * (T ^ 2 - r ^ 2) ^ (S k) - 2 * INR (S k) * T ^ 2 * (T ^ 2 - r ^ 2) ^ k)
                  0 T (minus ((fun r => r * (T ^ 2 - r ^ 2) ^ (S k)) T) ((fun r => r * (T ^ 2 - r ^ 2) ^ (S k)) 0))).
    { apply (@is_RInt_derive R_CompleteNormedModule (fun r => r * (T ^ 2 - r ^ 2) ^ (S k))).
      - intros x _. auto_derive; [trivial|]. rewrite S_INR.
        match goal with |- context [match k with O => ?u | S _ => ?v end] =>
          replace (match k with O => u | S _ => v end) with (INR k + 1) by (destruct k; cbn; ring) end.
        replace (T * (T * 1) + - (x * (x * 1))) with (T ^ 2 - x ^ 2) by ring. rewrite <- (tech_pow_Rmult (T ^ 2 - x ^ 2) k). ring.
      - intros x _. apply (@ex_derive_continuous R_AbsRing R_NormedModule). auto_derive. trivial. }
    match type of D with is_RInt _ _ _ ?v => assert (Z : v = 0) end.
    { unfold minus, plus, opp; cbn. ring. }
    cbv beta in D, Z. rewrite Z in D. clear Z.
    pose proof (is_RInt_scal _ _ _ (/ (2 * INR k + 3)) _ D) as D1.
    pose proof (is_RInt_scal _ _ _ (2 * INR (S k) * T ^ 2 / (2 * INR k + 3)) _ IH) as D2.
    pose proof (is_RInt_plus _ _ _ _ _ _ D1 D2) as D3.
    replace (J T (S k)) with (plus (scal (/ (2 * INR k + 3)) 0) (scal (2 * INR (S k) * T ^ 2 / (2 * INR k + 3)) (J T k))).
    + revert D3. apply is_RInt_ext. intros x _. unfold plus, scal; cbn -[INR pow]. unfold mult; cbn -[INR pow]. field. lra.
    + unfold plus, scal; cbn -[INR pow]. unfold mult; cbn -[INR pow]. ring.
Qed.

Lemma fact_ne k : INR (fact k) <> 0.
Proof. pose proof (fact_ge1 k). lra. Qed.

Lemma fact_S k : INR (fact (S k)) = (INR k + 1) * INR (fact k).
Proof. rewrite fact_simpl, mult_INR, S_INR. reflexivity. Qed.

Lemma J_closed T k : J T k = T ^ (2 * k + 1) * 4 ^ k * (INR (fact k)) ^ 2 / INR (fact (2 * k + 1)).
Proof.
  induction k as [|k IH].
  - cbn. field.
  - cbn [J]. rewrite IH. replace (2 * S k + 1)%nat with (S (S (2 * k + 1))) by lia.
    rewrite !fact_S, !S_INR. replace (INR (2 * k + 1)) with (2 * INR k + 1) by (rewrite plus_INR, mult_INR; cbn; ring).
    rewrite <- !tech_pow_Rmult. pose proof (pos_INR k). field. repeat split; try apply fact_ne; lra.
Qed.

(** ** partial sums of power series with coefficients of the Bessel functions *)
Lemma tail_bound (A : nat -> R) y Y : 0 <= y <= Y -> (forall k, 0 <= A k <= / INR (fact k)) ->
  forall n, Rabs (PSeries A y - sum_n (fun k => A k * y ^ k) n) <= PSeries A Y - sum_n (fun k => A k * Y ^ k) n.
Proof.
  intros Hy HA n.
  assert (S1 : is_series (fun k => A k * y ^ k) (PSeries A y)).
  { apply Series_correct, ex_pseries_R, ex_series_bessel; [lra|assumption]. }
  assert (S2 : is_series (fun k => A k * Y ^ k) (PSeries A Y)).
  { apply Series_correct, ex_pseries_R, ex_series_bessel; [lra|assumption]. }
  assert (B : forall k, 0 <= A k * y ^ k <= A k * Y ^ k).
  { intros k. split; [apply Rmult_le_pos; [apply HA|apply pow_le; lra]|]. apply Rmult_le_compat_l; [apply HA|]. apply pow_incr. lra. }
  assert (D : forall m, (n <= m)%nat -> 0 <= sum_n (fun k => A k * y ^ k) m - sum_n (fun k => A k * y ^ k) n <=
                                       sum_n (fun k => A k * Y ^ k) m - sum_n (fun k => A k * Y ^ k) n).
  { intros m L. induction L as [|m L IH]; [lra|]. rewrite !sum_Sn. unfold plus; cbn -[pow sum_n]. specialize (B (S m)). lra. }
  assert (L1 : is_lim_seq (fun m => sum_n (fun k => A k * y ^ k) m - sum_n (fun k => A k * y ^ k) n) (PSeries A y - sum_n (fun k => A k * y ^ k) n)).
  { apply (is_lim_seq_minus' _ _ (PSeries A y)); [exact S1|apply is_lim_seq_const]. }
  assert (L2 : is_lim_seq (fun m => sum_n (fun k => A k * Y ^ k) m - sum_n (fun k => A k * Y ^ k) n) (PSeries A Y - sum_n (fun k => A k * Y ^ k) n)).
  { apply (is_lim_seq_minus' _ _ (PSeries A Y)); [exact S2|apply is_lim_seq_const]. }
  assert (P0 : 0 <= PSeries A y - sum_n (fun k => A k * y ^ k) n).
  { apply (is_lim_seq_le_loc (fun _ => 0) _ 0 _) with (2 := is_lim_seq_const 0) (3 := L1). exists n. intros m M. apply D, M. }
  assert (P1 : PSeries A y - sum_n (fun k => A k * y ^ k) n <= PSeries A Y - sum_n (fun k => A k * Y ^ k) n).
  { apply (is_lim_seq_le_loc _ _ _ _) with (2 := L1) (3 := L2). exists n. intros m M. apply D, M. }
  rewrite Rabs_pos_eq; assumption.
Qed.

(** the integral of a limit *)
Lemma int_lim (h : R -> R) (S : nat -> R -> R) (I : nat -> R) (eps : nat -> R) (T v : R) :
  0 <= T -> (forall r, 0 <= r <= T -> continuous h r) ->
  (forall n, is_RInt (S n) 0 T (I n)) -> (forall n r, 0 <= r <= T -> Rabs (h r - S n r) <= eps n) ->
  is_lim_seq eps 0 -> is_lim_seq I v -> is_RInt h 0 T v.
Proof.
  intros HT C HS HE L1 L2.
  assert (X : ex_RInt h 0 T).
  { apply (@ex_RInt_continuous R_CompleteNormedModule). intros r. rewrite Rmin_left, Rmax_right by lra. apply C. }
  destruct X as [u U].
  assert (Z : is_lim_seq (fun n => T * eps n) 0).
  { replace (Finite 0) with (Rbar_mult T 0) by (cbn; f_equal; ring). now apply is_lim_seq_scal_l. }
  assert (L3 : is_lim_seq (fun n => u - I n) 0).
  { apply is_lim_seq_abs_0. apply (is_lim_seq_le_le (fun _ => 0) _ (fun n => T * eps n)); [|apply is_lim_seq_const|exact Z].
    intros n. split; [apply Rabs_pos|].
    pose proof (is_RInt_minus _ _ _ _ _ _ U (HS n)) as M.
    replace (T * eps n) with (scal (T - 0) (eps n)) by (unfold scal; cbn; unfold mult; cbn; ring).
    pose proof (@is_RInt_const R_NormedModule 0 T (eps n)) as K.
    apply (norm_RInt_le (fun r => minus (h r) (S n r)) (fun _ => eps n) 0 T); [assumption| |exact M|exact K].
    intros r Hr. apply (HE n r Hr). }
  assert (u = v); [|now subst].
  assert (L4 : is_lim_seq I u).
  { apply (is_lim_seq_ext (fun n => u - (u - I n))); [intros; ring|].
    replace (Finite u) with (Rbar_minus u 0) by (cbn; f_equal; ring).
    apply is_lim_seq_minus'; [apply is_lim_seq_const|exact L3]. }
  pose proof (is_lim_seq_unique _ _ L4) as X1. pose proof (is_lim_seq_unique _ _ L2) as X2. rewrite X1 in X2. now injection X2.
Qed.

(** the integral of a partial sum *)
Lemma sum_int (A : nat -> R) a T n :
  is_RInt (fun r => sum_n (fun k => A k * (a * (T ^ 2 - r ^ 2)) ^ k) n) 0 T (sum_n (fun k => A k * a ^ k * J T k) n).
Proof.
  assert (K : forall k, is_RInt (fun r => A k * (a * (T ^ 2 - r ^ 2)) ^ k) 0 T (A k * a ^ k * J T k)).
  { intros k. pose proof (is_RInt_scal _ _ _ (A k * a ^ k) _ (J_int T k)) as D. revert D. unfold scal; cbn -[pow]; unfold mult; cbn -[pow].
    apply is_RInt_ext. intros r _. req. rewrite Rpow_mult_distr. ring. }
  induction n as [|n IH].
  - rewrite sum_O. apply (is_RInt_ext (fun r => A O * (a * (T ^ 2 - r ^ 2)) ^ 0)); [intros; now rewrite sum_O|]. apply K.
  - rewrite sum_Sn. apply (is_RInt_ext (fun r => plus (sum_n (fun k => A k * (a * (T ^ 2 - r ^ 2)) ^ k) n) (A (S n) * (a * (T ^ 2 - r ^ 2)) ^ S n))).
    { intros r _. now rewrite sum_Sn. }
    apply (@is_RInt_plus R_NormedModule); [exact IH|apply K].
Qed.

Definition B0 (k : nat) : R := / (INR (fact k) * INR (fact k)).
Definition B1 (k : nat) : R := / (INR (fact k) * INR (fact (S k))).

Lemma bessel_cont (A : nat -> R) a T r : (forall k, 0 <= A k <= / INR (fact k)) ->
  continuous (fun r => PSeries A (a * (T ^ 2 - r ^ 2))) r.
Proof.
  intros HA. apply (continuous_comp (fun r => a * (T ^ 2 - r ^ 2)) (PSeries A)).
  - apply (@ex_derive_continuous R_AbsRing R_NormedModule). auto_derive. trivial.
  - apply continuity_pt_filterlim, PSeries_continuity. set (x := a * (T ^ 2 - r ^ 2)). set (Y := Rabs x + 1).
    assert (HY : 0 <= Y) by (unfold Y; pose proof (Rabs_pos x); lra).
    apply Rbar_lt_le_trans with (Finite Y); [unfold Y; cbn; lra|].
    apply Rbar_not_lt_le. intros L. rewrite <- (Rabs_pos_eq Y HY) in L. apply CV_disk_outside in L.
    apply L. apply ex_series_lim_0, ex_pseries_R, ex_series_bessel; assumption.
Qed.

Lemma B0_bound k : 0 <= B0 k <= / INR (fact k).
Proof. pose proof (coef0 k). unfold B0. lra. Qed.
Lemma B1_bound k : 0 <= B1 k <= / INR (fact k).
Proof. pose proof (coef1 k). unfold B1. lra. Qed.

(** the partial sums of the integral are partial sums of the exponential function *)
Lemma exp_partial a T n : a <> 0 ->
  plus (sum_n (fun k => B0 k * ((a / 2) ^ 2) ^ k * J T k) n) (T * (a / 2) * sum_n (fun k => B1 k * ((a / 2) ^ 2) ^ k * J T k) n) =
  / a * (sum_n (fun k => / INR (fact k) * (a * T) ^ k) (2 * n + 2) - 1).
Proof.
  intros Ha.
  assert (K0 : forall k, B0 k * ((a / 2) ^ 2) ^ k * J T k = / a * (/ INR (fact (2 * k + 1)) * (a * T) ^ (2 * k + 1))).
  { intros k. rewrite J_closed. unfold B0. rewrite <- pow_mult, !Rpow_mult_distr. replace (4 ^ k) with (2 ^ (2 * k)) by (rewrite pow_mult; f_equal; ring).
    replace ((a / 2) ^ (2 * k)) with (a ^ (2 * k) / 2 ^ (2 * k)).
    2:{ unfold Rdiv. rewrite Rpow_mult_distr, pow_inv. reflexivity. }
    replace (a ^ (2 * k + 1)) with (a * a ^ (2 * k)) by (rewrite Nat.add_1_r; apply tech_pow_Rmult).
    field. repeat split; try apply fact_ne; try assumption. apply pow_nonzero. lra. }
  assert (K1 : forall k, T * (a / 2) * (B1 k * ((a / 2) ^ 2) ^ k * J T k) = / a * (/ INR (fact (2 * k + 2)) * (a * T) ^ (2 * k + 2))).
  { intros k. rewrite J_closed. unfold B1. rewrite <- pow_mult, !Rpow_mult_distr. replace (4 ^ k) with (2 ^ (2 * k)) by (rewrite pow_mult; f_equal; ring).
    replace ((a / 2) ^ (2 * k)) with (a ^ (2 * k) / 2 ^ (2 * k)).
    2:{ unfold Rdiv. rewrite Rpow_mult_distr, pow_inv. reflexivity. }
    replace (2 * k + 2)%nat with (S (2 * k + 1)) by lia. rewrite !fact_S.
    replace (INR (2 * k + 1)) with (2 * INR k + 1) by (rewrite plus_INR, mult_INR; cbn; ring).
    replace (a ^ S (2 * k + 1)) with (a * (a * a ^ (2 * k))) by (rewrite Nat.add_1_r, <- !tech_pow_Rmult; ring).
    rewrite <- (tech_pow_Rmult T). pose proof (pos_INR k).
    field. repeat split; try apply fact_ne; try assumption; try lra. apply pow_nonzero. lra. }
  unfold plus; cbn -[sum_n pow B0 B1 fact Nat.mul Nat.add]. induction n as [|n IH].
  - rewrite !sum_O, K0, K1. replace (2 * 0 + 2)%nat with 2%nat by reflexivity. rewrite !sum_Sn, sum_O. unfold plus; cbn -[pow]. cbn. field. assumption.
  - rewrite !sum_Sn. unfold plus; cbn -[sum_n pow B0 B1 Nat.mul Nat.add fact].
    replace (2 * S n + 2)%nat with (S (S (2 * n + 2))) by lia. rewrite !sum_Sn. unfold plus; cbn -[sum_n pow B0 B1 Nat.mul Nat.add fact].
    rewrite Rmult_plus_distr_l, K0, K1.
    replace (2 * S n + 1)%nat with (S (2 * n + 2)) by lia. replace (2 * S n + 2)%nat with (S (S (2 * n + 2))) by lia.
    match type of IH with ?l = ?r => match goal with |- ?x + ?y + (?z + ?u) = ?w => replace (x + y + (z + u)) with (l + (y + u)) by ring end end.
    rewrite IH. ring.
Qed.

(** ** the energy of the coda *)
Lemma bessel_energy a T : 0 < a -> 0 <= T ->
  is_RInt (fun r => PSeries B0 ((a / 2) ^ 2 * (T ^ 2 - r ^ 2)) + T * (a / 2) * PSeries B1 ((a / 2) ^ 2 * (T ^ 2 - r ^ 2))) 0 T
    (/ a * (exp (a * T) - 1)).
Proof.
  intros Ha HT. set (q := (a / 2) ^ 2). set (Y := q * T ^ 2).
  assert (Hq : 0 <= q) by (apply pow_le; lra).
  apply (int_lim _
    (fun n r => sum_n (fun k => B0 k * (q * (T ^ 2 - r ^ 2)) ^ k) n + T * (a / 2) * sum_n (fun k => B1 k * (q * (T ^ 2 - r ^ 2)) ^ k) n)
    (fun n => plus (sum_n (fun k => B0 k * q ^ k * J T k) n) (T * (a / 2) * sum_n (fun k => B1 k * q ^ k * J T k) n))
    (fun n => (PSeries B0 Y - sum_n (fun k => B0 k * Y ^ k) n) + T * (a / 2) * (PSeries B1 Y - sum_n (fun k => B1 k * Y ^ k) n))); [assumption| | | | |].
  - intros r _. apply (@continuous_plus R_UniformSpace R_AbsRing R_NormedModule); [apply bessel_cont, B0_bound|].
    apply (@continuous_scal_r R_UniformSpace R_AbsRing R_NormedModule (T * (a / 2)) (fun r => PSeries B1 (q * (T ^ 2 - r ^ 2)))).
    apply bessel_cont, B1_bound.
  - intros n. apply (@is_RInt_plus R_NormedModule); [apply sum_int|].
    apply (@is_RInt_scal R_NormedModule (fun r => sum_n (fun k => B1 k * (q * (T ^ 2 - r ^ 2)) ^ k) n)). apply sum_int.
  - intros n r Hr.
    assert (Hy : 0 <= q * (T ^ 2 - r ^ 2) <= Y).
    { split.
      - apply Rmult_le_pos; [assumption|]. assert (r ^ 2 <= T ^ 2) by (apply pow_incr; lra). lra.
      - unfold Y. apply Rmult_le_compat_l; [assumption|]. pose proof (pow2_ge_0 r). lra. }
    pose proof (tail_bound B0 _ _ Hy B0_bound n) as T0. pose proof (tail_bound B1 _ _ Hy B1_bound n) as T1.
    match goal with |- Rabs (?x + ?c * ?y - (?z + ?c * ?u)) <= _ => replace (x + c * y - (z + c * u)) with ((x - z) + c * (y - u)) by ring end.
    eapply Rle_trans; [apply Rabs_triang|]. apply Rplus_le_compat; [exact T0|].
    assert (0 <= T * (a / 2)) by (apply Rmult_le_pos; lra).
    rewrite Rabs_mult, (Rabs_pos_eq (T * (a / 2))) by assumption. apply Rmult_le_compat_l; assumption.
  - assert (HY : 0 <= Y) by (unfold Y; apply Rmult_le_pos; [assumption|apply pow_le; lra]).
    assert (S0 : forall A, (forall k, 0 <= A k <= / INR (fact k)) -> is_lim_seq (fun n => PSeries A Y - sum_n (fun k => A k * Y ^ k) n) 0).
    { intros A HA. replace (Finite 0) with (Finite (PSeries A Y - PSeries A Y)) by (f_equal; ring).
      apply is_lim_seq_minus'; [apply is_lim_seq_const|].
      apply (Series_correct (fun k => A k * Y ^ k)), ex_pseries_R, ex_series_bessel; assumption. }
    replace (Finite 0) with (Finite (0 + T * (a / 2) * 0)) by (f_equal; ring).
    apply is_lim_seq_plus'; [apply S0, B0_bound|].
    apply (is_lim_seq_scal_l _ (T * (a / 2)) 0). apply S0, B1_bound.
  - apply (is_lim_seq_ext (fun n => / a * (sum_n (fun k => / INR (fact k) * (a * T) ^ k) (2 * n + 2) - 1))).
    { intros n. symmetry. apply exp_partial. lra. }
    apply (is_lim_seq_scal_l _ (/ a) (exp (a * T) - 1)). apply is_lim_seq_minus'; [|apply is_lim_seq_const].
    apply (is_lim_seq_subseq (fun n => sum_n (fun k => / INR (fact k) * (a * T) ^ k) n) _ (fun n => (2 * n + 2)%nat)).
    + apply eventually_subseq. intros n. lia.
    + pose proof (is_exp_Reals (a * T)) as X. apply is_pseries_R in X. exact X.
Qed.

Lemma rt1d_integral t c g0 : 0 < c -> 0 < g0 -> 0 < t ->
  is_RInt (fun r => 2 * ok_value (G_scalar "rt1d" r t c g0)) 0 (c * t) (1 - exp (- (g0 / 2 * (c * t)))).
Proof.
  intros Hc Hg Ht. set (T := c * t). assert (HT : 0 < T) by (apply Rmult_lt_0_compat; assumption).
  pose proof (bessel_energy (g0 / 2) T ltac:(lra) ltac:(lra)) as D.
  pose proof (is_RInt_scal _ _ _ (g0 / 2 * exp (- (g0 / 2 * T))) _ D) as D1.
  replace (1 - exp (- (g0 / 2 * T))) with (scal (g0 / 2 * exp (- (g0 / 2 * T))) (/ (g0 / 2) * (exp (g0 / 2 * T) - 1))).
  2:{ unfold scal; cbn. unfold mult; cbn. rewrite exp_Ropp. field. split; [apply Rgt_not_eq, exp_pos|lra]. }
  revert D1. apply is_RInt_ext. rewrite Rmin_left, Rmax_right by lra. intros r Hr.
  unfold scal; cbn -[pow G_scalar]. unfold mult; cbn -[pow G_scalar].
  assert (S0 : 0 < T ^ 2 - r ^ 2).
  { assert (0 < (T - r) * (T + r)) by (apply Rmult_lt_0_compat; lra). nra. }
  unfold G_scalar. destruct (Rlt_dec (t - r / c) 0) as [L|_].
  { exfalso. apply (Rmult_lt_compat_r c) in L; [|assumption]. unfold T in Hr. replace ((t - r / c) * c) with (c * t - r) in L by (field; lra). lra. }
  cbn [select String.eqb Ascii.eqb Bool.eqb ok_value]. unfold rt1d_coda, iv0, iv1. fold B0 B1.
  replace (c ^ 2 * t ^ 2) with (T ^ 2) by (unfold T; ring).
  set (s := sqrt (T ^ 2 - r ^ 2)). assert (SP : 0 < s) by now apply sqrt_lt_R0.
  assert (Q : s ^ 2 = T ^ 2 - r ^ 2) by (unfold s; apply pow2_sqrt; lra).
  replace ((s / 2 / (1 / g0) / 2) ^ 2) with ((g0 / 2 / 2) ^ 2 * (T ^ 2 - r ^ 2)).
  2:{ rewrite <- Q. field. lra. }
  replace (- c * t / 2 / (1 / g0)) with (- (g0 / 2 * T)) by (unfold T; field; lra). fold T.
  change (fun k => / (INR (fact k) * INR (fact k))) with B0. change (fun k => / (INR (fact k) * INR (fact (S k)))) with B1.
  field. split; lra.
Qed.

Lemma rt1d_total t c g0 : 0 < c -> 0 < g0 -> 0 < t ->
  RInt (fun r => 2 * ok_value (G_scalar "rt1d" r t c g0)) 0 (c * t) + 2 * rt1d_direct t c g0 = 1.
Proof.
  intros Hc Hg Ht. rewrite (is_RInt_unique _ _ _ _ (rt1d_integral t c g0 Hc Hg Ht)). unfold rt1d_direct.
  replace (- c * t / 2 / (1 / g0)) with (- (g0 / 2 * (c * t))) by (field; lra). lra.
Qed.

(** ** diffusion in 2D *)
Lemma diff2d_integral t c g0 rho : 0 < c -> 0 < g0 -> 0 < t -> 0 <= rho <= c * t ->
  is_RInt (fun r => 2 * PI * r * ok_value (G_scalar "diff2d" r t c g0)) 0 rho (1 - exp (- (g0 * rho ^ 2 / (2 * c * t)))).
Proof.
  intros Hc Hg Ht Hr. assert (HT : 0 < c * t) by (apply Rmult_lt_0_compat; assumption).
  set (k := g0 / (2 * c * t)). assert (Hk : 0 < k) by (unfold k; apply Rdiv_lt_0_compat; nra).
  assert (D : is_RInt (fun r => 2 * k * r * exp (- (k * r ^ 2))) 0 rho
                (minus ((fun r => - exp (- (k * r ^ 2))) rho) ((fun r => - exp (- (k * r ^ 2))) 0))).
  { apply (@is_RInt_derive R_CompleteNormedModule (fun r => - exp (- (k * r ^ 2)))).
    - intros x _. auto_derive; [trivial|]. replace (x * (x * 1)) with (x ^ 2) by ring. ring.
    - intros x _. apply (@ex_derive_continuous R_AbsRing R_NormedModule). auto_derive. trivial. }
  replace (1 - exp (- (g0 * rho ^ 2 / (2 * c * t)))) with (minus (- exp (- (k * rho ^ 2))) (- exp (- (k * 0 ^ 2)))).
  2:{ unfold minus, plus, opp; cbn -[pow]. replace (- (k * 0 ^ 2)) with 0 by ring. rewrite exp_0.
      replace (k * rho ^ 2) with (g0 * rho ^ 2 / (2 * c * t)) by (unfold k; field; lra). ring. }
  revert D. apply is_RInt_ext. rewrite Rmin_left, Rmax_right by lra. intros r Hr2.
  unfold G_scalar. destruct (Rlt_dec (t - r / c) 0) as [L|_].
  { exfalso. apply (Rmult_lt_compat_r c) in L; [|assumption]. replace ((t - r / c) * c) with (c * t - r) in L by (field; lra). lra. }
  cbn [select String.eqb Ascii.eqb Bool.eqb ok_value]. unfold diff.
  replace (INR 2) with 2 by (cbn; lra).
  replace (- (2) / 2) with (- (1)) by lra.
  assert (X : 0 < 4 * PI * (c / (2 * g0)) * t) by (pose proof PI_RGT_0; assert (0 < c / (2 * g0)) by (apply Rdiv_lt_0_compat; lra); apply Rmult_lt_0_compat; [apply Rmult_lt_0_compat; lra|assumption]).
  rewrite Rpower_Ropp, Rpower_1 by assumption.
  replace (- r ^ 2 / (4 * (c / (2 * g0)) * t)) with (- (k * r ^ 2)) by (unfold k; field; lra).
  unfold k. pose proof PI_RGT_0.
  match goal with |- ?x = ?y => change (@eq R x y) end. field. repeat split; lra.
Qed.

(** the energy in front of the wave front is lost, it is more than that of the direct wave *)
Lemma diff2d_lost t c g0 : 0 < c -> 0 < g0 -> 0 < t ->
  RInt (fun r => 2 * PI * r * ok_value (G_scalar "diff2d" r t c g0)) 0 (c * t) = 1 - exp (- (g0 * (c * t) / 2)) /\
  RInt (fun r => 2 * PI * r * ok_value (G_scalar "diff2d" r t c g0)) 0 (c * t) <
  1 - 2 * PI * (c * t) * rt2d_direct t c g0.
Proof.
  intros Hc Hg Ht. assert (HT : 0 < c * t) by (apply Rmult_lt_0_compat; assumption).
  rewrite (is_RInt_unique _ _ _ _ (diff2d_integral t c g0 (c * t) Hc Hg Ht ltac:(lra))).
  replace (g0 * (c * t) ^ 2 / (2 * c * t)) with (g0 * (c * t) / 2) by (field; lra). split; [reflexivity|].
  unfold rt2d_direct. replace (- c * t / (1 / g0)) with (- (g0 * (c * t))) by (field; lra).
  replace (2 * PI * (c * t) * (exp (- (g0 * (c * t))) / (2 * PI * c * t))) with (exp (- (g0 * (c * t)))).
  2:{ pose proof PI_RGT_0. field. repeat split; lra. }
  assert (exp (- (g0 * (c * t))) < exp (- (g0 * (c * t) / 2))); [|lra]. apply exp_increasing.
  assert (0 < g0 * (c * t)) by (apply Rmult_lt_0_compat; assumption). lra.
Qed.
