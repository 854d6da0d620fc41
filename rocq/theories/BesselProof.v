(** Integrals of the modified Bessel functions. *)
From Coq Require Import Reals Lra Lia.
From Coquelicot Require Import Coquelicot.
From Verif Require Import Base RtModel RtProof2.
Open Scope R_scope.

(** ** moments of the cosine *)
Definition mom (n : nat) : R := RInt (fun u => cos u ^ n) 0 PI.

Lemma mom_int n : ex_RInt (fun u => cos u ^ n) 0 PI.
Proof.
  apply (@ex_RInt_continuous R_CompleteNormedModule). intros z _. apply (@ex_derive_continuous R_AbsRing R_NormedModule). auto_derive. trivial.
Qed.

Lemma mom_0 : mom 0 = PI.
Proof. unfold mom. cbn [pow]. rewrite RInt_const. unfold scal; cbn; unfold mult; cbn. ring. Qed.

Lemma mom_1 : mom 1 = 0.
Proof.
  unfold mom. transitivity (minus (sin PI) (sin 0)); [|rewrite sin_PI, sin_0; unfold minus, plus, opp; cbn; ring].
  apply is_RInt_unique. apply (@is_RInt_derive R_CompleteNormedModule sin).
  - intros x _. auto_derive; [trivial|ring].
  - intros x _. apply (@ex_derive_continuous R_AbsRing R_NormedModule). auto_derive. trivial.
Qed.

Lemma mom_rec n : INR (S (S n)) * mom (S (S n)) = INR (S n) * mom n.
Proof.
  set (F := fun u => sin u * cos u ^ S n).
  assert (Z : minus (F PI) (F 0) = 0). { unfold F. rewrite sin_PI, sin_0. unfold minus, plus, opp; cbn -[pow]. ring. }
  assert (H : is_RInt (fun u => INR (S (S n)) * cos u ^ S (S n) - INR (S n) * cos u ^ n) 0 PI (minus (F PI) (F 0))).
  { apply (@is_RInt_derive R_CompleteNormedModule F).
    - intros x _. unfold F. auto_derive; [trivial|]. assert (S2 : sin x * sin x = 1 - cos x * cos x) by (pose proof (sin2_cos2 x) as P; unfold Rsqr in P; lra).
      assert (M : match n with O => 1 | S _ => INR n + 1 end = INR n + 1) by (destruct n; [cbn; ring|reflexivity]).
      rewrite !S_INR. cbn [pow]. rewrite M.
      replace (1 * cos x * (cos x * cos x ^ n) + sin x * (1 * - sin x * ((INR n + 1) * cos x ^ n)))
        with ((cos x * cos x) * cos x ^ n - (INR n + 1) * (sin x * sin x) * cos x ^ n) by ring.
      rewrite S2. ring.
    - intros x _. apply (@ex_derive_continuous R_AbsRing R_NormedModule). auto_derive. trivial. }
  assert (K : is_RInt (fun u => INR (S (S n)) * cos u ^ S (S n) - INR (S n) * cos u ^ n) 0 PI (INR (S (S n)) * mom (S (S n)) - INR (S n) * mom n)).
  { apply (@is_RInt_minus R_NormedModule); apply (@is_RInt_scal R_NormedModule), (@RInt_correct R_CompleteNormedModule), mom_int. }
  rewrite Z in H. apply (@is_RInt_unique R_CompleteNormedModule) in H. apply (@is_RInt_unique R_CompleteNormedModule) in K.
  assert (INR (S (S n)) * mom (S (S n)) - INR (S n) * mom n = 0) by (rewrite <- K; exact H). lra.
Qed.

Lemma mom_odd k : mom (S (2 * k)) = 0.
Proof.
  induction k as [|k IH]; [apply mom_1|]. replace (S (2 * S k)) with (S (S (S (2 * k)))) by lia.
  pose proof (mom_rec (S (2 * k))) as H. rewrite IH, Rmult_0_r in H. apply Rmult_integral in H. destruct H as [H|H]; [|exact H].
  exfalso. revert H. apply not_0_INR. lia.
Qed.

Lemma mom_even k : mom (2 * k) = PI * INR (fact (2 * k)) / (4 ^ k * (INR (fact k) * INR (fact k))).
Proof.
  induction k as [|k IH].
  - change (2 * 0)%nat with O. rewrite mom_0. cbn. field.
  - pose proof (mom_rec (2 * k)) as H. replace (S (S (2 * k))) with (2 * S k)%nat in H by lia. rewrite IH in H.
    replace (fact (2 * S k)) with (S (S (2 * k)) * (S (2 * k) * fact (2 * k)))%nat.
    2:{ replace (2 * S k)%nat with (S (S (2 * k))) by lia. rewrite !fact_simpl. reflexivity. }
    replace (fact (S k)) with (S k * fact k)%nat by reflexivity.
    assert (F : INR (fact k) <> 0) by apply INR_fact_neq_0. assert (K : 0 < INR (S k)) by (apply lt_0_INR; lia).
    assert (P : (4 : R) ^ k <> 0) by (apply pow_nonzero; lra).
    rewrite !mult_INR. replace (INR (2 * S k)) with (2 * INR (S k)) in H by (rewrite mult_INR; cbn [INR]; ring).
    replace (INR (S (S (2 * k)))) with (2 * INR (S k)) by (rewrite !S_INR, mult_INR; cbn [INR]; ring).
    apply (Rmult_eq_reg_l (2 * INR (S k))); [|lra]. rewrite H. cbn [pow]. field. repeat split; try assumption; lra.
Qed.

(** ** remainder of the exponential series *)
Definition et (u : R) (n : nat) : R := / INR (fact n) * u ^ n.

Lemma et_series u : is_series (et u) (exp u).
Proof. apply is_pseries_R. apply is_exp_Reals. Qed.

Lemma et_diff u y N M : Rabs u <= y -> Rabs (sum_n (et u) (N + M) - sum_n (et u) N) <= sum_n (et y) (N + M) - sum_n (et y) N.
Proof.
  intros H. induction M as [|M IH].
  - rewrite Nat.add_0_r. rewrite !Rminus_eq_0, Rabs_R0. lra.
  - rewrite Nat.add_succ_r, !sum_Sn. unfold plus; cbn -[sum_n fact].
    replace (sum_n (et u) (N + M) + et u (S (N + M)) - sum_n (et u) N) with (sum_n (et u) (N + M) - sum_n (et u) N + et u (S (N + M))) by ring.
    eapply Rle_trans; [apply Rabs_triang|].
    assert (Rabs (et u (S (N + M))) <= et y (S (N + M))); [|lra].
    unfold et. rewrite Rabs_mult, <- RPow_abs. assert (0 < / INR (fact (S (N + M)))) by (apply Rinv_0_lt_compat, INR_fact_lt_0).
    rewrite (Rabs_pos_eq (/ _)) by lra. apply Rmult_le_compat_l; [lra|]. apply pow_incr. split; [apply Rabs_pos|exact H].
Qed.

Lemma et_tail u y N : Rabs u <= y -> Rabs (exp u - sum_n (et u) N) <= exp y - sum_n (et y) N.
Proof.
  intros H. assert (L : forall v, is_lim_seq (fun M => sum_n (et v) (N + M) - sum_n (et v) N) (exp v - sum_n (et v) N)).
  { intros v. apply is_lim_seq_minus'; [|apply is_lim_seq_const]. apply (is_lim_seq_ext (fun M => sum_n (et v) (M + N))).
    - intros n. f_equal. lia.
    - apply (is_lim_seq_incr_n (sum_n (et v)) N). exact (et_series v). }
  pose proof (is_lim_seq_abs _ _ (L u)) as LU. pose proof (is_lim_seq_le _ _ _ _ (fun M => et_diff u y N M H) LU (L y)) as R. exact R.
Qed.

(** ** integration term by term *)
Definition bi (j : nat) (x : R) : R := RInt (fun u => cos u ^ j * exp (x * cos u)) 0 PI.

Lemma bi_int j x : ex_RInt (fun u => cos u ^ j * exp (x * cos u)) 0 PI.
Proof.
  apply (@ex_RInt_continuous R_CompleteNormedModule). intros z _. apply (@ex_derive_continuous R_AbsRing R_NormedModule). auto_derive. trivial.
Qed.

Lemma terms_int j x N : is_RInt (fun u => cos u ^ j * sum_n (et (x * cos u)) N) 0 PI (sum_n (fun n => / INR (fact n) * x ^ n * mom (n + j)) N).
Proof.
  assert (T : forall n, is_RInt (fun u => cos u ^ j * et (x * cos u) n) 0 PI (/ INR (fact n) * x ^ n * mom (n + j))).
  { intros n. apply (is_RInt_ext (fun u => (/ INR (fact n) * x ^ n) * cos u ^ (n + j))).
    - intros u _. match goal with |- ?a = ?b => change (@eq R a b) end. unfold et. rewrite pow_add, Rpow_mult_distr. ring.
    - apply (@is_RInt_scal R_NormedModule), (@RInt_correct R_CompleteNormedModule), mom_int. }
  induction N as [|N IH].
  - apply (is_RInt_ext (fun u => cos u ^ j * et (x * cos u) 0)); [intros u _; now rewrite sum_O|]. rewrite sum_O. apply T.
  - apply (is_RInt_ext (fun u => plus (cos u ^ j * sum_n (et (x * cos u)) N) (cos u ^ j * et (x * cos u) (S N)))).
    + intros u _. rewrite sum_Sn. unfold plus; cbn -[sum_n et pow]. match goal with |- ?a = ?b => change (@eq R a b) end. ring.
    + rewrite sum_Sn. apply (@is_RInt_plus R_NormedModule); [exact IH|apply T].
Qed.

Lemma bi_lim j x : is_lim_seq (sum_n (fun n => / INR (fact n) * x ^ n * mom (n + j))) (bi j x).
Proof.
  set (s := sum_n _). pose proof PI_RGT_0 as P.
  assert (B : forall N, Rabs (s N - bi j x) <= PI * (exp (Rabs x) - sum_n (et (Rabs x)) N)).
  { intros N. assert (D : is_RInt (fun u => cos u ^ j * sum_n (et (x * cos u)) N - cos u ^ j * exp (x * cos u)) 0 PI (s N - bi j x)).
    { apply (@is_RInt_minus R_NormedModule); [apply terms_int|apply (@RInt_correct R_CompleteNormedModule), bi_int]. }
    set (e := exp (Rabs x) - sum_n (et (Rabs x)) N).
    assert (BB : forall u, Rabs (cos u ^ j * sum_n (et (x * cos u)) N - cos u ^ j * exp (x * cos u)) <= e).
    { intros u. rewrite <- Rmult_minus_distr_l, Rabs_mult. assert (C : Rabs (cos u) <= 1) by (apply Rabs_le, COS_bound).
      assert (CJ : 0 <= Rabs (cos u ^ j) <= 1).
      { split; [apply Rabs_pos|]. rewrite <- RPow_abs. replace 1 with (1 ^ j) by apply pow1. apply pow_incr. split; [apply Rabs_pos|exact C]. }
      assert (E : Rabs (sum_n (et (x * cos u)) N - exp (x * cos u)) <= e).
      { rewrite Rabs_minus_sym. apply et_tail. rewrite Rabs_mult. pose proof (Rabs_pos x). nra. }
      pose proof (Rabs_pos (sum_n (et (x * cos u)) N - exp (x * cos u))). nra. }
    pose proof (@norm_RInt_le R_NormedModule _ (fun _ => e) 0 PI _ ((PI - 0) * e) ltac:(lra) (fun u _ => BB u) D
      (@is_RInt_const R_NormedModule 0 PI e)) as Q.
    rewrite Rminus_0_r in Q. exact Q. }
  apply is_lim_seq_spec. intros eps.
  assert (L : is_lim_seq (fun N => PI * (exp (Rabs x) - sum_n (et (Rabs x)) N)) 0).
  { replace (Finite 0) with (Rbar_mult (Finite PI) (Finite (exp (Rabs x) - exp (Rabs x)))) by (cbn; f_equal; ring).
    apply (is_lim_seq_scal_l (fun N => exp (Rabs x) - sum_n (et (Rabs x)) N)). apply is_lim_seq_minus'; [apply is_lim_seq_const|exact (et_series (Rabs x))]. }
  apply is_lim_seq_spec in L. destruct (L eps) as [N0 HN]. exists N0. intros n Hn. specialize (HN n Hn). rewrite Rminus_0_r in HN.
  eapply Rle_lt_trans; [apply B|]. eapply Rle_lt_trans; [apply Rle_abs|exact HN].
Qed.

(** ** the modified Bessel functions *)
Lemma sumS (a : nat -> R) n : sum_n a (S n) = sum_n a n + a (S n).
Proof. apply (sum_Sn a n). Qed.

Lemma bessel_sum (a : nat -> R) y : (forall k, 0 <= a k <= / INR (fact k)) -> 0 <= y ->
  is_lim_seq (sum_n (fun k => a k * y ^ k)) (PSeries a y).
Proof. intros A Y. apply (Series_correct (fun k => a k * y ^ k)), ex_pseries_R, ex_series_bessel; assumption. Qed.

Lemma iv0_integral x : PI * iv0 x = bi 0 x.
Proof.
  set (y := (x / 2) ^ 2). assert (Y : 0 <= y) by apply pow2_ge_0.
  set (a := fun k => / (INR (fact k) * INR (fact k))).
  assert (T : forall K, sum_n (fun n => / INR (fact n) * x ^ n * mom (n + 0)) (2 * K) = PI * sum_n (fun k => a k * y ^ k) K).
  { assert (E : forall k, / INR (fact (2 * k)) * x ^ (2 * k) * mom (2 * k) = PI * (a k * y ^ k)).
    { intros k. rewrite mom_even. unfold a, y. rewrite <- pow_mult. unfold Rdiv at 2. rewrite Rpow_mult_distr.
      assert (INR (fact k) <> 0) by apply INR_fact_neq_0. assert (INR (fact (2 * k)) <> 0) by apply INR_fact_neq_0.
      assert (Q : (/ 2) ^ (2 * k) = / 4 ^ k) by (rewrite pow_mult; replace ((/ 2) ^ 2) with (/ 4) by field; apply pow_inv).
      rewrite Q. field. repeat split; try assumption. apply pow_nonzero. lra. }
    induction K as [|K IH].
    - rewrite !sum_O. rewrite <- E. reflexivity.
    - replace (2 * S K)%nat with (S (S (2 * K))) by lia. rewrite !sumS, IH. replace (S (2 * K) + 0)%nat with (S (2 * K)) by lia. rewrite mom_odd.
      replace (S (S (2 * K)) + 0)%nat with (2 * S K)%nat by lia. replace (S (S (2 * K))) with (2 * S K)%nat by lia. rewrite E. match goal with |- ?a = ?b => change (@eq R a b) end. ring. }
  assert (L1 := bi_lim 0 x). assert (PH : filterlim (fun K => (2 * K)%nat) eventually eventually) by (apply eventually_subseq; intros; lia).
  assert (L2 := is_lim_seq_subseq _ _ _ PH L1).
  apply (is_lim_seq_ext _ (fun K => PI * sum_n (fun k => a k * y ^ k) K)) in L2; [|exact T].
  assert (L3 := is_lim_seq_scal_l _ PI _ (bessel_sum a y ltac:(intros k; split; [left; apply coef0|apply coef0]) Y)).
  apply is_lim_seq_unique in L2. apply is_lim_seq_unique in L3. rewrite L2 in L3. apply (f_equal real) in L3. symmetry. exact L3.
Qed.

Lemma iv1_integral x : PI * iv1 x = bi 1 x.
Proof.
  set (y := (x / 2) ^ 2). assert (Y : 0 <= y) by apply pow2_ge_0.
  set (a := fun k => / (INR (fact k) * INR (fact (S k)))).
  assert (T : forall K, sum_n (fun n => / INR (fact n) * x ^ n * mom (n + 1)) (S (2 * K)) = PI * (x / 2) * sum_n (fun k => a k * y ^ k) K).
  { assert (E : forall k, / INR (fact (S (2 * k))) * x ^ S (2 * k) * mom (2 * S k) = PI * (x / 2) * (a k * y ^ k)).
    { intros k. rewrite mom_even. unfold a, y. rewrite <- pow_mult. unfold Rdiv at 3. rewrite Rpow_mult_distr.
      assert (INR (fact k) <> 0) by apply INR_fact_neq_0. assert (INR (fact (S (2 * k))) <> 0) by apply INR_fact_neq_0.
      assert (Q : (/ 2) ^ (2 * k) = / 4 ^ k) by (rewrite pow_mult; replace ((/ 2) ^ 2) with (/ 4) by field; apply pow_inv).
      assert (INR (S k) <> 0) by (apply not_0_INR; lia). rewrite Q.
      replace (fact (2 * S k)) with (S (S (2 * k)) * fact (S (2 * k)))%nat by (replace (2 * S k)%nat with (S (S (2 * k))) by lia; reflexivity).
      replace (fact (S k)) with (S k * fact k)%nat by reflexivity. rewrite !mult_INR.
      replace (INR (S (S (2 * k)))) with (2 * INR (S k)) by (rewrite !S_INR, mult_INR; cbn [INR]; ring).
      cbn [pow]. field. repeat split; try assumption. apply pow_nonzero. lra. }
    induction K as [|K IH].
    - rewrite sumS, !sum_O. pose proof (E O) as E0. change (2 * 0 + 1)%nat with 1%nat. change (2 * 0)%nat with O in *.
      change (1 + 1)%nat with (2 * 1)%nat. change (0 + 1)%nat with 1%nat. rewrite E0, mom_1. match goal with |- ?a = ?b => change (@eq R a b) end. ring.
    - replace (S (2 * S K)) with (S (S (S (2 * K)))) by lia. rewrite (sumS _ (S (S (2 * K)))), (sumS _ (S (2 * K))), (sumS _ K), IH. replace (S (S (2 * K)) + 1)%nat with (S (2 * S K)) by lia. rewrite mom_odd.
      replace (S (S (S (2 * K))) + 1)%nat with (2 * S (S K))%nat by lia. replace (S (S (S (2 * K)))) with (S (2 * S K)) by lia. rewrite E. match goal with |- ?a = ?b => change (@eq R a b) end. ring. }
  assert (L1 := bi_lim 1 x). assert (PH : filterlim (fun K => S (2 * K)%nat) eventually eventually) by (apply eventually_subseq; intros; lia).
  assert (L2 := is_lim_seq_subseq _ _ _ PH L1).
  apply (is_lim_seq_ext _ (fun K => PI * (x / 2) * sum_n (fun k => a k * y ^ k) K)) in L2; [|exact T].
  assert (L3 := is_lim_seq_scal_l _ (PI * (x / 2)) _ (bessel_sum a y ltac:(intros k; split; [left; apply coef1|apply coef1]) Y)).
  apply is_lim_seq_unique in L2. apply is_lim_seq_unique in L3. rewrite L2 in L3. apply (f_equal real) in L3. change (bi 1 x = PI * (x / 2) * PSeries a y) in L3. rewrite L3. unfold iv1. fold y a. ring.
Qed.
