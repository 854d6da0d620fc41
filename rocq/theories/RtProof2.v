From Coq Require Import String List Bool Reals Lra Lia Arith.
From Coquelicot Require Import Coquelicot.
From Verif Require Import Base RtModel RtSpec RtProof.
Import ListNotations.
Open Scope R_scope.

Lemma Rpower_pos x y : 0 < Rpower x y.
Proof. apply exp_pos. Qed.

Ltac rpos := repeat match goal with
  | |- 0 < ?a * ?b => apply Rmult_lt_0_compat
  | |- 0 < ?a / ?b => apply Rdiv_lt_0_compat
  | |- 0 < / ?b => apply Rinv_0_lt_compat
  | |- 0 < exp _ => apply exp_pos
  | |- 0 < Rpower _ _ => apply Rpower_pos
  | |- 0 < PI => apply PI_RGT_0
  | |- 0 < _ ^ _ => apply pow_lt
  end; try lra.

(** ** Bessel series *)
Lemma ex_series_bessel (a : nat -> R) y :
  0 <= y -> (forall k, 0 <= a k <= / INR (fact k)) -> ex_pseries a y.
Proof.
  intros Hy Ha. apply ex_pseries_R.
  apply (@ex_series_le R_AbsRing R_CompleteNormedModule (fun n => a n * y ^ n)
           (fun n => / INR (fact n) * y ^ n)).
  - intros n. unfold norm; cbn. unfold abs; cbn.
    assert (0 <= y ^ n) by now apply pow_le.
    rewrite Rabs_pos_eq by (apply Rmult_le_pos; [apply Ha|assumption]).
    apply Rmult_le_compat_r; [assumption|apply Ha].
  - apply ex_pseries_R. exists (exp y). apply (is_exp_Reals y).
Qed.

Lemma fact_ge1 k : 1 <= INR (fact k).
Proof. change 1 with (INR 1). apply le_INR. apply lt_O_fact. Qed.

Lemma coef0 k : 0 < / (INR (fact k) * INR (fact k)) <= / INR (fact k).
Proof.
  assert (H := fact_ge1 k). split.
  - apply Rinv_0_lt_compat. apply Rmult_lt_0_compat; lra.
  - apply Rinv_le_contravar; [lra|]. rewrite <- (Rmult_1_r (INR (fact k))) at 1.
    apply Rmult_le_compat_l; lra.
Qed.

Lemma coef1 k : 0 < / (INR (fact k) * INR (fact (S k))) <= / INR (fact k).
Proof.
  assert (H := fact_ge1 k). assert (H1 := fact_ge1 (S k)). split.
  - apply Rinv_0_lt_compat. apply Rmult_lt_0_compat; lra.
  - apply Rinv_le_contravar; [lra|]. rewrite <- (Rmult_1_r (INR (fact k))) at 1.
    apply Rmult_le_compat_l; lra.
Qed.

Lemma PSeries_ge_a0 (a : nat -> R) y :
  0 <= y -> (forall k, 0 < a k <= / INR (fact k)) -> a 0%nat <= PSeries a y.
Proof.
  intros Hy Ha.
  assert (Hex : ex_pseries a y).
  { apply ex_series_bessel; [assumption|]. intros k. specialize (Ha k). lra. }
  unfold PSeries. rewrite Series_incr_1.
  - assert (0 <= Series (fun k => a (S k) * y ^ S k)).
    { replace 0 with (Series (fun _ => 0 * 0)).
      2:{ rewrite Series_scal_l. ring. }
      apply Series_le.
      - intros n. split; [lra|]. rewrite Rmult_0_l. apply Rmult_le_pos; [specialize (Ha (S n)); lra|now apply pow_le].
      - apply (ex_series_incr_1 (fun k => a k * y ^ k)).
        now apply ex_pseries_R. }
    rewrite pow_O. lra.
  - now apply ex_pseries_R.
Qed.

Lemma iv0_ge1 x : 1 <= iv0 x.
Proof.
  unfold iv0. replace 1 with (/ (INR (fact 0) * INR (fact 0))) at 1 by (cbn; field).
  apply (PSeries_ge_a0 (fun k => / (INR (fact k) * INR (fact k)))).
  - apply pow2_ge_0.
  - apply coef0.
Qed.

Lemma iv1_nonneg x : 0 <= x -> 0 <= iv1 x.
Proof.
  intros Hx. unfold iv1. apply Rmult_le_pos; [lra|].
  eapply Rle_trans; [|apply (PSeries_ge_a0 (fun k => / (INR (fact k) * INR (fact (S k)))))].
  - apply Rlt_le. apply coef1.
  - apply pow2_ge_0.
  - apply coef1.
Qed.

(** ** positivity *)
Lemma front_sq r t c : 0 <= r -> 0 < c -> r < c * t -> 0 < c ^ 2 * t ^ 2 - r ^ 2.
Proof. intros. replace (c ^ 2 * t ^ 2) with ((c * t) ^ 2) by ring. nra. Qed.

Lemma rt1d_coda_pos r t c g0 : 0 <= r -> 0 < c -> 0 < g0 -> r < c * t -> 0 < rt1d_coda r t c g0.
Proof.
  intros Hr Hc Hg Ht. unfold rt1d_coda. cbn zeta.
  assert (Hs := sqrt_lt_R0 _ (front_sq r t c Hr Hc Ht)).
  set (s := sqrt _) in *.
  assert (Hl : 0 < 1 / g0) by (apply Rdiv_lt_0_compat; lra).
  assert (0 <= s / 2 / (1 / g0)).
  { apply Rlt_le. apply Rdiv_lt_0_compat; lra. }
  apply Rmult_lt_0_compat.
  - apply Rmult_lt_0_compat; [|apply exp_pos]. apply Rdiv_lt_0_compat; lra.
  - assert (H1 := iv0_ge1 (s / 2 / (1 / g0))).
    assert (H2 := iv1_nonneg _ H).
    assert (0 <= c * t * iv1 (s / 2 / (1 / g0)) / s).
    { apply Rmult_le_pos; [|left; now apply Rinv_0_lt_compat].
      apply Rmult_le_pos; [lra|assumption]. }
    lra.
Qed.

Lemma rt2d_coda_pos r t c g0 : 0 <= r -> 0 < c -> 0 < g0 -> r < c * t -> 0 < rt2d_coda r t c g0.
Proof.
  intros Hr Hc Hg Ht. unfold rt2d_coda. cbn zeta.
  assert (0 < t) by (apply Rmult_lt_reg_l with c; lra).
  assert (Hpi := PI_RGT_0).
  assert (Hl : 0 < 1 / g0) by (apply Rdiv_lt_0_compat; lra).
  set (l := 1 / g0) in *. clearbody l.
  repeat apply Rmult_lt_0_compat; try apply exp_pos; try apply Rpower_pos.
  - lra.
  - apply Rinv_0_lt_compat. rpos.
Qed.

Lemma rt3d_reduced_pos r t : 0 <= r -> r < t -> 0 < rt3d_coda_reduced r t.
Proof.
  intros Hr Ht. unfold rt3d_coda_reduced, rtF. cbn zeta.
  repeat apply Rmult_lt_0_compat; try apply exp_pos; try apply Rpower_pos.
  - apply Rinv_0_lt_compat, Rpower_pos.
  - apply sqrt_lt_R0. 
    assert (0 < 2.026 / (t * Rpower (1 - r ^ 2 / t ^ 2) 0.75)).
    { apply Rdiv_lt_0_compat; [lra|]. apply Rmult_lt_0_compat; [lra|apply Rpower_pos]. }
    lra.
Qed.

Lemma rt3d_coda_pos r t c g0 : 0 <= r -> 0 < c -> 0 < g0 -> r < c * t -> 0 < rt3d_coda r t c g0.
Proof.
  intros Hr Hc Hg Ht. unfold rt3d_coda. apply Rmult_lt_0_compat.
  - apply rt3d_reduced_pos; [nra|]. rewrite (Rmult_comm t c). apply Rmult_lt_compat_r; lra.
  - now apply pow_lt.
Qed.

Lemma diff_pos dim r t c g0 : 0 < diff dim r t c g0.
Proof. unfold diff. cbn zeta. apply Rmult_lt_0_compat; [apply Rpower_pos|apply exp_pos]. Qed.

Lemma diffapprox_pos dim r t c g0 : 0 < diffapprox dim r t c g0.
Proof. apply Rpower_pos. Qed.

Lemma G_scalar_pos ty r t c g0 :
  In ty documented_types -> 0 <= r -> 0 < c -> 0 < g0 -> r / c < t ->
  exists v, G_scalar ty r t c g0 = Ok v /\ 0 < v.
Proof.
  intros Hty Hr Hc Hg Ht. unfold G_scalar.
  destruct (Rlt_dec (t - r / c) 0); [lra|].
  apply front_iff2 in Ht; [|assumption].
  destruct Hty as [<-|[<-|[<-|[<-|[<-|[<-|[<-|[<-|[<-|[]]]]]]]]]]; cbn; eexists; split;
    try reflexivity.
  - now apply rt3d_coda_pos.
  - now apply rt2d_coda_pos.
  - now apply rt1d_coda_pos.
  - apply diff_pos.
  - apply diff_pos.
  - apply diff_pos.
  - apply diffapprox_pos.
  - apply diffapprox_pos.
  - apply diffapprox_pos.
Qed.

Lemma rt_direct_pos t c g0 : 0 < c -> 0 < g0 -> 0 < t ->
  0 < rt1d_direct t c g0 /\ 0 < rt2d_direct t c g0 /\ 0 < rt3d_direct t c g0.
Proof.
  intros Hc Hg Ht. assert (Hpi := PI_RGT_0). unfold rt1d_direct, rt2d_direct, rt3d_direct. cbn zeta.
  split; [|split].
  - apply Rmult_lt_0_compat; [lra|apply exp_pos].
  - apply Rdiv_lt_0_compat; [apply exp_pos|]. rpos.
  - apply Rdiv_lt_0_compat; [apply exp_pos|]. rpos.
Qed.

(** ** similarity *)
Lemma sqrt_scale k x : 0 <= k -> 0 <= x -> sqrt (k ^ 2 * x) = k * sqrt x.
Proof. intros Hk Hx. rewrite sqrt_mult by (try apply pow2_ge_0; assumption). now rewrite sqrt_pow2. Qed.

Lemma rt1d_scale k r t c g0 : 0 < k -> 0 <= r -> 0 < c -> 0 < g0 -> r < c * t ->
  rt1d_coda (k * r) (k * t) c (g0 / k) = rt1d_coda r t c g0 / k.
Proof.
  intros Hk Hr Hc Hg Ht. unfold rt1d_coda. cbn zeta.
  assert (Hq := front_sq r t c Hr Hc Ht).
  replace (c ^ 2 * (k * t) ^ 2 - (k * r) ^ 2) with (k ^ 2 * (c ^ 2 * t ^ 2 - r ^ 2)) by ring.
  rewrite sqrt_scale by lra.
  assert (Hs := sqrt_lt_R0 _ Hq). set (s := sqrt _) in *.
  replace (k * s / 2 / (1 / (g0 / k))) with (s / 2 / (1 / g0)) by (field; lra).
  replace (- c * (k * t) / 2 / (1 / (g0 / k))) with (- c * t / 2 / (1 / g0)) by (field; lra).
  field. lra.
Qed.

Lemma rt2d_scale k r t c g0 : 0 < k -> 0 <= r -> 0 < c -> 0 < g0 -> r < c * t ->
  rt2d_coda (k * r) (k * t) c (g0 / k) = rt2d_coda r t c g0 / k ^ 2.
Proof.
  intros Hk Hr Hc Hg Ht. unfold rt2d_coda. cbn zeta.
  assert (0 < t) by (apply Rmult_lt_reg_l with c; lra).
  assert (Hq := front_sq r t c Hr Hc Ht). assert (Hpi := PI_RGT_0).
  replace (c ^ 2 * (k * t) ^ 2 - (k * r) ^ 2) with (k ^ 2 * (c ^ 2 * t ^ 2 - r ^ 2)) by ring.
  rewrite sqrt_scale by lra.
  replace ((k * r) ^ 2 / c ^ 2 / (k * t) ^ 2) with (r ^ 2 / c ^ 2 / t ^ 2) by (field; lra).
  replace ((k * sqrt (c ^ 2 * t ^ 2 - r ^ 2) - c * (k * t)) / (1 / (g0 / k)))
    with ((sqrt (c ^ 2 * t ^ 2 - r ^ 2) - c * t) / (1 / g0)) by (field; lra).
  field. lra.
Qed.

Lemma rt3d_scale k r t c g0 : 0 < k ->
  rt3d_coda (k * r) (k * t) c (g0 / k) = rt3d_coda r t c g0 / k ^ 3.
Proof.
  intros Hk. unfold rt3d_coda.
  replace (k * r * (g0 / k)) with (r * g0) by (field; lra).
  replace (k * t * c * (g0 / k)) with (t * c * g0) by (field; lra).
  field. lra.
Qed.

Lemma Rpower_opp_half_pow k (dim : nat) : 0 < k -> Rpower (k ^ 2) (- INR dim / 2) = / k ^ dim.
Proof.
  intros Hk. rewrite <- Rpower_pow by assumption. rewrite Rpower_mult.
  replace (INR 2 * (- INR dim / 2)) with (- INR dim) by (cbn; field).
  rewrite Rpower_Ropp, Rpower_pow by assumption. reflexivity.
Qed.

Lemma diffapprox_scale k dim r t c g0 : (0 < dim)%nat -> 0 < k -> 0 < c -> 0 < g0 -> 0 < t ->
  diffapprox dim (k * r) (k * t) c (g0 / k) = diffapprox dim r t c g0 / k ^ dim.
Proof.
  intros Hd Hk Hc Hg Ht. unfold diffapprox. cbn zeta. assert (Hpi := PI_RGT_0).
  apply lt_INR in Hd. cbn in Hd.
  assert (0 < c / (INR dim * g0)) by (apply Rdiv_lt_0_compat; [lra|nra]).
  replace (4 * PI * (c / (INR dim * (g0 / k))) * (k * t))
    with (k ^ 2 * (4 * PI * (c / (INR dim * g0)) * t)) by (field; lra).
  rewrite <- Rpower_mult_distr by rpos.
  rewrite Rpower_opp_half_pow by assumption. unfold Rdiv. ring.
Qed.

Lemma diff_scale k dim r t c g0 : (0 < dim)%nat -> 0 < k -> 0 < c -> 0 < g0 -> 0 < t ->
  diff dim (k * r) (k * t) c (g0 / k) = diff dim r t c g0 / k ^ dim.
Proof.
  intros Hd Hk Hc Hg Ht.
  assert (E := diffapprox_scale k dim r t c g0 Hd Hk Hc Hg Ht).
  unfold diffapprox in E. unfold diff. cbn zeta in *. rewrite E.
  apply lt_INR in Hd. cbn in Hd.
  replace (- (k * r) ^ 2 / (4 * (c / (INR dim * (g0 / k))) * (k * t)))
    with (- r ^ 2 / (4 * (c / (INR dim * g0)) * t)) by (field; lra).
  unfold Rdiv. ring.
Qed.

Lemma G_scalar_similarity ty k r t c g0 v :
  In ty documented_types -> 0 < k -> 0 <= r -> 0 < c -> 0 < g0 -> t <> r / c ->
  G_scalar ty r t c g0 = Ok v ->
  G_scalar ty (k * r) (k * t) c (g0 / k) = Ok (v / k ^ dimension ty).
Proof.
  intros Hty Hk Hr Hc Hg Hne. unfold G_scalar.
  replace (k * t - k * r / c) with (k * (t - r / c)) by (field; lra).
  destruct (Rlt_dec (t - r / c) 0) as [H|H].
  - intros [= <-]. destruct (Rlt_dec (k * (t - r / c)) 0) as [H2|H2].
    + f_equal. unfold Rdiv. ring.
    + exfalso. apply H2. rewrite <- (Rmult_0_r k). now apply Rmult_lt_compat_l.
  - destruct (Rlt_dec (k * (t - r / c)) 0) as [H2|H2].
    { exfalso. nra. }
    assert (Ht : r / c < t) by lra. apply front_iff2 in Ht; [|assumption].
    assert (Htp : 0 < t) by (apply Rmult_lt_reg_l with c; lra).
    destruct Hty as [<-|[<-|[<-|[<-|[<-|[<-|[<-|[<-|[<-|[]]]]]]]]]]; cbn [select String.eqb Ascii.eqb Bool.eqb];
      cbn; intros [= <-]; f_equal.
    + now rewrite rt3d_scale.
    + now rewrite rt2d_scale.
    + rewrite rt1d_scale by assumption. field. lra.
    + rewrite diff_scale by (try lia; assumption). reflexivity.
    + rewrite diff_scale by (try lia; assumption). reflexivity.
    + rewrite diff_scale by (try lia; assumption). reflexivity.
    + rewrite diffapprox_scale by (try lia; assumption). reflexivity.
    + rewrite diffapprox_scale by (try lia; assumption). reflexivity.
    + rewrite diffapprox_scale by (try lia; assumption). reflexivity.
Qed.

(** changing the time unit *)
Lemma G_scalar_time_unit ty k r t c g0 :
  In ty documented_types -> 0 < k -> 0 < c -> g0 <> 0 -> 0 < t ->
  G_scalar ty r (k * t) (c / k) g0 = 
  match G_scalar ty r t c g0 with Ok v => Ok v | Err e => Err e end.
Proof.
  intros Hty Hk Hc Hg Ht. unfold G_scalar.
  replace (k * t - r / (c / k)) with (k * (t - r / c)) by (field; lra).
  destruct (Rlt_dec (t - r / c) 0) as [H|H]; destruct (Rlt_dec (k * (t - r / c)) 0) as [H2|H2];
    try reflexivity; try (exfalso; nra).
  assert (E1 : c / k * (k * t) = c * t) by (field; lra).
  assert (E2 : (c / k) ^ 2 * (k * t) ^ 2 = c ^ 2 * t ^ 2) by (field; lra).
  assert (E3 : - (c / k) * (k * t) = - c * t) by (field; lra).
  destruct Hty as [<-|[<-|[<-|[<-|[<-|[<-|[<-|[<-|[<-|[]]]]]]]]]]; cbn; f_equal.
  - unfold rt3d_coda. replace (k * t * (c / k)) with (t * c) by (field; lra). reflexivity.
  - unfold rt2d_coda. cbn zeta. rewrite E2, E1.
    replace (r ^ 2 / (c / k) ^ 2 / (k * t) ^ 2) with (r ^ 2 / c ^ 2 / t ^ 2) by (field; lra).
    replace (2 * PI * (1 / g0) * (c / k) * (k * t)) with (2 * PI * (1 / g0) * c * t) by (field; lra).
    reflexivity.
  - unfold rt1d_coda. cbn zeta. now rewrite E2, E1, E3.
  - unfold diff. cbn zeta.
    replace (4 * PI * (c / k / (INR 3 * g0)) * (k * t)) with (4 * PI * (c / (INR 3 * g0)) * t) by (cbn; field; lra).
    replace (4 * (c / k / (INR 3 * g0)) * (k * t)) with (4 * (c / (INR 3 * g0)) * t) by (cbn; field; lra).
    reflexivity.
  - unfold diff. cbn zeta.
    replace (4 * PI * (c / k / (INR 2 * g0)) * (k * t)) with (4 * PI * (c / (INR 2 * g0)) * t) by (cbn; field; lra).
    replace (4 * (c / k / (INR 2 * g0)) * (k * t)) with (4 * (c / (INR 2 * g0)) * t) by (cbn; field; lra).
    reflexivity.
  - unfold diff. cbn zeta.
    replace (4 * PI * (c / k / (INR 1 * g0)) * (k * t)) with (4 * PI * (c / (INR 1 * g0)) * t) by (cbn; field; lra).
    replace (4 * (c / k / (INR 1 * g0)) * (k * t)) with (4 * (c / (INR 1 * g0)) * t) by (cbn; field; lra).
    reflexivity.
  - unfold diffapprox. cbn zeta.
    replace (4 * PI * (c / k / (INR 3 * g0)) * (k * t)) with (4 * PI * (c / (INR 3 * g0)) * t) by (cbn; field; lra).
    reflexivity.
  - unfold diffapprox. cbn zeta.
    replace (4 * PI * (c / k / (INR 2 * g0)) * (k * t)) with (4 * PI * (c / (INR 2 * g0)) * t) by (cbn; field; lra).
    reflexivity.
  - unfold diffapprox. cbn zeta.
    replace (4 * PI * (c / k / (INR 1 * g0)) * (k * t)) with (4 * PI * (c / (INR 1 * g0)) * t) by (cbn; field; lra).
    reflexivity.
Qed.
