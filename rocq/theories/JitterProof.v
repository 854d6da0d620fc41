(** C137: root mean squares and means of data with errors. *)
From Coq Require Import String List Bool Reals Lra Lia Arith.
From Verif Require Import Base Pyf StatModel StatSpec SourceModel SourceSpec SourceProof SourceProof2 SourceProof4 NoiseSpec JitterSpec.
Import ListNotations.
Open Scope string_scope.
Open Scope list_scope.
Open Scope R_scope.

Definition close (d : R) : list R -> list R -> Prop := Forall2 (fun a b => Rabs (a - b) <= d).

Lemma close_len d a b : close d a b -> length a = length b.
Proof. induction 1; cbn; auto. Qed.

Lemma close_sym d a b : close d a b -> close d b a.
Proof. induction 1 as [|x y a b H _ IH]; constructor; [now rewrite Rabs_minus_sym|exact IH]. Qed.

Lemma close_shift d m a b : close d a b -> close d (map (fun v => v - m) a) (map (fun v => v - m) b).
Proof. induction 1 as [|x y a b H _ IH]; constructor; [|exact IH]. now replace (x - m - (y - m)) with (x - y) by ring. Qed.

Lemma len_pos {A} (l : list A) : l <> [] -> 0 < INR (length l).
Proof. intros H. apply lt_0_INR. destruct l; [congruence|cbn; lia]. Qed.

Lemma rsum_cons a l : rsum (a :: l) = a + rsum l.
Proof. reflexivity. Qed.

(** sums *)
Lemma sum_close d a b : close d a b -> Rabs (rsum a - rsum b) <= INR (length a) * d.
Proof.
  induction 1 as [|x y a b H _ IH]; [cbn; rewrite Rminus_0_r, Rabs_R0; lra|].
  rewrite !rsum_cons. cbn [length]. rewrite S_INR.
  replace (x + rsum a - (y + rsum b)) with ((x - y) + (rsum a - rsum b)) by ring.
  eapply Rle_trans; [apply Rabs_triang|]. lra.
Qed.

Lemma mean_close d a b : close d a b -> a <> [] -> Rabs (rsum a / INR (length a) - rsum b / INR (length b)) <= d.
Proof.
  intros H N. pose proof (sum_close _ _ _ H) as S. rewrite <- (close_len _ _ _ H). pose proof (len_pos _ N) as P.
  replace (rsum a / INR (length a) - rsum b / INR (length a)) with ((rsum a - rsum b) * / INR (length a)) by (unfold Rdiv; ring).
  rewrite Rabs_mult, (Rabs_pos_eq (/ _)) by (left; now apply Rinv_0_lt_compat).
  apply (Rmult_le_reg_r (INR (length a))); [exact P|]. rewrite Rmult_assoc, Rinv_l by lra. lra.
Qed.

(** sum of squares about any value *)
Lemma sum_about l x : rsum (map (fun v => (v - x) ^ 2) l) = rsum (map (fun v => v ^ 2) l) - 2 * x * rsum l + INR (length l) * x ^ 2.
Proof.
  induction l as [|a l IH]; [cbn; ring|]. cbn [map length]. rewrite !rsum_cons, IH, S_INR. ring.
Qed.

Lemma sum_sq_pos l x : 0 <= rsum (map (fun v => (v - x) ^ 2) l).
Proof. induction l as [|a l IH]; [cbn; lra|]. cbn [map]. rewrite rsum_cons. pose proof (pow2_ge_0 (a - x)). lra. Qed.

Lemma sum_sq_0 l : 0 <= rsum (map (fun v => v ^ 2) l).
Proof. induction l as [|a l IH]; [cbn; lra|]. cbn [map]. rewrite rsum_cons. pose proof (pow2_ge_0 a). lra. Qed.

Lemma ms_pos l : 0 <= mean_square l.
Proof.
  unfold mean_square. destruct l as [|x l]; [cbn; lra|]. apply Rmult_le_pos; [apply sum_sq_0|].
  left. apply Rinv_0_lt_compat, len_pos. discriminate.
Qed.

(** the mean has the smallest mean square *)
Lemma ms_min l c : l <> [] ->
  mean_square (map (fun v => v - rsum l / INR (length l)) l) <= mean_square (map (fun v => v - c) l).
Proof.
  intros N. pose proof (len_pos _ N) as P. unfold mean_square. rewrite !map_map, !map_length, !sum_about.
  apply Rmult_le_compat_r; [left; now apply Rinv_0_lt_compat|].
  set (m := rsum l / INR (length l)). assert (E : rsum l = INR (length l) * m) by (unfold m; field; lra).
  rewrite E. pose proof (pow2_ge_0 (c - m)). nra.
Qed.

(** the mean of the absolute values is at most the root mean square *)
Lemma mean_abs l : l <> [] -> rsum (map Rabs l) / INR (length l) <= sqrt (mean_square l).
Proof.
  intros N. pose proof (len_pos _ N) as P. set (m := rsum (map Rabs l) / INR (length l)).
  assert (M0 : 0 <= m).
  { apply Rmult_le_pos; [|left; now apply Rinv_0_lt_compat]. clear. induction l as [|a l IH]; [cbn; lra|]. cbn [map].
    rewrite rsum_cons. pose proof (Rabs_pos a). lra. }
  rewrite <- (sqrt_square m) by exact M0. apply sqrt_le_1_alt. unfold mean_square.
  apply (Rmult_le_reg_r (INR (length l))); [exact P|]. replace (rsum (map (fun v => v ^ 2) l) / INR (length l) * INR (length l)) with (rsum (map (fun v => v ^ 2) l)) by (field; lra).
  pose proof (sum_sq_pos (map Rabs l) m) as Q. rewrite sum_about, map_length in Q.
  assert (E : rsum (map Rabs l) = INR (length l) * m) by (unfold m; field; lra). rewrite E in Q.
  assert (E2 : rsum (map (fun v => v ^ 2) (map Rabs l)) = rsum (map (fun v => v ^ 2) l)).
  { rewrite map_map. f_equal. apply map_ext. intros a. rewrite <- Rsqr_pow2, <- Rsqr_pow2. symmetry. apply Rsqr_abs. }
  rewrite E2 in Q. nra.
Qed.

(** the root mean square changes by d at most *)
Lemma ms_close d a b : 0 <= d -> close d a b -> a <> [] -> sqrt (mean_square a) <= sqrt (mean_square b) + d.
Proof.
  intros D H N. pose proof (close_len _ _ _ H) as L.
  assert (NB : b <> []) by (intros ->; destruct a; [congruence|discriminate]).
  pose proof (len_pos _ NB) as P.
  rewrite <- (sqrt_square (sqrt (mean_square b) + d)) by (pose proof (sqrt_pos (mean_square b)); lra).
  apply sqrt_le_1_alt.
  assert (S : rsum (map (fun v => v ^ 2) a) <= rsum (map (fun v => v ^ 2) b) + 2 * d * rsum (map Rabs b) + INR (length b) * d ^ 2).
  { clear - H D. induction H as [|x y a b X _ IH]; [cbn; lra|]. cbn [map length]. rewrite !rsum_cons, S_INR.
    assert (Q : x ^ 2 <= y ^ 2 + 2 * d * Rabs y + d ^ 2).
    { replace (y ^ 2) with (Rabs y ^ 2) by (symmetry; rewrite <- !Rsqr_pow2; apply Rsqr_abs).
      replace (x ^ 2) with (Rabs x ^ 2) by (symmetry; rewrite <- !Rsqr_pow2; apply Rsqr_abs).
      assert (Rabs x <= Rabs y + d). { replace x with (y + (x - y)) by ring. eapply Rle_trans; [apply Rabs_triang|]. lra. }
      pose proof (Rabs_pos x). pose proof (Rabs_pos y). nra. }
    lra. }
  pose proof (mean_abs b NB) as MA. pose proof (sqrt_sqrt _ (ms_pos b)) as SS.
  assert (MB : mean_square a <= mean_square b + 2 * d * (rsum (map Rabs b) / INR (length b)) + d ^ 2).
  { unfold mean_square. rewrite L. apply (Rmult_le_reg_r (INR (length b))); [exact P|].
    replace ((rsum (map (fun v => v ^ 2) b) / INR (length b) + 2 * d * (rsum (map Rabs b) / INR (length b)) + d ^ 2) * INR (length b))
      with (rsum (map (fun v => v ^ 2) b) + 2 * d * rsum (map Rabs b) + INR (length b) * d ^ 2) by (field; lra).
    replace (rsum (map (fun v => v ^ 2) a) / INR (length b) * INR (length b)) with (rsum (map (fun v => v ^ 2) a)) by (field; lra). exact S. }
  nra.
Qed.

(** ** Logarithms *)
Lemma up_to_log d x y : 0 < y -> up_to d x y -> 0 < x /\ Rabs (ln x - ln y) <= d.
Proof.
  intros Y [A B]. pose proof (exp_pos (- d)). assert (X : 0 < x) by (eapply Rlt_le_trans; [|exact A]; now apply Rmult_lt_0_compat).
  split; [exact X|]. apply Rabs_le. split.
  - assert (Q : ln (exp (- d) * y) <= ln x).
    { destruct A as [A | ->]; [left; apply ln_increasing; [now apply Rmult_lt_0_compat|exact A]|now right]. }
    rewrite ln_mult, ln_exp in Q by (try apply exp_pos; exact Y). lra.
  - assert (Q : ln x <= ln (exp d * y)).
    { destruct B as [B | <-]; [left; now apply ln_increasing|now right]. }
    rewrite ln_mult, ln_exp in Q by (try apply exp_pos; exact Y). lra.
Qed.

Lemma exp_up_to d a b : Rabs (a - b) <= d -> up_to d (exp a) (exp b).
Proof.
  intros H. assert (K : - d <= a - b <= d) by (split; [pose proof (Rle_abs (- (a - b))) as Q; rewrite Rabs_Ropp in Q; lra|pose proof (Rle_abs (a - b)); lra]).
  unfold up_to. rewrite <- !exp_plus.
  assert (M : forall u v, u <= v -> exp u <= exp v) by (intros u v [U | ->]; [left; now apply exp_increasing|now right]).
  split; apply M; lra.
Qed.

Lemma up_to_of_log d x y : 0 < x -> 0 < y -> Rabs (ln x - ln y) <= d -> up_to d x y.
Proof. intros X Y H. rewrite <- (exp_ln x), <- (exp_ln y) by assumption. now apply exp_up_to. Qed.

(** ** C137: magnitudes *)
Lemma magnitude_errors : forall d M M', 0 < M' -> up_to d M M' ->
  Rabs (moment_magnitude M - moment_magnitude M') <= 2 * d / (3 * ln 10).
Proof.
  intros d M M' P U. destruct (up_to_log _ _ _ P U) as [_ L].
  assert (T : 0 < ln 10) by (rewrite <- ln_1; apply ln_increasing; lra).
  unfold moment_magnitude.
  replace (2 / 3 * (ln M / ln 10) - 607 / 100 - (2 / 3 * (ln M' / ln 10) - 607 / 100)) with ((ln M - ln M') * (2 / (3 * ln 10))) by (field; lra).
  assert (K : 0 < 2 / (3 * ln 10)) by (apply Rdiv_lt_0_compat; lra).
  rewrite Rabs_mult, (Rabs_pos_eq (2 / (3 * ln 10))) by lra.
  replace (2 * d / (3 * ln 10)) with (d * (2 / (3 * ln 10))) by (field; lra).
  apply Rmult_le_compat_r; lra.
Qed.

(** ** C137: spectra *)
Lemma sds_errors : forall d W W' f v rho, 0 < W' -> 0 < f -> 0 < v -> 0 < rho -> up_to d W W' ->
  up_to (d / 2) (sds W f v rho) (sds W' f v rho).
Proof.
  intros d W W' f v rho P F V RH U. destruct (up_to_log _ _ _ P U) as [PW L].
  apply up_to_of_log; try now apply sds_pos.
  assert (E : forall x, 0 < x -> ln (sds x f v rho) = (ln x + ln (5 / 2 / PI * rho * v ^ 5 / f ^ 2)) / 2).
  { intros x X. pose proof PI_RGT_0.
    assert (C : 0 < 5 / 2 / PI * rho * v ^ 5 / f ^ 2).
    { apply Rdiv_lt_0_compat; [|now apply pow_lt]. apply Rmult_lt_0_compat; [|now apply pow_lt]. apply Rmult_lt_0_compat; [|exact RH].
      apply Rdiv_lt_0_compat; lra. }
    unfold sds. replace (x * (5 / 2) / PI * rho * v ^ 5 / f ^ 2) with (x * (5 / 2 / PI * rho * v ^ 5 / f ^ 2)) by (field; split; [intros Z; lra|intros Z; lra]).
    assert (XC : 0 < x * (5 / 2 / PI * rho * v ^ 5 / f ^ 2)) by now apply Rmult_lt_0_compat.
    rewrite <- ln_mult by assumption.
    rewrite <- (sqrt_sqrt (x * (5 / 2 / PI * rho * v ^ 5 / f ^ 2))) at 2 by lra. rewrite ln_mult by (apply sqrt_lt_R0; exact XC). field. }
  rewrite !E by assumption. match goal with |- Rabs ?a <= _ => replace a with ((ln W - ln W') * (1 / 2)) by lra end.
  rewrite Rabs_mult, (Rabs_pos_eq (1 / 2)) by lra. lra.
Qed.
