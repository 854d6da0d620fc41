(** Proofs for CornerProps.v. *)
From Coq Require Import Reals Lra.
From Verif Require Import SourceModel.
Open Scope R_scope.

Lemma rpos x y : 0 < Rpower x y.
Proof. apply exp_pos. Qed.

Lemma rless x y z : 0 < x -> x < y -> 0 < z -> Rpower x z < Rpower y z.
Proof. intros. apply exp_increasing. apply Rmult_lt_compat_l; [assumption|now apply ln_increasing]. Qed.

Lemma model_less M0 a b g : 0 < M0 -> 0 < g -> 0 < a -> a < b -> M0 * Rpower (1 + b) (- (1) / g) < M0 * Rpower (1 + a) (- (1) / g).
Proof.
  intros HM Hg Ha Hab. apply Rmult_lt_compat_l; [exact HM|]. apply exp_increasing.
  assert (L : ln (1 + a) < ln (1 + b)) by (apply ln_increasing; lra). assert (I : 0 < / g) by now apply Rinv_0_lt_compat. unfold Rdiv. nra.
Qed.

Lemma corner_up f M0 fc fc' n g : 0 < f -> 0 < M0 -> 0 < fc -> fc < fc' -> 0 < n -> 0 < g ->
  source_model f M0 fc n g < source_model f M0 fc' n g.
Proof.
  intros Hf HM Hc Hcc Hn Hg. unfold source_model. apply model_less; [exact HM|exact Hg|apply rpos|].
  apply rless; [apply Rdiv_lt_0_compat; lra| |now apply Rmult_lt_0_compat]. unfold Rdiv. apply Rmult_lt_compat_l; [exact Hf|]. apply Rinv_lt_contravar; [nra|exact Hcc].
Qed.

Lemma steep_below f M0 fc n n' g : 0 < f -> f < fc -> 0 < M0 -> 0 < g -> n < n' ->
  source_model f M0 fc n g < source_model f M0 fc n' g.
Proof.
  intros Hf Hc HM Hg Hn. unfold source_model. apply model_less; [exact HM|exact Hg|apply rpos|]. apply exp_increasing.
  assert (L : ln (f / fc) < 0) by (rewrite <- ln_1; apply ln_increasing; [apply Rdiv_lt_0_compat; lra|apply (Rmult_lt_reg_r fc); [lra|]; unfold Rdiv; rewrite Rmult_assoc, Rinv_l by lra; lra]).
  assert (n * g < n' * g) by now apply Rmult_lt_compat_r. nra.
Qed.

Lemma steep_above f M0 fc n n' g : 0 < fc -> fc < f -> 0 < M0 -> 0 < g -> n < n' ->
  source_model f M0 fc n' g < source_model f M0 fc n g.
Proof.
  intros Hf Hc HM Hg Hn. unfold source_model. apply model_less; [exact HM|exact Hg|apply rpos|]. apply exp_increasing.
  assert (L : 0 < ln (f / fc)) by (rewrite <- ln_1; apply ln_increasing; [lra|apply (Rmult_lt_reg_r fc); [lra|]; unfold Rdiv; rewrite Rmult_assoc, Rinv_l by lra; lra]).
  assert (n * g < n' * g) by now apply Rmult_lt_compat_r. nra.
Qed.

Lemma below_one z s : 0 < z -> z < 1 -> 1 < s -> Rpower z s < z.
Proof.
  intros Hz H1 Hs. rewrite <- (exp_ln z) at 2 by exact Hz. apply exp_increasing.
  assert (ln z < 0) by (rewrite <- ln_1; now apply ln_increasing). nra.
Qed.

Lemma sharp_sum u s : 0 < u -> 1 < s -> 1 + Rpower u s < Rpower (1 + u) s.
Proof.
  intros Hu Hs. assert (I : 0 < / (1 + u)) by (apply Rinv_0_lt_compat; lra).
  assert (E : (1 + u) * / (1 + u) = 1) by (apply Rinv_r; lra).
  pose proof (below_one (/ (1 + u)) s I ltac:(nra) Hs) as A. pose proof (below_one (u * / (1 + u)) s ltac:(now apply Rmult_lt_0_compat) ltac:(nra) Hs) as B.
  rewrite <- Rpower_mult_distr in B by assumption. pose proof (rpos (1 + u) s) as P.
  assert (R : Rpower (/ (1 + u)) s * Rpower (1 + u) s = 1).
  { rewrite Rpower_mult_distr by lra. rewrite Rinv_l by lra. unfold Rpower. now rewrite ln_1, Rmult_0_r, exp_0. }
  set (q := Rpower (/ (1 + u)) s) in *. set (z := Rpower (1 + u) s) in *. set (v := Rpower u s) in *.
  assert (S : q * (1 + v) < 1) by lra. assert (q * (1 + v) * z < 1 * z) by now apply Rmult_lt_compat_r.
  replace (q * (1 + v) * z) with ((q * z) * (1 + v)) in H by ring. rewrite R in H. lra.
Qed.

Lemma sharp_up f M0 fc n g g' : 0 < f -> 0 < M0 -> 0 < fc -> 0 < g -> g < g' ->
  source_model f M0 fc n g < source_model f M0 fc n g'.
Proof.
  intros _ HM _ Hg Hgg. unfold source_model. apply Rmult_lt_compat_l; [exact HM|]. apply exp_increasing.
  set (u := Rpower (f / fc) (n * g)). assert (U : 0 < u) by apply rpos.
  assert (S : 1 < g' / g) by (apply (Rmult_lt_reg_r g); [lra|]; unfold Rdiv; rewrite Rmult_assoc, Rinv_l by lra; lra).
  assert (V : Rpower (f / fc) (n * g') = Rpower u (g' / g)). { unfold u. rewrite Rpower_mult. f_equal. field. lra. }
  rewrite V. pose proof (sharp_sum u _ U S) as L. apply ln_increasing in L; [|pose proof (rpos u (g' / g)); lra].
  unfold Rpower at 2 in L. rewrite ln_exp in L.
  assert (I : 0 < / g') by (apply Rinv_0_lt_compat; lra). apply (Rmult_lt_compat_r _ _ _ I) in L.
  replace (g' / g * ln (1 + u) * / g') with (ln (1 + u) * / g) in L by (field; lra).
  unfold Rdiv. lra.
Qed.

Lemma source_unit k f M0 fc n g : 0 < k -> 0 < f -> 0 < fc -> source_model (k * f) M0 (k * fc) n g = source_model f M0 fc n g.
Proof. intros K _ C. unfold source_model. now replace (k * f / (k * fc)) with (f / fc) by (field; split; lra). Qed.

(** ** envelope *)
Lemma power_less_one u g : 0 < u -> 0 < g -> Rpower (1 + u) (- (1) / g) < 1.
Proof.
  intros U G. apply Rlt_le_trans with (exp 0); [|rewrite exp_0; lra]. apply exp_increasing. assert (0 < ln (1 + u)) by (rewrite <- ln_1; apply ln_increasing; lra).
  assert (I : 0 < / g) by now apply Rinv_0_lt_compat. pose proof (Rmult_lt_0_compat _ _ I H) as Q. unfold Rdiv. lra.
Qed.

Lemma flip f fc n g : 0 < f -> 0 < fc -> 0 < g ->
  Rpower (1 + Rpower (f / fc) (n * g)) (- (1) / g) = Rpower (fc / f) n * Rpower (1 + Rpower (fc / f) (n * g)) (- (1) / g).
Proof.
  intros Hf Hc Hg. assert (X : 0 < f / fc) by now apply Rdiv_lt_0_compat. set (x := f / fc) in *.
  replace (fc / f) with (/ x) by (unfold x; field; split; lra).
  assert (IX : forall z, Rpower (/ x) z = / Rpower x z) by (intros z; unfold Rpower; rewrite ln_Rinv by exact X; rewrite <- exp_Ropp; f_equal; ring).
  rewrite !IX. pose proof (rpos x (n * g)) as P. replace (1 + Rpower x (n * g)) with (Rpower x (n * g) * (1 + / Rpower x (n * g))) by (field; lra).
  assert (0 < / Rpower x (n * g)) by now apply Rinv_0_lt_compat.
  rewrite <- Rpower_mult_distr by lra. f_equal. rewrite Rpower_mult, <- Rpower_Ropp. f_equal. field. lra.
Qed.

Lemma half_low u g : 0 < u -> u <= 1 -> 0 < g -> Rpower 2 (- (1) / g) <= Rpower (1 + u) (- (1) / g).
Proof.
  intros U U1 G. assert (I : 0 < / g) by now apply Rinv_0_lt_compat. assert (L : ln (1 + u) <= ln 2) by (destruct (Rle_lt_or_eq_dec _ _ U1) as [H|H]; [left; apply ln_increasing; lra|right; f_equal; lra]).
  assert (Q : - (1) / g * ln 2 <= - (1) / g * ln (1 + u)) by (unfold Rdiv; nra).
  destruct (Rle_lt_or_eq_dec _ _ Q) as [H|H]; [left; now apply exp_increasing|right; unfold Rpower; now rewrite H].
Qed.

Lemma envelope f M0 fc n g : 0 < f -> 0 < M0 -> 0 < fc -> 0 < n -> 0 < g ->
  M0 * Rmin 1 (Rpower (fc / f) n) * Rpower 2 (- (1) / g) <= source_model f M0 fc n g < M0 * Rmin 1 (Rpower (fc / f) n).
Proof.
  intros Hf HM Hc Hn Hg. unfold source_model. assert (X : 0 < f / fc) by now apply Rdiv_lt_0_compat. assert (Y : 0 < fc / f) by now apply Rdiv_lt_0_compat.
  pose proof (power_less_one _ g (rpos (f / fc) (n * g)) Hg) as A. pose proof (power_less_one _ g (rpos (fc / f) (n * g)) Hg) as B.
  pose proof (rpos (fc / f) n) as P. assert (NG : 0 < n * g) by now apply Rmult_lt_0_compat.
  assert (one : forall z, Rpower 1 z = 1) by (intros; unfold Rpower; now rewrite ln_1, Rmult_0_r, exp_0).
  assert (low : forall z e, 0 < z -> z <= 1 -> 0 < e -> Rpower z e <= 1).
  { intros z e Z Z1 E. rewrite <- (one e). destruct (Rle_lt_or_eq_dec _ _ Z1) as [H|H]; [left; now apply rless|right; now rewrite H]. }
  split.
  - rewrite Rmult_assoc. apply Rmult_le_compat_l; [lra|]. pose proof (rpos 2 (- (1) / g)) as P2. destruct (Rle_lt_dec f fc) as [H|H].
    + apply Rle_trans with (1 * Rpower 2 (- (1) / g)); [apply Rmult_le_compat_r; [lra|apply Rmin_l]|]. rewrite Rmult_1_l. apply half_low; [apply rpos| |exact Hg].
      apply low; [exact X| |exact NG]. apply (Rmult_le_reg_r fc); [exact Hc|]. unfold Rdiv. rewrite Rmult_assoc, Rinv_l by lra. lra.
    + rewrite (flip f fc n g Hf Hc Hg). apply Rle_trans with (Rpower (fc / f) n * Rpower 2 (- (1) / g)); [apply Rmult_le_compat_r; [lra|apply Rmin_r]|].
      apply Rmult_le_compat_l; [lra|]. apply half_low; [apply rpos| |exact Hg].
      apply low; [exact Y| |exact NG]. apply (Rmult_le_reg_r f); [exact Hf|]. unfold Rdiv. rewrite Rmult_assoc, Rinv_l by lra. lra.
  - apply Rmult_lt_compat_l; [exact HM|]. apply Rmin_glb_lt; [exact A|]. rewrite (flip f fc n g Hf Hc Hg).
    rewrite <- (Rmult_1_r (Rpower (fc / f) n)) at 2. now apply Rmult_lt_compat_l.
Qed.
