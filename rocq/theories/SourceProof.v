From Coq Require Import String List Bool Reals Lra Lia.
From Coquelicot Require Import Coquelicot.
From Verif Require Import Base Pyf StatModel StatSpec StatProof SourceModel SourceSpec.
Import ListNotations.
Open Scope string_scope.
Open Scope list_scope.
Open Scope R_scope.

Lemma ln10_pos : 0 < ln 10.
Proof. rewrite <- ln_1. apply ln_increasing; lra. Qed.

Lemma mm_inverse M0 : 0 < M0 -> moment_magnitude_inverse (moment_magnitude M0) = M0.
Proof.
  intros H. unfold moment_magnitude_inverse, moment_magnitude, Rpower.
  assert (L := ln10_pos).
  replace (3 / 2 * (2 / 3 * (ln M0 / ln 10) - 607 / 100 + 607 / 100) * ln 10) with (ln M0) by (field; lra).
  now apply exp_ln.
Qed.

Lemma mm_inverse' Mw : moment_magnitude (moment_magnitude_inverse Mw) = Mw.
Proof.
  unfold moment_magnitude_inverse, moment_magnitude, Rpower. rewrite ln_exp.
  assert (L := ln10_pos). field. lra.
Qed.

Lemma mm_increasing a b : 0 < a -> a < b -> moment_magnitude a < moment_magnitude b.
Proof.
  intros H H1. unfold moment_magnitude. assert (L := ln10_pos).
  assert (ln a < ln b) by now apply ln_increasing.
  assert (ln a / ln 10 < ln b / ln 10).
  { unfold Rdiv. apply Rmult_lt_compat_r; [now apply Rinv_0_lt_compat|assumption]. }
  lra.
Qed.

Lemma mm_unit M0 : 0 < M0 -> moment_magnitude (Rpower 10 (3 / 2) * M0) = moment_magnitude M0 + 1.
Proof.
  intros H. unfold moment_magnitude. assert (L := ln10_pos).
  rewrite ln_mult; [|apply exp_pos|assumption]. unfold Rpower at 1. rewrite ln_exp. field. lra.
Qed.

(** ** sds *)
Lemma sds_arg_pos W f v rho : 0 < W -> 0 < f -> 0 < v -> 0 < rho ->
  0 < W * (5 / 2) / PI * rho * v ^ 5 / f ^ 2.
Proof.
  intros. assert (P := PI_RGT_0). unfold Rdiv.
  repeat (apply Rmult_lt_0_compat); try assumption; try lra; try (apply Rinv_0_lt_compat; try assumption);
    try (apply pow_lt; assumption).
Qed.

Lemma sds_pos W f v rho : 0 < W -> 0 < f -> 0 < v -> 0 < rho -> 0 < sds W f v rho.
Proof. intros. apply sqrt_lt_R0. now apply sds_arg_pos. Qed.

Lemma sds_W W f v rho : 0 < W -> 0 < f -> 0 < v -> 0 < rho ->
  W = sds W f v rho ^ 2 * PI * f ^ 2 / ((5 / 2) * rho * v ^ 5).
Proof.
  intros. unfold sds. rewrite pow2_sqrt by (left; now apply sds_arg_pos).
  assert (P := PI_RGT_0). field. repeat split; try lra.
Qed.

Lemma sds_scale_W k W f v rho : 0 < k -> 0 < W -> 0 < f -> 0 < v -> 0 < rho ->
  sds (k * W) f v rho = sqrt k * sds W f v rho.
Proof.
  intros. unfold sds. rewrite <- sqrt_mult_alt by lra. f_equal. assert (P := PI_RGT_0). field. lra.
Qed.

Lemma sds_scale_rho k W f v rho : 0 < k -> 0 < W -> 0 < f -> 0 < v -> 0 < rho ->
  sds W f v (k * rho) = sqrt k * sds W f v rho.
Proof.
  intros. unfold sds. rewrite <- sqrt_mult_alt by lra. f_equal. assert (P := PI_RGT_0). field. lra.
Qed.

Lemma sds_scale_f k W f v rho : 0 < k -> 0 < W -> 0 < f -> 0 < v -> 0 < rho ->
  sds W (k * f) v rho = sds W f v rho / k.
Proof.
  intros. unfold sds. replace (sqrt (W * (5 / 2) / PI * rho * v ^ 5 / f ^ 2) / k) with
    (sqrt (W * (5 / 2) / PI * rho * v ^ 5 / f ^ 2) * sqrt ((/ k) ^ 2)).
  - rewrite <- sqrt_mult_alt by (left; now apply sds_arg_pos). f_equal. assert (P := PI_RGT_0). field. lra.
  - rewrite sqrt_pow2; [reflexivity|]. left. now apply Rinv_0_lt_compat.
Qed.

Lemma sds_scale_v k W f v rho : 0 < k -> 0 < W -> 0 < f -> 0 < v -> 0 < rho ->
  sds W f (k * v) rho = Rpower k (5 / 2) * sds W f v rho.
Proof.
  intros. unfold sds. replace (Rpower k (5 / 2)) with (sqrt (k ^ 5)).
  - rewrite <- sqrt_mult_alt by (left; now apply pow_lt). f_equal. assert (P := PI_RGT_0). field. lra.
  - rewrite <- (Rpower_sqrt (k ^ 5)) by now apply pow_lt. rewrite <- Rpower_pow by assumption.
    rewrite Rpower_mult. f_equal. cbn. lra.
Qed.

(** ** source model *)
Lemma source_model_spec f M0 fc n g : source_model f M0 fc n g = abercrombie M0 fc n g f.
Proof.
  unfold source_model, abercrombie. replace (- (1) / g) with (- (1 / g)) by (unfold Rdiv; ring).
  rewrite Rpower_Ropp. rewrite (Rmult_comm n g). reflexivity.
Qed.

Lemma source_model_ab_spec f M0 fc a b : source_model_ab f M0 fc a b = curve_ab M0 fc a b f.
Proof. unfold source_model_ab, curve_ab. now rewrite Rpower_Ropp. Qed.

Lemma one_plus_gt x y : 1 < 1 + Rpower x y.
Proof. assert (0 < Rpower x y) by apply exp_pos. lra. Qed.

Lemma Rpower_lt1 x y : 1 < x -> y < 0 -> Rpower x y < 1.
Proof.
  intros Hx Hy. unfold Rpower. rewrite <- exp_0. apply exp_increasing.
  assert (0 < ln x) by (rewrite <- ln_1; apply ln_increasing; lra). nra.
Qed.

Lemma Rpower_gt1 x y : 1 < x -> 0 < y -> 1 < Rpower x y.
Proof.
  intros Hx Hy. unfold Rpower. rewrite <- exp_0. apply exp_increasing.
  assert (0 < ln x) by (rewrite <- ln_1; apply ln_increasing; lra). nra.
Qed.

Lemma Rpower_base_lt x y z : 0 < z -> 0 < x -> x < y -> Rpower x z < Rpower y z.
Proof.
  intros. unfold Rpower. apply exp_increasing. apply Rmult_lt_compat_l; [assumption|].
  now apply ln_increasing.
Qed.

Lemma source_model_bounds f M0 fc n g : 0 < M0 -> 0 < g -> 0 < source_model f M0 fc n g < M0.
Proof.
  intros HM Hg. unfold source_model.
  assert (H : Rpower (1 + Rpower (f / fc) (n * g)) (- (1) / g) < 1).
  { apply Rpower_lt1; [apply one_plus_gt|]. unfold Rdiv. assert (0 < / g) by now apply Rinv_0_lt_compat. nra. }
  assert (0 < Rpower (1 + Rpower (f / fc) (n * g)) (- (1) / g)) by apply exp_pos. nra.
Qed.

Lemma source_model_decreasing f f' M0 fc n g :
  0 < M0 -> 0 < fc -> 0 < n -> 0 < g -> 0 < f -> f < f' ->
  source_model f' M0 fc n g < source_model f M0 fc n g.
Proof.
  intros HM Hfc Hn Hg Hf Hff. rewrite !source_model_spec. unfold abercrombie.
  assert (0 < / fc) by now apply Rinv_0_lt_compat.
  assert (0 < 1 / g) by (apply Rdiv_lt_0_compat; lra).
  assert (Hd : Rpower (1 + Rpower (f / fc) (g * n)) (1 / g) < Rpower (1 + Rpower (f' / fc) (g * n)) (1 / g)).
  { apply Rpower_base_lt; [assumption|assert (X := one_plus_gt (f / fc) (g * n)); lra|].
    apply Rplus_lt_compat_l. apply Rpower_base_lt; [now apply Rmult_lt_0_compat| |].
    - apply Rdiv_lt_0_compat; assumption.
    - unfold Rdiv. now apply Rmult_lt_compat_r. }
  unfold Rdiv at 1 3. apply Rmult_lt_compat_l; [assumption|].
  apply Rinv_lt_contravar; [|assumption]. apply Rmult_lt_0_compat; apply exp_pos.
Qed.

Lemma Rpower_1_base y : Rpower 1 y = 1.
Proof. unfold Rpower. rewrite ln_1, Rmult_0_r. apply exp_0. Qed.

Lemma source_model_corner M0 fc n g : 0 < fc ->
  source_model fc M0 fc n g = M0 / Rpower 2 (1 / g).
Proof.
  intros. rewrite source_model_spec. unfold abercrombie.
  replace (fc / fc) with 1 by (field; lra). rewrite Rpower_1_base. reflexivity.
Qed.

Lemma source_model_linear k f M0 fc n g : source_model f (k * M0) fc n g = k * source_model f M0 fc n g.
Proof. unfold source_model. ring. Qed.

(** limits *)
Lemma ball0 (x eps : R) : ball 0 eps x <-> Rabs x < eps.
Proof.
  change (ball 0 eps x) with (Rabs (x + - 0) < eps). rewrite Ropp_0, Rplus_0_r. tauto.
Qed.

Lemma Rpower_lim_0 p : 0 < p -> filterlim (fun x => Rpower x p) (at_right 0) (locally 0).
Proof.
  intros Hp P [eps HP]. 
  exists (mkposreal (Rpower eps (/ p)) (exp_pos _)). intros x Hx Hx0.
  apply HP. apply (proj1 (ball0 _ _)) in Hx. apply (proj2 (ball0 _ _)). cbn [pos] in Hx.
  rewrite Rabs_pos_eq in Hx by lra.
  rewrite Rabs_pos_eq by (left; apply exp_pos).
  replace (pos eps) with (Rpower (Rpower eps (/ p)) p).
  - now apply Rpower_base_lt.
  - rewrite Rpower_mult, Rinv_l by lra. apply Rpower_1. apply cond_pos.
Qed.

Lemma source_model_low M0 fc n g : 0 < fc -> 0 < n -> 0 < g ->
  filterlim (fun f => source_model f M0 fc n g) (at_right 0) (locally M0).
Proof.
  intros Hfc Hn Hg.
  set (h := fun y => M0 * Rpower (1 + y) (- (1) / g)).
  assert (H0 : h 0 = M0).
  { unfold h. rewrite Rplus_0_r, Rpower_1_base. ring. }
  assert (Hc : continuous h 0).
  { unfold h, Rpower. apply (ex_derive_continuous (V := R_NormedModule)).
    auto_derive. lra. }
  unfold continuous in Hc. rewrite H0 in Hc.
  refine (filterlim_comp _ _ _ (fun f => Rpower (f / fc) (n * g)) h _ (locally 0) _ _ Hc).
  refine (filterlim_comp _ _ _ (fun f => f / fc) (fun x => Rpower x (n * g)) _ (at_right 0) _ _ _).
  - intros P [eps HP]. exists (mkposreal (eps * fc) (Rmult_lt_0_compat _ _ (cond_pos eps) Hfc)).
    intros x Hx Hx0. apply HP.
    + apply (proj1 (ball0 _ _)) in Hx. apply (proj2 (ball0 _ _)). cbn [pos] in Hx.
      unfold Rdiv. rewrite Rabs_mult. rewrite (Rabs_pos_eq (/ fc)) by (left; now apply Rinv_0_lt_compat).
      apply (Rmult_lt_reg_r fc); [assumption|]. rewrite Rmult_assoc, Rinv_l by lra. lra.
    + now apply Rdiv_lt_0_compat.
  - apply Rpower_lim_0. now apply Rmult_lt_0_compat.
Qed.

(** f^n times the model tends to M0 fc^n: exponent of the fall-off *)
Lemma source_model_factor f M0 fc n g : 0 < f -> 0 < fc -> 0 < g ->
  source_model f M0 fc n g * Rpower (f / fc) n = M0 * Rpower (1 + Rpower (fc / f) (n * g)) (- (1) / g).
Proof.
  intros Hf Hfc Hg. unfold source_model.
  assert (Hq : 0 < f / fc) by now apply Rdiv_lt_0_compat.
  assert (E : 1 + Rpower (f / fc) (n * g) = Rpower (f / fc) (n * g) * (1 + Rpower (fc / f) (n * g))).
  { rewrite Rmult_plus_distr_l, Rmult_1_r. rewrite Rpower_mult_distr; [|assumption|now apply Rdiv_lt_0_compat].
    replace (f / fc * (fc / f)) with 1 by (field; lra). rewrite Rpower_1_base. ring. }
  rewrite E. rewrite <- Rpower_mult_distr; [|apply exp_pos|assert (X := one_plus_gt (fc / f) (n * g)); lra].
  rewrite Rpower_mult. replace (n * g * (- (1) / g)) with (- n) by (field; lra).
  rewrite Rpower_Ropp. field. apply Rgt_not_eq, exp_pos.
Qed.

Lemma source_model_high M0 fc n g : 0 < fc -> 0 < n -> 0 < g ->
  is_lim (fun f => source_model f M0 fc n g * Rpower (f / fc) n) p_infty M0.
Proof.
  intros Hfc Hn Hg.
  apply is_lim_ext_loc with (fun f => M0 * Rpower (1 + Rpower (fc / f) (n * g)) (- (1) / g)).
  - exists 0. intros f Hf. symmetry. now apply source_model_factor.
  - set (h := fun y => M0 * Rpower (1 + y) (- (1) / g)).
    assert (H0 : h 0 = M0).
    { unfold h. rewrite Rplus_0_r, Rpower_1_base. ring. }
    assert (Hc : continuous h 0).
    { unfold h, Rpower. apply (ex_derive_continuous (V := R_NormedModule)).
      auto_derive. lra. }
    unfold continuous in Hc. rewrite H0 in Hc.
    refine (filterlim_comp _ _ _ (fun f => Rpower (fc / f) (n * g)) h _ (locally 0) _ _ Hc).
    refine (filterlim_comp _ _ _ (fun f => fc / f) (fun x => Rpower x (n * g)) _ (at_right 0) _ _ _).
    + intros P [eps HP]. exists (fc / eps). intros x Hx.
      assert (0 < fc / eps) by (apply Rdiv_lt_0_compat; [assumption|apply cond_pos]).
      assert (0 < x) by lra. assert (He := cond_pos eps).
      apply HP.
      * apply (proj2 (ball0 _ _)).
        rewrite Rabs_pos_eq by (left; now apply Rdiv_lt_0_compat).
        apply (Rmult_lt_reg_r x); [assumption|]. unfold Rdiv. rewrite Rmult_assoc, Rinv_l by lra.
        apply (Rmult_lt_compat_l eps) in Hx; [|assumption].
        replace (eps * (fc / eps)) with fc in Hx by (field; lra). lra.
      * now apply Rdiv_lt_0_compat.
    + apply Rpower_lim_0. now apply Rmult_lt_0_compat.
Qed.

(** ** reparametrisation *)
Lemma ab_reparam f M0 fc a b : b <> 0 ->
  source_model f M0 fc (a * b) (1 / b) = source_model_ab f M0 fc a b.
Proof.
  intros Hb. unfold source_model, source_model_ab.
  replace (a * b * (1 / b)) with a by (field; assumption).
  replace (- (1) / (1 / b)) with (- b) by (field; assumption). reflexivity.
Qed.
