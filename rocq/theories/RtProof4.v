From Coq Require Import String List Bool Reals Lra Lia Arith.
From Coquelicot Require Import Coquelicot.
From Verif Require Import Base RtModel RtSpec RtProof RtProof2 RtProof3.
Import ListNotations.
Open Scope R_scope.

(** ** diffusion equation *)
Lemma diff_derive_t dim r t c g0 : (0 < dim)%nat -> 0 < c -> 0 < g0 -> 0 < t ->
  is_derive (fun t => diff dim r t c g0) t
    (diff dim r t c g0 *
     (- INR dim / (2 * t) + r ^ 2 / (4 * (c / (INR dim * g0)) * t ^ 2))).
Proof.
  intros Hd Hc Hg Ht. apply lt_INR in Hd. cbn in Hd. assert (Hpi := PI_RGT_0).
  assert (HD : 0 < c / (INR dim * g0)) by rpos.
  unfold diff. cbn zeta. set (D := c / (INR dim * g0)) in *. clearbody D.
  unfold Rpower.
  auto_derive.
  - assert (0 < 4 * PI * D * t) by rpos. assert (0 < 4 * D * t) by rpos.
    repeat split; lra.
  - change (r * (r * 1)) with (r ^ 2).
    replace (- r ^ 2 * / (4 * D * t)) with (- r ^ 2 / (4 * D * t)) by reflexivity.
    replace (- INR dim * / 2 * ln (4 * PI * D * t)) with (- INR dim / 2 * ln (4 * PI * D * t)) by reflexivity.
    set (e1 := exp _). set (e2 := exp _). field. lra.
Qed.

Lemma diff_derive_r dim r t c g0 : (0 < dim)%nat -> 0 < c -> 0 < g0 -> 0 < t ->
  is_derive (fun r => diff dim r t c g0) r
    (diff dim r t c g0 * (- r / (2 * (c / (INR dim * g0)) * t))).
Proof.
  intros Hd Hc Hg Ht. apply lt_INR in Hd. cbn in Hd. assert (Hpi := PI_RGT_0).
  assert (HD : 0 < c / (INR dim * g0)) by rpos.
  unfold diff. cbn zeta. set (D := c / (INR dim * g0)) in *. clearbody D.
  set (p := Rpower _ _). clearbody p.
  auto_derive.
  - trivial.
  - change (r * (r * 1)) with (r ^ 2).
    replace (- r ^ 2 * / (4 * D * t)) with (- r ^ 2 / (4 * D * t)) by reflexivity.
    set (e1 := exp _). field. lra.
Qed.

Lemma diff_derive_r2 dim r t c g0 : (0 < dim)%nat -> 0 < c -> 0 < g0 -> 0 < t ->
  is_derive (fun r => Derive (fun r => diff dim r t c g0) r) r
    (diff dim r t c g0 *
     (r ^ 2 / (4 * (c / (INR dim * g0)) ^ 2 * t ^ 2) - 1 / (2 * (c / (INR dim * g0)) * t))).
Proof.
  intros Hd Hc Hg Ht.
  apply is_derive_ext with (f := fun r => diff dim r t c g0 * (- r / (2 * (c / (INR dim * g0)) * t))).
  { intros x. symmetry. apply is_derive_unique. now apply diff_derive_r. }
  apply lt_INR in Hd. cbn in Hd. assert (Hpi := PI_RGT_0).
  assert (HD : 0 < c / (INR dim * g0)) by rpos.
  unfold diff. cbn zeta. set (D := c / (INR dim * g0)) in *. clearbody D.
  set (p := Rpower _ _). clearbody p.
  auto_derive.
  - trivial.
  - change (r * (r * 1)) with (r ^ 2).
    replace (- r ^ 2 * / (4 * D * t)) with (- r ^ 2 / (4 * D * t)) by reflexivity.
    set (e1 := exp _). field. lra.
Qed.

Lemma diffusion_equation dim r t c g0 : (0 < dim)%nat -> 0 < c -> 0 < g0 -> 0 < t -> 0 < r ->
  exists ut ur urr : R,
    is_derive (fun t => diff dim r t c g0) t ut /\
    is_derive (fun r => diff dim r t c g0) r ur /\
    is_derive (fun r => Derive (fun r => diff dim r t c g0) r) r urr /\
    ut = c / (INR dim * g0) * radial_laplacian dim r ur urr.
Proof.
  intros Hd Hc Hg Ht Hr.
  do 3 eexists. split; [now apply diff_derive_t|]. split; [now apply diff_derive_r|].
  split; [now apply diff_derive_r2|].
  apply lt_INR in Hd. cbn in Hd.
  unfold radial_laplacian. set (u := diff dim r t c g0). clearbody u. field. lra.
Qed.

Lemma diff_le_diffapprox dim r t c g0 : (0 < dim)%nat -> 0 < c -> 0 < g0 -> 0 < t ->
  diff dim r t c g0 <= diffapprox dim r t c g0.
Proof.
  intros Hd Hc Hg Ht. apply lt_INR in Hd. cbn in Hd. unfold diff, diffapprox. cbn zeta.
  rewrite <- (Rmult_1_r (Rpower _ _)) at 2.
  apply Rmult_le_compat_l; [left; apply Rpower_pos|].
  rewrite <- exp_0. assert (0 < 4 * (c / (INR dim * g0)) * t) by rpos.
  assert (0 <= r ^ 2) by apply pow2_ge_0.
  assert (- r ^ 2 / (4 * (c / (INR dim * g0)) * t) <= 0).
  { unfold Rdiv at 1. assert (0 < / (4 * (c / (INR dim * g0)) * t)) by rpos. nra. }
  destruct (Req_dec (- r ^ 2 / (4 * (c / (INR dim * g0)) * t)) 0) as [->|]; [lra|].
  left. apply exp_increasing. lra.
Qed.

(** ** late times *)
Lemma lim_cont (f g : R -> R) (l m : R) :
  is_lim f p_infty l -> g l = m -> continuous g l -> is_lim (fun t => g (f t)) p_infty m.
Proof.
  intros Hf <- Hg. unfold is_lim in *. cbn in *.
  eapply filterlim_comp; [exact Hf|exact Hg].
Qed.

Lemma lim_inv_t (k : R) : is_lim (fun t => k / t) p_infty 0.
Proof.
  replace (Finite 0) with (Rbar_mult (Finite k) (Finite 0)) by (cbn; f_equal; ring).
  apply is_lim_scal_l with (f := fun t => / t) (l := Finite 0).
  apply (is_lim_ext Rinv); [reflexivity|].
  replace (Finite 0) with (Rbar_inv p_infty) by reflexivity.
  apply is_lim_inv; [apply is_lim_id|discriminate].
Qed.

Lemma ev_gt (m : R) : Rbar_locally' p_infty (fun t => m < t).
Proof. exists m. auto. Qed.

Lemma lim_a r : is_lim (fun t => 1 - r ^ 2 / t ^ 2) p_infty 1.
Proof.
  apply (is_lim_ext_loc (fun t => 1 - (r / t) * (r / t))).
  { generalize (ev_gt 0). apply filter_imp. intros t Ht. field. lra. }
  apply (lim_cont (fun t => r / t) (fun x => 1 - x * x) 0).
  - apply lim_inv_t.
  - ring.
  - apply (@ex_derive_continuous R_AbsRing R_NormedModule). auto_derive. trivial.
Qed.

Lemma cont_Rpower y x : 0 < x -> continuous (fun x => Rpower x y) x.
Proof.
  intros Hx. apply (@ex_derive_continuous R_AbsRing R_NormedModule).
  unfold Rpower. auto_derive. assumption.
Qed.

Lemma Rpower_1_l y : Rpower 1 y = 1.
Proof. unfold Rpower. rewrite ln_1, Rmult_0_r. apply exp_0. Qed.

Lemma a_range r t : Rabs r < t -> 0 < 1 - r ^ 2 / t ^ 2 <= 1.
Proof.
  intros H. assert (0 <= Rabs r) by apply Rabs_pos.
  rewrite <- (pow2_abs r). set (x := Rabs r) in *. clearbody x.
  assert (0 <= x ^ 2 / t ^ 2).
  { apply Rmult_le_pos; [apply pow2_ge_0|left; apply Rinv_0_lt_compat; nra]. }
  assert (x ^ 2 / t ^ 2 < 1).
  { apply Rmult_lt_reg_r with (t ^ 2); [nra|]. unfold Rdiv. rewrite Rmult_assoc, Rinv_l by nra. nra. }
  lra.
Qed.

Lemma pow_between a y : 0 < a <= 1 -> 0 < y <= 1 -> a <= Rpower a y <= 1.
Proof.
  intros Ha Hy. assert (ln a <= 0).
  { rewrite <- ln_1. destruct (Req_dec a 1) as [->|]; [lra|]. left. apply ln_increasing; lra. }
  unfold Rpower. split.
  - rewrite <- (exp_ln a) at 1 by lra.
    destruct (Req_dec (ln a) (y * ln a)) as [<-|]; [lra|]. left. apply exp_increasing. nra.
  - rewrite <- exp_0. destruct (Req_dec 0 (y * ln a)) as [<-|]; [lra|]. left. apply exp_increasing. nra.
Qed.

Lemma lim_t_a r y : 0 < y <= 1 -> is_lim (fun t => t * (Rpower (1 - r ^ 2 / t ^ 2) y - 1)) p_infty 0.
Proof.
  intros Hy.
  apply (is_lim_le_le_loc (fun t => - r ^ 2 / t) (fun _ => 0)).
  - generalize (ev_gt (Rabs r)). apply filter_imp. intros t Ht.
    assert (0 <= Rabs r) by apply Rabs_pos.
    assert (Ha := a_range r t Ht). assert (Hp := pow_between _ y Ha Hy).
    split.
    + replace (- r ^ 2 / t) with (t * ((1 - r ^ 2 / t ^ 2) - 1)) by (field; lra).
      apply Rmult_le_compat_l; lra.
    + rewrite <- (Rmult_0_r t). apply Rmult_le_compat_l; lra.
  - apply lim_inv_t.
  - apply is_lim_const.
Qed.

Lemma lim_F r : is_lim (fun t => rtF (t * Rpower (1 - r ^ 2 / t ^ 2) 0.75)) p_infty 1.
Proof.
  unfold rtF. 
  apply (lim_cont (fun t => 2.026 / (t * Rpower (1 - r ^ 2 / t ^ 2) 0.75)) (fun x => sqrt (1 + x)) 0).
  - apply (is_lim_ext_loc (fun t => 2.026 / t * / Rpower (1 - r ^ 2 / t ^ 2) 0.75)).
    { generalize (ev_gt 0). apply filter_imp. intros t Ht.
      assert (0 < Rpower (1 - r ^ 2 / t ^ 2) 0.75) by apply Rpower_pos. field. lra. }
    replace (Finite 0) with (Rbar_mult (Finite 0) (Finite (/ 1))) by (cbn; f_equal; ring).
    apply is_lim_mult.
    + apply lim_inv_t.
    + apply (lim_cont (fun t => 1 - r ^ 2 / t ^ 2) (fun a => / Rpower a 0.75) 1);
        [apply lim_a|now rewrite Rpower_1_l|].
      apply continuous_Rinv_comp; [apply cont_Rpower; lra|].
      assert (H := Rpower_pos 1 0.75). lra.
    + exact I.
  - rewrite Rplus_0_r. apply sqrt_1.
  - apply continuous_sqrt_comp.
    apply (@ex_derive_continuous R_AbsRing R_NormedModule). auto_derive. trivial.
Qed.

Lemma rt3d_reduced_limit r :
  is_lim (fun t => rt3d_coda_reduced r t / (/ Rpower (4 * PI * t / 3) 1.5 * exp (- 3 * r ^ 2 / (4 * t)))) p_infty 1.
Proof.
  set (f := fun t => Rpower (1 - r ^ 2 / t ^ 2) 0.125 *
                     exp (t * (Rpower (1 - r ^ 2 / t ^ 2) 0.75 - 1)) *
                     rtF (t * Rpower (1 - r ^ 2 / t ^ 2) 0.75) *
                     exp ((3 * r ^ 2 / 4) / t)).
  apply (is_lim_ext_loc f).
  - generalize (ev_gt 0). apply filter_imp. intros t Ht. unfold f, rt3d_coda_reduced. cbn zeta.
    replace (- 3 * r ^ 2 / (4 * t)) with (- (3 * r ^ 2 / 4 / t)) by (field; lra).
    rewrite exp_Ropp.
    assert (0 < Rpower (4 * PI * t / 3) 1.5) by apply Rpower_pos.
    assert (0 < exp (3 * r ^ 2 / 4 / t)) by apply exp_pos.
    field. lra.
  - unfold f.
    replace (Finite 1) with (Rbar_mult (Finite (1 * 1 * 1)) (Finite 1)) by (cbn; f_equal; ring).
    assert (H1 : is_lim (fun t => Rpower (1 - r ^ 2 / t ^ 2) 0.125) p_infty 1).
    { apply (lim_cont (fun t => 1 - r ^ 2 / t ^ 2) (fun a => Rpower a 0.125) 1); [apply lim_a|apply Rpower_1_l|].
      apply cont_Rpower. lra. }
    assert (H2 : is_lim (fun t => exp (t * (Rpower (1 - r ^ 2 / t ^ 2) 0.75 - 1))) p_infty 1).
    { apply (lim_cont _ exp 0); [|apply exp_0|apply continuous_exp]. apply lim_t_a. lra. }
    assert (H4 : is_lim (fun t => exp ((3 * r ^ 2 / 4) / t)) p_infty 1).
    { apply (lim_cont _ exp 0); [|apply exp_0|apply continuous_exp]. apply lim_inv_t. }
    apply is_lim_mult; [|exact H4|exact I].
    apply (is_lim_mult _ _ _ (Finite (1 * 1)) (Finite 1)); [|apply lim_F|exact I].
    apply (is_lim_mult _ _ _ (Finite 1) (Finite 1)); [exact H1|exact H2|exact I].
Qed.

Lemma lim_scaled (f : R -> R) (k l : R) : 0 < k -> is_lim f p_infty l ->
  is_lim (fun t => f (t * k)) p_infty l.
Proof.
  intros Hk Hf. apply (is_lim_comp f (fun t => t * k) p_infty l p_infty); [exact Hf| |].
  - replace p_infty with (Rbar_mult p_infty (Finite k)) at 2.
    2:{ cbn. destruct (Rle_dec 0 k) as [H|H]; [|lra]. destruct (Rle_lt_or_eq_dec 0 k H); [reflexivity|lra]. }
    apply is_lim_mult; [apply is_lim_id|apply is_lim_const|]. cbn. lra.
  - exists 0. intros; discriminate.
Qed.

Lemma diff3_reduced r t c g0 : 0 < c -> 0 < g0 -> 0 < t ->
  diff 3 r t c g0 =
  (/ Rpower (4 * PI * (t * (c * g0)) / 3) 1.5 * exp (- 3 * (r * g0) ^ 2 / (4 * (t * (c * g0))))) * g0 ^ 3.
Proof.
  intros Hc Hg Ht. assert (Hpi := PI_RGT_0). unfold diff. cbn zeta.
  replace (INR 3) with 3 by (cbn; ring).
  replace (4 * PI * (c / (3 * g0)) * t) with ((4 * PI * (t * (c * g0)) / 3) * (/ g0) ^ 2) by (field; lra).
  rewrite <- Rpower_mult_distr by rpos.
  replace (Rpower ((/ g0) ^ 2) (- (3) / 2)) with (/ (/ g0) ^ 3).
  2:{ rewrite <- Rpower_opp_half_pow by rpos. f_equal. cbn. field. }
  replace (- (3) / 2) with (- (1.5)) by lra.
  rewrite Rpower_Ropp.
  replace (- r ^ 2 / (4 * (c / (3 * g0)) * t)) with (- 3 * (r * g0) ^ 2 / (4 * (t * (c * g0)))) by (field; lra).
  assert (0 < Rpower (4 * PI * (t * (c * g0)) / 3) 1.5) by apply Rpower_pos.
  field. lra.
Qed.

Lemma rt3d_late r c g0 : 0 < c -> 0 < g0 ->
  is_lim (fun t => rt3d_coda r t c g0 / diff 3 r t c g0) p_infty 1.
Proof.
  intros Hc Hg.
  assert (H : 0 < c * g0) by nra.
  apply (is_lim_ext_loc (fun t => (fun t => rt3d_coda_reduced (r * g0) t /
     (/ Rpower (4 * PI * t / 3) 1.5 * exp (- 3 * (r * g0) ^ 2 / (4 * t)))) (t * (c * g0)))).
  - generalize (ev_gt 0). apply filter_imp. intros t Ht. cbv beta.
    rewrite diff3_reduced by assumption. unfold rt3d_coda.
    replace (t * c * g0) with (t * (c * g0)) by ring.
    assert (0 < Rpower (4 * PI * (t * (c * g0)) / 3) 1.5) by apply Rpower_pos.
    set (e := exp _). assert (0 < e) by apply exp_pos.
    field. lra.
  - apply (lim_scaled (fun t => rt3d_coda_reduced (r * g0) t /
     (/ Rpower (4 * PI * t / 3) 1.5 * exp (- 3 * (r * g0) ^ 2 / (4 * t))))); [assumption|].
    apply rt3d_reduced_limit.
Qed.

Lemma diffapprox_late dim r c g0 : (0 < dim)%nat -> 0 < c -> 0 < g0 ->
  is_lim (fun t => diff dim r t c g0 / diffapprox dim r t c g0) p_infty 1.
Proof.
  intros Hd Hc Hg. apply lt_INR in Hd. cbn in Hd.
  assert (HD : 0 < c / (INR dim * g0)) by rpos.
  apply (is_lim_ext_loc (fun t => exp ((- r ^ 2 / (4 * (c / (INR dim * g0)))) / t))).
  - generalize (ev_gt 0). apply filter_imp. intros t Ht. unfold diff, diffapprox. cbn zeta.
    set (D := c / (INR dim * g0)) in *. clearbody D.
    set (p := Rpower _ _). assert (0 < p) by apply Rpower_pos.
    replace (- r ^ 2 / (4 * D * t)) with (- r ^ 2 / (4 * D) / t) by (field; lra). field. lra.
  - apply (lim_cont _ exp 0); [|apply exp_0|apply continuous_exp]. apply lim_inv_t.
Qed.

Lemma sqrt_gap r T : Rabs r < T -> 
  - (r ^ 2) / T <= sqrt (T ^ 2 - r ^ 2) - T <= 0.
Proof.
  intros H. assert (0 <= Rabs r) by apply Rabs_pos.
  assert (Hr : r ^ 2 < T ^ 2) by (rewrite <- (pow2_abs r); nra).
  assert (0 <= r ^ 2) by apply pow2_ge_0.
  assert (Hs : 0 <= sqrt (T ^ 2 - r ^ 2)) by apply sqrt_pos.
  assert (Hss : sqrt (T ^ 2 - r ^ 2) * sqrt (T ^ 2 - r ^ 2) = T ^ 2 - r ^ 2) by (apply sqrt_sqrt; lra).
  set (s := sqrt _) in *. clearbody s. split.
  - apply Rmult_le_reg_r with T; [lra|]. unfold Rdiv. rewrite Rmult_assoc, Rinv_l by lra. nra.
  - nra.
Qed.

Lemma rt2d_late r c g0 : 0 < c -> 0 < g0 ->
  is_lim (fun t => rt2d_coda r t c g0 / diff 2 r t c g0) p_infty 1.
Proof.
  intros Hc Hg. assert (Hpi := PI_RGT_0).
  set (f := fun t => Rpower (1 - (r / c) ^ 2 / t ^ 2) (-1 / 2) *
                     exp ((sqrt (c ^ 2 * t ^ 2 - r ^ 2) - c * t) * g0) *
                     exp ((r ^ 2 * g0 / (2 * c)) / t)).
  apply (is_lim_ext_loc f).
  - generalize (ev_gt 0). apply filter_imp. intros t Ht. unfold f, rt2d_coda, diff. cbn zeta.
    replace (INR 2) with 2 by (cbn; ring).
    replace (- (2) / 2) with (- (1)) by field. rewrite Rpower_Ropp, Rpower_1 by rpos.
    replace (r ^ 2 / c ^ 2 / t ^ 2) with ((r / c) ^ 2 / t ^ 2) by (field; lra).
    replace ((sqrt (c ^ 2 * t ^ 2 - r ^ 2) - c * t) / (1 / g0)) with
      ((sqrt (c ^ 2 * t ^ 2 - r ^ 2) - c * t) * g0) by (field; lra).
    replace (- r ^ 2 / (4 * (c / (2 * g0)) * t)) with (- (r ^ 2 * g0 / (2 * c) / t)) by (field; lra).
    rewrite exp_Ropp. set (e := exp (r ^ 2 * g0 / (2 * c) / t)). assert (0 < e) by apply exp_pos.
    field. lra.
  - unfold f.
    replace (Finite 1) with (Rbar_mult (Finite (1 * 1)) (Finite 1)) by (cbn; f_equal; ring).
    apply is_lim_mult; [| |exact I].
    + apply (is_lim_mult _ _ _ (Finite 1) (Finite 1)); [| |exact I].
      * apply (lim_cont (fun t => 1 - (r / c) ^ 2 / t ^ 2) (fun a => Rpower a (-1 / 2)) 1); [apply lim_a|apply Rpower_1_l|].
        apply cont_Rpower. lra.
      * apply (lim_cont _ exp 0); [|apply exp_0|apply continuous_exp].
        apply (is_lim_le_le_loc (fun t => (- (r ^ 2) * g0 / c) / t) (fun _ => 0)).
        -- generalize (ev_gt (Rabs r / c)). apply filter_imp. intros t Ht.
           assert (0 <= Rabs r) by apply Rabs_pos.
           assert (Hct : Rabs r < c * t) by (now apply front_iff2).
           assert (0 < t) by (apply Rmult_lt_reg_l with c; lra).
           assert (Hgap := sqrt_gap r (c * t) Hct).
           replace (c ^ 2 * t ^ 2 - r ^ 2) with ((c * t) ^ 2 - r ^ 2) by ring.
           split.
           ++ replace (- r ^ 2 * g0 / c / t) with (- r ^ 2 / (c * t) * g0) by (field; lra).
              apply Rmult_le_compat_r; lra.
           ++ nra.
        -- apply lim_inv_t.
        -- apply is_lim_const.
    + apply (lim_cont _ exp 0); [|apply exp_0|apply continuous_exp]. apply lim_inv_t.
Qed.

(** ** absorption in plots *)
Lemma plot_r_absorption c g0 t r N d la ty :
  forall rs0 pts, plot_r c g0 (Some t) r N d None ty = Ok rs0 ->
  plot_r c g0 (Some t) r N d (Some la) ty = Ok pts ->
  pts = map (fun p => (fst p, snd p * exp (- c * t / la))) rs0.
Proof.
  unfold plot_r. intros rs0 pts.
  destruct r as [r|]; cbn [bind];
  (destruct (G_dists _ _ _ _ _ _) as [G_|e]; cbn [bind]; [|discriminate];
   intros [= <-] [= <-];
   match goal with |- combine ?l _ = _ => generalize l end; clear;
   intros l; revert l; induction G_ as [|g G_ IH]; intros [|x l]; cbn; try reflexivity; f_equal; apply IH).
Qed.

Lemma combine_scale (l : list R) (g : list R) k :
  combine l (map (fun x => x * k) g) = map (fun p => (fst p, snd p * k)) (combine l g).
Proof. revert l; induction g as [|x g IH]; intros [|a l]; cbn; try reflexivity. f_equal. apply IH. Qed.

Lemma plot_t_scaled c g0 r t N d la ty pts0 :
  plot_t c g0 r (Some t) N d None ty = Ok pts0 ->
  plot_t c g0 r (Some t) N d (Some la) ty =
  Ok (map (fun p => (fst p, snd p * exp (- c * t / la))) pts0).
Proof.
  unfold plot_t. destruct (G_times _ _ _ _ _ _) as [G_|e]; cbn [bind]; [|discriminate].
  intros [= <-]. now rewrite combine_scale.
Qed.

Lemma plot_t_last c g0 r t N d la ty pts0 pts k :
  plot_t c g0 r (Some t) N d None ty = Ok pts0 ->
  plot_t c g0 r (Some t) N d (Some la) ty = Ok pts ->
  fst (nth k pts0 (0, 0)) = t ->
  nth k pts (0, 0) = (t, snd (nth k pts0 (0, 0)) * exp (- c * t / la)).
Proof.
  intros H0 H1 Hk. rewrite (plot_t_scaled _ _ _ _ _ _ _ _ _ H0) in H1. injection H1 as <-.
  destruct (Nat.lt_ge_cases k (length pts0)) as [L|L].
  - rewrite nth_indep with (d' := (fun p => (fst p, snd p * exp (- c * t / la))) (0, 0))
      by now rewrite map_length.
    rewrite (map_nth (fun p => (fst p, snd p * exp (- c * t / la)))). now rewrite Hk.
  - rewrite nth_overflow in Hk by assumption. cbn in Hk. subst t.
    rewrite !nth_overflow by (rewrite ?map_length; assumption). cbn. f_equal. ring.
Qed.

Lemma plot_t_wrong : exists c g0 r t N la ty pts0 pts,
  0 < c /\ 0 < g0 /\ 0 < r < c * t /\ 0 < la /\
  plot_t c g0 (Some r) (Some t) N false None ty = Ok pts0 /\
  plot_t c g0 (Some r) (Some t) N false (Some la) ty = Ok pts /\
  pts <> map (fun p => (fst p, snd p * exp (- c * fst p / la))) pts0.
Proof.
  exists 1, 1, 1, 2, 2%nat, 1, "diffapprox1d"%string.
  assert (HE : exists pts0, plot_t 1 1 (Some 1) (Some 2) 2 false None "diffapprox1d" = Ok pts0 /\
     exists x y, nth 2 pts0 (0, 0) = (x, y) /\ x = 1.001 /\ 0 < y).
  { unfold plot_t, G_times, plot_t_times. cbn [map seq app logspace select String.eqb Ascii.eqb Bool.eqb andb].
    assert (Hp : Rpower 10 (-3 + INR 0 * ((log10 (2 - 1 / 1) - -3) / INR (2 - 1))) = 0.001).
    { cbn [INR]. rewrite Rmult_0_l, Rplus_0_r.
      replace (-3) with (- INR 3) by (cbn; ring). rewrite Rpower_Ropp, Rpower_pow by lra.
      replace (10 ^ 3) with 1000 by ring. lra. }
    assert (Hl : log10 (2 - 1 / 1) = 0).
    { unfold log10. replace (2 - 1 / 1) with 1 by field. rewrite ln_1. unfold Rdiv. ring. }
    assert (Hq : Rpower 10 (-3 + INR 1 * ((log10 (2 - 1 / 1) - -3) / INR (2 - 1))) = 1).
    { rewrite Hl. replace (-3 + INR 1 * ((0 - -3) / INR (2 - 1))) with 0 by (change (INR (2 - 1)) with 1; change (INR 1) with 1; lra).
      apply Rpower_O. lra. }
    rewrite Hp, Hq. clear Hp Hq Hl.
    unfold count_nonzero, ltb0. cbn [filter].
    repeat match goal with |- context [Rlt_dec ?a 0] => destruct (Rlt_dec a 0); try (exfalso; lra) end.
    cbn [length Nat.add firstn skipn map app andb bind combine].
    eexists. split; [reflexivity|]. cbn [nth]. do 2 eexists. split; [reflexivity|]. split; [lra|].
    apply diffapprox_pos. }
  destruct HE as (pts0 & H0 & x & y & Hn & -> & Hy).
  assert (H1 := plot_t_scaled _ _ _ _ _ _ 1 _ _ H0).
  do 2 eexists. repeat (split; [first [lra | eassumption]|]).
  intros E. apply (f_equal (fun l => snd (nth 2 l (0, 0)))) in E.
  assert (L : (2 < length pts0)%nat).
  { destruct (Nat.lt_ge_cases 2 (length pts0)); [assumption|].
    rewrite nth_overflow in Hn by assumption. injection Hn as E1 E2. lra. }
  rewrite nth_indep with (d' := (fun p => (fst p, snd p * exp (- (1) * 2 / 1))) (0, 0)) in E
    by now rewrite map_length.
  rewrite (map_nth (fun p => (fst p, snd p * exp (- (1) * 2 / 1)))) in E.
  rewrite nth_indep with (l := map _ pts0) (d' := (fun p => (fst p, snd p * exp (- (1) * fst p / 1))) (0, 0)) in E
    by now rewrite map_length.
  rewrite (map_nth (fun p => (fst p, snd p * exp (- (1) * fst p / 1)))) in E.
  rewrite Hn in E. cbn [fst snd] in E. apply Rmult_eq_reg_l in E; [|lra].
  apply exp_inv in E. lra.
Qed.

(** the first sample is lost when the vector starts behind the front *)
Lemma G_times_first_lost ty r ts c g0 d :
  In ty documented_types -> 0 <= r -> 0 < c -> 0 < g0 -> (2 <= length ts)%nat -> increasing ts ->
  r / c < nth 0 ts 0 ->
  exists gs v, G_times ty r ts c g0 d = Ok gs /\ nth 0 gs 0 = 0 /\
    G_scalar ty r (nth 0 ts 0) c g0 = Ok v /\ 0 < v.
Proof.
  intros Hty Hr Hc Hg HL Hinc H0.
  destruct (G_times_spec ty r ts c g0 d Hty Hc HL Hinc) as (gs & Gc & Gd & HG & _ & _ & _ & _ & _ & H).
  destruct (G_scalar_pos ty r (nth 0 ts 0) c g0 Hty Hr Hc Hg H0) as (v & Hv & Hp).
  exists gs, v. repeat split; try assumption. apply H. lra.
Qed.

Lemma increasing2 a b : a < b -> increasing [a; b].
Proof. intros H i j Hij. cbn in Hij. destruct i as [|[|i]]; destruct j as [|[|j]]; cbn; try lia; lra. Qed.

Lemma increasing3 a b c : a < b -> b < c -> increasing [a; b; c].
Proof.
  intros H H' i j Hij. cbn in Hij.
  destruct i as [|[|[|i]]]; destruct j as [|[|[|j]]]; cbn; try lia; lra.
Qed.

Lemma G_times_refuted : exists ty r ts c g0 d gs k,
  In ty documented_types /\ 0 <= r /\ 0 < c /\ 0 < g0 /\ (2 <= length ts)%nat /\ increasing ts /\
  G_times ty r ts c g0 d = Ok gs /\ (k < length ts)%nat /\ ~ impulse_sample ts (r / c) k /\
  G_scalar ty r (nth k ts 0) c g0 <> Ok (nth k gs 0).
Proof.
  assert (Hi := increasing2 2 3 ltac:(lra)).
  destruct (G_times_first_lost "rt3d" 1 [2; 3] 1 1 true) as (gs & v & H1 & H2 & H3 & H4);
    try lra; try assumption; try (left; reflexivity); try (cbn; lia); try (cbn; lra).
  exists "rt3d"%string, 1, [2; 3], 1, 1, true, gs, 0%nat.
  repeat (split; [first [lra | assumption | left; reflexivity | cbn; lia ]|]).
  split; [intros [Hk _]; lia|]. rewrite H3, H2. intros [= E]. lra.
Qed.

Lemma G_dists_refuted : exists ty rs t c g0 gs k,
  In ty documented_types /\ 0 < c /\ 0 < g0 /\ 0 < t /\ (2 <= length rs)%nat /\ increasing rs /\
  (forall j, (j < length rs)%nat -> c * t < nth j rs 0) /\
  G_dists ty rs t c g0 true = Ok gs /\ (k < length rs)%nat /\ ~ first_beyond rs (c * t) k /\
  G_scalar ty (nth k rs 0) t c g0 = Ok 0 /\ nth k gs 0 <> 0.
Proof.
  assert (Hi := increasing2 2 3 ltac:(lra)).
  destruct (G_dists_spec "rt3d" [2; 3] 1 1 1 true) as (gs & Gc & Gd & H1 & Hs & _ & _ & _ & _ & H2);
    try assumption; try (left; reflexivity); try (cbn; lia).
  injection Hs as <- <-.
  exists "rt3d"%string, [2; 3], 1, 1, 1, gs, 0%nat.
  repeat (split; [first [lra | assumption | left; reflexivity | cbn; lia ]|]).
  split. { intros [|[|j]] Hj; cbn in *; try lia; lra. }
  split; [assumption|]. split; [cbn; lia|]. split; [intros [Hk _]; lia|].
  split. { apply G_scalar_causal. cbn. lra. }
  rewrite H2 by (cbn; lra). cbn [nth].
  assert (0 < rt3d_direct 1 1 1) by (apply rt_direct_pos; lra).
  apply Rgt_not_eq. apply Rdiv_lt_0_compat; lra.
Qed.

Lemma select_direct ty Gc Gd t c g0 : select ty = Some (Gc, Gd) -> 0 < c -> 0 < g0 -> 0 < t ->
  Gd t c g0 = direct_energy ty t c g0.
Proof.
  intros H Hc Hg Ht. assert (Hpi := PI_RGT_0).
  assert (Hty : In ty documented_types) by (apply select_documented; eauto).
  destruct Hty as [<-|[<-|[<-|[<-|[<-|[<-|[<-|[<-|[<-|[]]]]]]]]]]; cbn in H; injection H as <- <-;
    unfold direct_energy; cbn [String.eqb Ascii.eqb Bool.eqb]; try reflexivity.
  - unfold rt3d_direct. cbn zeta. replace (- c * t * g0) with (- (c * t * g0)) by ring. field. lra.
  - unfold rt2d_direct. cbn zeta. replace (- c * t / (1 / g0)) with (- (c * t * g0)) by (field; lra). field. lra.
  - unfold rt1d_direct. cbn zeta. replace (- c * t / 2 / (1 / g0)) with (- (c * t * g0) / 2) by (field; lra). field.
Qed.

Lemma G_times_direct ty r ts c g0 d k : In ty documented_types -> 0 < c -> 0 < g0 -> 0 < r ->
  (2 <= length ts)%nat -> increasing ts -> impulse_sample ts (r / c) k ->
  exists gs, G_times ty r ts c g0 d = Ok gs /\
    nth k gs 0 = if d then direct_energy ty (r / c) c g0 / (nth 1 ts 0 - nth 0 ts 0) / c else 0.
Proof.
  intros Hty Hc Hg Hr HL Hinc Hk.
  destruct (G_times_spec ty r ts c g0 d Hty Hc HL Hinc) as (gs & Gc & Gd & HG & Hs & _ & _ & _ & H & _).
  exists gs. split; [assumption|]. rewrite (H k Hk).
  now rewrite (select_direct ty Gc Gd (r / c) c g0 Hs Hc Hg) by (apply Rdiv_lt_0_compat; assumption).
Qed.

Lemma G_dists_direct ty rs t c g0 d k : In ty documented_types -> 0 < c -> 0 < g0 -> 0 < t ->
  (2 <= length rs)%nat -> increasing rs -> first_beyond rs (c * t) k ->
  exists gs, G_dists ty rs t c g0 d = Ok gs /\
    nth k gs 0 = if d then direct_energy ty t c g0 / (nth 1 rs 0 - nth 0 rs 0) else 0.
Proof.
  intros Hty Hc Hg Ht HL Hinc Hk.
  destruct (G_dists_spec ty rs t c g0 d Hty HL Hinc) as (gs & Gc & Gd & HG & Hs & _ & _ & _ & H & _).
  exists gs. split; [assumption|]. rewrite (H k Hk).
  now rewrite (select_direct ty Gc Gd t c g0 Hs Hc Hg Ht).
Qed.

Lemma G_scalar_time_unit' ty k r t c g0 :
  In ty documented_types -> 0 < k -> 0 < c -> g0 <> 0 -> 0 < t ->
  G_scalar ty r (k * t) (c / k) g0 = G_scalar ty r t c g0.
Proof.
  intros. rewrite G_scalar_time_unit by assumption. now destruct (G_scalar ty r t c g0).
Qed.

Lemma plot_r_ok c g0 t r N d la ty : In ty documented_types -> (2 <= N)%nat ->
  exists pts, plot_r c g0 (Some t) (Some r) N d la ty = Ok pts.
Proof.
  intros Hty HN. apply select_documented in Hty as [[Gc Gd] Hs].
  unfold plot_r, linspace0. cbn [bind]. destruct N as [|[|N]]; try lia. cbn [seq map].
  unfold G_dists. rewrite Hs. cbn zeta. destruct (_ && _); cbn [bind]; eauto.
Qed.

Lemma plot_t_ok c g0 t r N d la ty : In ty documented_types ->
  exists pts, plot_t c g0 (Some r) (Some t) N d la ty = Ok pts.
Proof.
  intros Hty. apply select_documented in Hty as [[Gc Gd] Hs].
  unfold plot_t, plot_t_times. cbn [app map].
  unfold G_times. rewrite Hs. cbn zeta. destruct (_ && _); cbn [bind]; eauto.
Qed.

(** two arrays that are refused *)
Lemma G_arrays_refused ty rs ts c g0 :
  (length rs = length ts -> G_arrays ty rs ts c g0 true = Err NotImplementedError) /\
  (forall d, length rs <> length ts -> G_arrays ty rs ts c g0 d = Err ValueError).
Proof.
  unfold G_arrays. split; [intros H; now rewrite H, Nat.eqb_refl|].
  intros d H. destruct (Nat.eqb_spec (length ts) (length rs)) as [E|]; [|reflexivity]. congruence.
Qed.
