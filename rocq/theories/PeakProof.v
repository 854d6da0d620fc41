(** C144: rise, peak and decay of the diffusion solutions. *)
From Coq Require Import String List Reals Lra Lia Arith.
From Coquelicot Require Import Coquelicot.
From Verif Require Import Base RtModel RtSpec RtProof DiffuSpec DiffuProof.
Open Scope R_scope.

Lemma diff_exp dim r t c g0 : (0 < dim)%nat -> 0 < c -> 0 < g0 -> 0 < t ->
  diff dim r t c g0 = exp (- INR dim / 2 * (ln (4 * PI * (c / (INR dim * g0))) + ln t) - INR dim * g0 * r ^ 2 / (4 * c) * / t).
Proof.
  intros Hd Hc Hg Ht. apply lt_INR in Hd. cbn [INR] in Hd. pose proof PI_RGT_0 as Hp.
  unfold diff, Rpower. rewrite <- exp_plus. f_equal.
  assert (HD : 0 < c / (INR dim * g0)) by (apply Rdiv_lt_0_compat; [exact Hc|now apply Rmult_lt_0_compat]).
  rewrite ln_mult; [|apply Rmult_lt_0_compat; lra|exact Ht]. field. lra.
Qed.

Lemma diff_rise dim r s t c g0 : (0 < dim)%nat -> 0 < c -> 0 < g0 -> 0 < s -> s < t -> t <= r ^ 2 * g0 / (2 * c) -> diff dim r s c g0 < diff dim r t c g0.
Proof.
  intros Hd Hc Hg Hs Hst Ht. rewrite !diff_exp by (auto; lra). apply exp_increasing. apply lt_INR in Hd. cbn [INR] in Hd.
  assert (L : ln t < ln s + (t / s - 1)).
  { assert (Hu : 1 < t / s) by (apply (Rmult_lt_reg_r s); [exact Hs|]; unfold Rdiv; rewrite Rmult_assoc, Rinv_l by lra; lra).
    pose proof (exp_ineq1 (t / s - 1) ltac:(lra)) as E. apply ln_increasing in E; [|lra]. rewrite ln_exp in E.
    replace (1 + (t / s - 1)) with (t / s) in E by ring. unfold Rdiv in E. rewrite ln_mult, ln_Rinv in E; try lra. now apply Rinv_0_lt_compat. }
  set (a := INR dim * g0 * r ^ 2 / (4 * c)).
  assert (A : INR dim / 2 * t <= a).
  { unfold a. replace (INR dim * g0 * r ^ 2 / (4 * c)) with (INR dim / 2 * (r ^ 2 * g0 / (2 * c))) by (field; lra). apply Rmult_le_compat_l; lra. }
  assert (E1 : / s - / t = (t / s - 1) * / t) by (field; lra).
  assert (B : INR dim / 2 * (t / s - 1) <= a * (/ s - / t)).
  { rewrite E1. replace (INR dim / 2 * (t / s - 1)) with (INR dim / 2 * t * ((t / s - 1) * / t)) by (field; lra).
    apply Rmult_le_compat_r; [|exact A]. rewrite <- E1. apply Rlt_le. assert (/ t < / s) by (apply Rinv_lt_contravar; [now apply Rmult_lt_0_compat; lra|lra]). lra. }
  nra.
Qed.

Lemma diff_decay dim r s t c g0 : (0 < dim)%nat -> 0 < c -> 0 < g0 -> 0 < s -> s < t -> r ^ 2 * g0 / (2 * c) <= s -> diff dim r t c g0 < diff dim r s c g0.
Proof.
  intros Hd Hc Hg Hs Hst Ht. rewrite !diff_exp by (auto; lra). apply exp_increasing. apply lt_INR in Hd. cbn [INR] in Hd.
  assert (L : ln s < ln t + (s / t - 1)).
  { assert (Hu : s / t < 1) by (apply (Rmult_lt_reg_r t); [lra|]; unfold Rdiv; rewrite Rmult_assoc, Rinv_l by lra; lra).
    assert (Hp : 0 < s / t) by (apply Rdiv_lt_0_compat; lra).
    pose proof (exp_ineq1 (s / t - 1) ltac:(lra)) as E. apply ln_increasing in E; [|lra]. rewrite ln_exp in E.
    replace (1 + (s / t - 1)) with (s / t) in E by ring. unfold Rdiv in E. rewrite ln_mult, ln_Rinv in E; try lra. apply Rinv_0_lt_compat; lra. }
  set (a := INR dim * g0 * r ^ 2 / (4 * c)).
  assert (A : a <= INR dim / 2 * s).
  { unfold a. replace (INR dim * g0 * r ^ 2 / (4 * c)) with (INR dim / 2 * (r ^ 2 * g0 / (2 * c))) by (field; lra). apply Rmult_le_compat_l; lra. }
  assert (E1 : / s - / t = (1 - s / t) * / s) by (field; lra).
  assert (B : a * (/ s - / t) <= INR dim / 2 * (1 - s / t)).
  { rewrite E1. replace (INR dim / 2 * (1 - s / t)) with (INR dim / 2 * s * ((1 - s / t) * / s)) by (field; lra).
    apply Rmult_le_compat_r; [|exact A]. rewrite <- E1. apply Rlt_le. assert (/ t < / s) by (apply Rinv_lt_contravar; [now apply Rmult_lt_0_compat; lra|lra]). lra. }
  nra.
Qed.

Lemma diff_far dim r r' t c g0 : (0 < dim)%nat -> 0 < c -> 0 < g0 -> 0 < t -> 0 <= r -> r < r' -> diff dim r' t c g0 < diff dim r t c g0.
Proof.
  intros Hd Hc Hg Ht Hr Hrr. rewrite !diff_exp by auto. apply exp_increasing. apply lt_INR in Hd. cbn [INR] in Hd.
  assert (Q : r ^ 2 < r' ^ 2) by nra.
  assert (K : 0 < INR dim * g0 / (4 * c) * / t).
  { apply Rmult_lt_0_compat; [|now apply Rinv_0_lt_compat]. apply Rdiv_lt_0_compat; [now apply Rmult_lt_0_compat|lra]. }
  replace (INR dim * g0 * r' ^ 2 / (4 * c) * / t) with (INR dim * g0 / (4 * c) * / t * r' ^ 2) by (field; lra).
  replace (INR dim * g0 * r ^ 2 / (4 * c) * / t) with (INR dim * g0 / (4 * c) * / t * r ^ 2) by (field; lra).
  assert (INR dim * g0 / (4 * c) * / t * r ^ 2 < INR dim * g0 / (4 * c) * / t * r' ^ 2) by (apply Rmult_lt_compat_l; assumption). lra.
Qed.

Lemma G_diff dim r t c g0 : dimension dim -> G_scalar (diff_type dim) r t c g0 = Ok (if Rlt_dec (t - r / c) 0 then 0 else diff dim r t c g0).
Proof. unfold G_scalar. intros [->|[->| ->]]; cbn; destruct (Rlt_dec (t - r / c) 0); reflexivity. Qed.

Lemma dim_pos dim : dimension dim -> (0 < dim)%nat.
Proof. intros [->|[->| ->]]; lia. Qed.

Lemma diff_positive dim r t c g0 : 0 < diff dim r t c g0.
Proof. unfold diff, Rpower. apply Rmult_lt_0_compat; apply exp_pos. Qed.

(** G at the times behind the front *)
Lemma G_behind dim r t c g0 : dimension dim -> r / c <= t -> G_scalar (diff_type dim) r t c g0 = Ok (diff dim r t c g0).
Proof. intros Hd H. rewrite G_diff by exact Hd. destruct (Rlt_dec (t - r / c) 0); [lra|reflexivity]. Qed.

Lemma peak_rise dim r s t c g0 : dimension dim -> 0 < c -> 0 < g0 -> 0 < r -> r / c <= s -> s < t -> t <= r ^ 2 * g0 / (2 * c) ->
  exists Es Et, G_scalar (diff_type dim) r s c g0 = Ok Es /\ G_scalar (diff_type dim) r t c g0 = Ok Et /\ Es < Et.
Proof.
  intros Hd Hc Hg Hr Hs Hst Ht. assert (0 < r / c) by now apply Rdiv_lt_0_compat.
  eexists _, _. split; [apply G_behind; auto|]. split; [apply G_behind; auto; lra|]. apply diff_rise; auto using dim_pos; lra.
Qed.

Lemma peak_decay dim r s t c g0 : dimension dim -> 0 < c -> 0 < g0 -> 0 < r -> r / c <= s -> r ^ 2 * g0 / (2 * c) <= s -> s < t ->
  exists Es Et, G_scalar (diff_type dim) r s c g0 = Ok Es /\ G_scalar (diff_type dim) r t c g0 = Ok Et /\ Et < Es.
Proof.
  intros Hd Hc Hg Hr Hs Hst Ht. assert (0 < r / c) by now apply Rdiv_lt_0_compat.
  eexists _, _. split; [apply G_behind; auto|]. split; [apply G_behind; auto; lra|]. apply diff_decay; auto using dim_pos; lra.
Qed.

(** the largest value *)
Lemma peak_time dim r c g0 : dimension dim -> 0 < c -> 0 < g0 -> 0 < r ->
  exists Em, G_scalar (diff_type dim) r (Rmax (r / c) (r ^ 2 * g0 / (2 * c))) c g0 = Ok Em /\
  forall t E, G_scalar (diff_type dim) r t c g0 = Ok E -> t <> Rmax (r / c) (r ^ 2 * g0 / (2 * c)) -> E < Em.
Proof.
  intros Hd Hc Hg Hr. assert (H0 : 0 < r / c) by now apply Rdiv_lt_0_compat. set (p := r ^ 2 * g0 / (2 * c)).
  pose proof (Rmax_l (r / c) p) as M1. pose proof (Rmax_r (r / c) p) as M2. set (m := Rmax (r / c) p) in *.
  exists (diff dim r m c g0). split; [now apply G_behind|]. intros t E HE Hne. rewrite G_diff in HE by exact Hd. injection HE as <-.
  destruct (Rlt_dec (t - r / c) 0) as [F|F]; [apply diff_positive|].
  destruct (Rtotal_order t m) as [L|[L|L]]; [|contradiction|].
  - assert (m = p) as E. { unfold m, Rmax in *. destruct (Rle_dec (r / c) p); [reflexivity|lra]. }
    apply diff_rise; auto using dim_pos; fold p; lra.
  - apply diff_decay; auto using dim_pos; fold p; lra.
Qed.

Lemma peak_far dim r r' t c g0 : dimension dim -> 0 < c -> 0 < g0 -> 0 < t -> 0 <= r -> r <= c * t -> r < r' ->
  exists E E', G_scalar (diff_type dim) r t c g0 = Ok E /\ G_scalar (diff_type dim) r' t c g0 = Ok E' /\ 0 <= E' < E.
Proof.
  intros Hd Hc Hg Ht Hr Hf Hrr.
  assert (B : r / c <= t) by (apply (Rmult_le_reg_r c); [exact Hc|]; unfold Rdiv; rewrite Rmult_assoc, Rinv_l by lra; lra).
  eexists _, _. split; [now apply G_behind|]. split; [now apply G_diff|].
  destruct (Rlt_dec (t - r' / c) 0).
  - split; [lra|apply diff_positive].
  - split; [left; apply diff_positive|]. apply diff_far; auto using dim_pos.
Qed.

(** the largest value depends on distance and dimension only *)
Lemma peak_height dim r c g0 : dimension dim -> 0 < c -> 0 < g0 -> 2 <= g0 * r ->
  G_scalar (diff_type dim) r (r ^ 2 * g0 / (2 * c)) c g0 = Ok (Rpower (2 * PI * exp 1 * r ^ 2 / INR dim) (- INR dim / 2)).
Proof.
  intros Hd Hc Hg Hr. assert (R0 : 0 < r) by nra. pose proof PI_RGT_0 as Hp.
  pose proof (dim_pos _ Hd) as D. apply lt_INR in D. cbn [INR] in D.
  rewrite G_behind; [|exact Hd|].
  - f_equal. unfold diff. replace (4 * PI * (c / (INR dim * g0)) * (r ^ 2 * g0 / (2 * c))) with (2 * PI * r ^ 2 / INR dim) by (field; lra).
    replace (- r ^ 2 / (4 * (c / (INR dim * g0)) * (r ^ 2 * g0 / (2 * c)))) with (- INR dim / 2) by (field; lra).
    unfold Rpower. rewrite <- exp_plus. f_equal.
    replace (2 * PI * exp 1 * r ^ 2 / INR dim) with (2 * PI * r ^ 2 / INR dim * exp 1) by (field; lra).
    rewrite ln_mult, ln_exp; [ring| |apply exp_pos].
    apply Rdiv_lt_0_compat; [|exact D]. apply Rmult_lt_0_compat; [lra|]. apply pow_lt. exact R0.
  - apply (Rmult_le_reg_r (2 * c)); [lra|]. replace (r / c * (2 * c)) with (2 * r) by (field; lra).
    replace (r ^ 2 * g0 / (2 * c) * (2 * c)) with (g0 * r * r) by (field; lra). nra.
Qed.
