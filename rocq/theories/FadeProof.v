(** C146: decay of the coda of radiative transfer with time in one and two dimensions. *)
From Coq Require Import String List Reals Lra Lia Arith.
From Coquelicot Require Import Coquelicot.
From Verif Require Import Base RtModel RtSpec RtProof RtProof2 RtProof3 RtProof9 BeamProof SlopeProof.
Open Scope R_scope.

Lemma falling (f df : R -> R) a b : a < b -> (forall x, a <= x <= b -> is_derive f x (df x)) -> (forall x, a <= x <= b -> df x < 0) -> f b < f a.
Proof.
  intros L D N. destruct (MVT_gen f a b df) as [x [Hx E]].
  - rewrite Rmin_left, Rmax_right by lra. intros x Hx. apply D. lra.
  - rewrite Rmin_left, Rmax_right by lra. intros x Hx. apply continuity_pt_filterlim. apply (ex_derive_continuous f). exists (df x). now apply D.
  - rewrite Rmin_left, Rmax_right in Hx by lra. specialize (N x Hx). nra.
Qed.

(** ** two dimensions; x is the distance c t of the front *)
Lemma plane_rate r g0 x : 0 <= r -> 0 < g0 -> r < x -> g0 * r ^ 2 / 2 <= x ->
  g0 * (x / sqrt (x ^ 2 - r ^ 2) - 1) - x / (x ^ 2 - r ^ 2) < 0.
Proof.
  intros Hr Hg Hx Hp. assert (Q : 0 < x ^ 2 - r ^ 2) by nra. pose proof (sqrt_lt_R0 _ Q) as W. pose proof (sqrt_sqrt _ (Rlt_le _ _ Q)) as S.
  set (w := sqrt _) in *. rewrite <- S. assert (WX : w <= x) by nra.
  replace (g0 * (x / w - 1) - x / (w * w)) with ((g0 * w * (x - w) - x) / (w * w)) by (field; lra).
  apply (Rmult_lt_reg_r (w * w)); [now apply Rmult_lt_0_compat|]. rewrite Rmult_0_l. unfold Rdiv. rewrite Rmult_assoc, Rinv_l by nra. rewrite Rmult_1_r.
  assert (E : (x - w) * (x + w) = r ^ 2) by nra.
  destruct (Rle_lt_or_eq_dec _ _ WX) as [LT|EQ].
  - apply (Rmult_lt_reg_r (x + w)); [lra|]. rewrite Rmult_0_l.
    replace ((g0 * w * (x - w) - x) * (x + w)) with (g0 * r ^ 2 * w - x * (x + w)) by (rewrite <- E; ring).
    assert (g0 * r ^ 2 * w <= 2 * x * w) by (apply Rmult_le_compat_r; lra). nra.
  - rewrite <- EQ. replace (w - w) with 0 by ring. lra.
Qed.

Lemma plane_fade r s t c g0 : 0 < c -> 0 < g0 -> 0 <= r -> r < c * s -> r ^ 2 * g0 / (2 * c) <= s -> s < t ->
  exists Es Et, G_scalar "rt2d" r s c g0 = Ok Es /\ G_scalar "rt2d" r t c g0 = Ok Et /\ Et < Es.
Proof.
  intros Hc Hg Hr Hs Hp Hst. assert (X : c * s < c * t) by now apply Rmult_lt_compat_l.
  eexists _, _. split; [eapply G_inside; [reflexivity|exact Hc|lra]|]. split; [eapply G_inside; [reflexivity|exact Hc|lra]|].
  assert (E : forall u, r < c * u -> rt2d_coda r u c g0 = g0 / (2 * PI) * exp (g0 * (sqrt ((c * u) ^ 2 - r ^ 2) - c * u) - ln ((c * u) ^ 2 - r ^ 2) / 2)).
  { intros u Hu. rewrite rt2d_exp by lra. unfold lag. rewrite Rmult_assoc, <- exp_plus. f_equal. f_equal.
    replace ((c * u) ^ 2) with (c ^ 2 * u ^ 2) by ring. assert (Q : 0 < c ^ 2 * u ^ 2 - r ^ 2) by (apply front_sq; lra).
    rewrite <- (Rpower_sqrt _ Q) at 2. unfold Rpower. rewrite ln_exp. lra. }
  rewrite !E by lra. pose proof PI_RGT_0. apply Rmult_lt_compat_l; [apply Rdiv_lt_0_compat; lra|]. apply exp_increasing.
  apply (falling (fun x => g0 * (sqrt (x ^ 2 - r ^ 2) - x) - ln (x ^ 2 - r ^ 2) / 2) (fun x => g0 * (x / sqrt (x ^ 2 - r ^ 2) - 1) - x / (x ^ 2 - r ^ 2))); [exact X| |].
  - intros x Hx. assert (Q : 0 < x ^ 2 - r ^ 2) by nra. pose proof (sqrt_lt_R0 _ Q). auto_derive.
    + replace (x * (x * 1) + - (r * (r * 1))) with (x ^ 2 - r ^ 2) by ring. repeat split; lra.
    + replace (x * (x * 1) + - (r * (r * 1))) with (x ^ 2 - r ^ 2) by ring. field. split; lra.
  - intros x Hx. apply plane_rate; try lra.
    apply Rle_trans with (c * s); [|lra]. apply (Rmult_le_compat_l c) in Hp; [|lra].
    replace (c * (r ^ 2 * g0 / (2 * c))) with (g0 * r ^ 2 / 2) in Hp by (field; lra). exact Hp.
Qed.

(** ** one dimension *)
Lemma B2_first k : B2 k = B1 k / (INR k + 2).
Proof.
  unfold B2, PS_derive, B1. change (fact (S (S k))) with (S (S k) * fact (S k))%nat. change (fact (S k)) with (S k * fact k)%nat.
  rewrite !mult_INR, !S_INR. pose proof (INR_fact_lt_0 k). pose proof (pos_INR k). field. repeat split; lra.
Qed.

Lemma B2_next k : B2 k = (INR k + 1) * B1 (S k).
Proof. unfold B2, PS_derive. now rewrite S_INR. Qed.

Lemma B1_pos k : 0 < B1 k.
Proof. unfold B1. apply coef1. Qed.

Lemma B2_pos k : 0 < B2 k.
Proof. rewrite B2_next. pose proof (pos_INR k). pose proof (B1_pos (S k)). apply Rmult_lt_0_compat; lra. Qed.

Lemma B2_half k : 2 * B2 k <= B1 k.
Proof.
  pose proof (pos_INR k). pose proof (B1_pos k). rewrite B2_first. apply (Rmult_le_reg_r (INR k + 2)); [lra|].
  replace (2 * (B1 k / (INR k + 2)) * (INR k + 2)) with (2 * B1 k) by (field; lra). nra.
Qed.

Lemma B2_bound k : 0 <= B2 k <= / INR (fact k).
Proof. pose proof (B2_half k). pose proof (B2_pos k). pose proof (B1_bound k). lra. Qed.

Lemma series_pos (A : nat -> R) p : (forall k, 0 < A k <= / INR (fact k)) -> 0 <= p -> 0 < PSeries A p.
Proof. intros HA Hp. apply Rlt_le_trans with (A 0%nat); [apply HA|]. now apply PSeries_ge_a0. Qed.

Lemma ratio_half p : 0 <= p -> 2 * PSeries B2 p <= PSeries B1 p.
Proof.
  intros Hp. unfold PSeries. rewrite <- Series_scal_l. apply Series_le.
  - intros k. pose proof (B2_half k). pose proof (B2_pos k). pose proof (pow_le p k Hp). split; nra.
  - apply ex_pseries_R, ex_series_bessel; [exact Hp|exact B1_bound].
Qed.

Lemma ratio_root p : 0 <= p -> sqrt p * PSeries B2 p < PSeries B1 p.
Proof.
  intros Hp. pose proof (sqrt_pos p) as S0. pose proof (sqrt_sqrt p Hp) as SS. set (s := sqrt p) in *.
  assert (X1 : ex_series (fun k => B1 k * p ^ k)) by (apply ex_pseries_R, ex_series_bessel; [exact Hp|exact B1_bound]).
  assert (X2 : ex_series (fun k => B1 (S k) * p ^ S k)) by (apply (ex_series_incr_1 (fun k => B1 k * p ^ k)); exact X1).
  assert (L : Series (fun k => 2 * s * (B2 k * p ^ k)) <= Series (fun k => B1 k * p ^ k + B1 (S k) * p ^ S k)).
  { apply Series_le.
    - intros k. pose proof (B2_pos k) as P. pose proof (pow_le p k Hp) as Q. pose proof (pos_INR k) as N.
      split. { apply Rmult_le_pos; [lra|]. apply Rmult_le_pos; lra. }
      assert (E1 : B1 k = (INR k + 2) * B2 k) by (rewrite B2_first; field; lra).
      assert (E2 : B1 (S k) = B2 k / (INR k + 1)) by (rewrite B2_next; field; lra).
      rewrite E1, E2. cbn [pow]. set (b := B2 k * p ^ k). assert (Hb : 0 <= b) by (apply Rmult_le_pos; lra).
      replace ((INR k + 2) * B2 k * p ^ k + B2 k / (INR k + 1) * (p * p ^ k)) with ((INR k + 2 + p / (INR k + 1)) * b) by (unfold b; field; lra).
      apply Rmult_le_compat_r; [exact Hb|]. rewrite <- SS. apply (Rmult_le_reg_r (INR k + 1)); [lra|].
      replace ((INR k + 2 + s * s / (INR k + 1)) * (INR k + 1)) with ((INR k + 2) * (INR k + 1) + s * s) by (field; lra).
      pose proof (pow2_ge_0 (s - (INR k + 1))). nra.
    - exact (ex_series_plus _ _ X1 X2). }
  rewrite Series_scal_l in L. rewrite Series_plus in L by assumption.
  pose proof (Series_incr_1 (fun k => B1 k * p ^ k) X1) as I. cbn [pow] in I. rewrite Rmult_1_r in I.
  pose proof (B1_pos 0) as P0. unfold PSeries. cbn [pow] in L. lra.
Qed.

Lemma line_rate r g0 x : 0 < g0 -> 0 <= r -> r < x -> (g0 * r < 4 \/ g0 * r ^ 2 / 2 <= sqrt (x ^ 2 - r ^ 2)) ->
  let u := g0 ^ 2 / 16 * (x ^ 2 - r ^ 2) in g0 ^ 2 * r ^ 2 / 8 * PSeries B2 u < PSeries B1 u.
Proof.
  intros Hg Hr Hx H u. assert (Q : 0 < x ^ 2 - r ^ 2) by nra.
  assert (U : 0 <= u) by (unfold u; pose proof (pow_lt g0 2 Hg); apply Rmult_le_pos; lra).
  assert (P : 0 < PSeries B2 u).
  { apply series_pos; [|exact U]. intros k. split; [apply B2_pos|apply B2_bound]. }
  destruct H as [H|H].
  - pose proof (ratio_half u U) as R2. assert (0 <= g0 * r) by (apply Rmult_le_pos; lra).
    assert (g0 ^ 2 * r ^ 2 / 8 < 2) by (replace (g0 ^ 2 * r ^ 2) with ((g0 * r) * (g0 * r)) by ring; nra). nra.
  - pose proof (ratio_root u U) as R2. eapply Rle_lt_trans; [|exact R2]. apply Rmult_le_compat_r; [lra|].
    assert (E : sqrt u = g0 / 4 * sqrt (x ^ 2 - r ^ 2)).
    { unfold u. rewrite sqrt_mult_alt by (pose proof (pow_lt g0 2 Hg); lra). f_equal. replace (g0 ^ 2 / 16) with (g0 / 4 * (g0 / 4)) by field. apply sqrt_square. lra. }
    rewrite E. nra.
Qed.

Lemma line_derive (r g0 x : R) :
  is_derive (fun x => exp (- (x * g0 / 2)) * (PSeries B0 (g0 ^ 2 / 16 * (x ^ 2 - r ^ 2)) + x * g0 / 4 * PSeries B1 (g0 ^ 2 / 16 * (x ^ 2 - r ^ 2)))) x
    (exp (- (x * g0 / 2)) * (g0 / 4) * (g0 ^ 2 * r ^ 2 / 8 * PSeries B2 (g0 ^ 2 / 16 * (x ^ 2 - r ^ 2)) - PSeries B1 (g0 ^ 2 / 16 * (x ^ 2 - r ^ 2)))).
Proof.
  assert (DU : is_derive (fun x => g0 ^ 2 / 16 * (x ^ 2 - r ^ 2)) x (g0 ^ 2 / 16 * (2 * x))) by (auto_derive; [exact I|field]).
  pose proof (is_derive_comp (PSeries B0) _ x _ _ (B0_derive _) DU) as D0.
  pose proof (is_derive_comp (PSeries B1) _ x _ _ (B1_derive _) DU) as D1.
  assert (DE : is_derive (fun x => exp (- (x * g0 / 2))) x (- (g0 / 2) * exp (- (x * g0 / 2)))) by (auto_derive; [exact I|unfold Rdiv; ring]).
  assert (DX : is_derive (fun x => x * g0 / 4) x (g0 / 4)) by (auto_derive; [exact I|field]).
  pose proof (is_derive_mult _ _ x _ _ DX D1 Rmult_comm) as DM.
  pose proof (is_derive_plus _ _ x _ _ D0 DM) as DP.
  pose proof (is_derive_mult _ _ x _ _ DE DP Rmult_comm) as D.
  match type of D with is_derive _ _ ?d => match goal with |- is_derive _ _ ?e => replace e with d; [exact D|] end end.
  unfold plus, mult, scal. cbn. unfold mult. cbn. set (u := g0 * (g0 * 1) / 16 * (x * (x * 1) - r * (r * 1))).
  rewrite (bessel_equation u). unfold u. field.
Qed.

Lemma line_fade r s t c g0 : 0 < c -> 0 < g0 -> 0 <= r -> r < c * s -> (g0 * r < 4 \/ g0 * r ^ 2 / 2 <= sqrt ((c * s) ^ 2 - r ^ 2)) -> s < t ->
  exists Es Et, G_scalar "rt1d" r s c g0 = Ok Es /\ G_scalar "rt1d" r t c g0 = Ok Et /\ Et < Es.
Proof.
  intros Hc Hg Hr Hs Hp Hst. assert (X : c * s < c * t) by now apply Rmult_lt_compat_l.
  eexists _, _. split; [eapply G_inside; [reflexivity|exact Hc|lra]|]. split; [eapply G_inside; [reflexivity|exact Hc|lra]|].
  rewrite !rt1d_series, !Rmult_assoc by lra. rewrite <- !Rmult_assoc. rewrite !(Rmult_assoc (g0 / 4)). apply Rmult_lt_compat_l; [lra|].
  replace (c ^ 2 * t ^ 2) with ((c * t) ^ 2) by ring. replace (c ^ 2 * s ^ 2) with ((c * s) ^ 2) by ring.
  apply (falling (fun x => exp (- (x * g0 / 2)) * (PSeries B0 (g0 ^ 2 / 16 * (x ^ 2 - r ^ 2)) + x * g0 / 4 * PSeries B1 (g0 ^ 2 / 16 * (x ^ 2 - r ^ 2)))) _ (c * s) (c * t) X (fun x _ => line_derive r g0 x)).
  intros x Hx. assert (L : g0 ^ 2 * r ^ 2 / 8 * PSeries B2 (g0 ^ 2 / 16 * (x ^ 2 - r ^ 2)) < PSeries B1 (g0 ^ 2 / 16 * (x ^ 2 - r ^ 2))).
  { apply line_rate; [exact Hg|exact Hr|lra|]. destruct Hp as [Hp|Hp]; [now left|right]. eapply Rle_trans; [exact Hp|]. apply sqrt_le_1_alt. nra. }
  pose proof (exp_pos (- (x * g0 / 2))) as EP. assert (0 < exp (- (x * g0 / 2)) * (g0 / 4)) by (apply Rmult_lt_0_compat; lra). nra.
Qed.
