From Coq Require Import String List Bool Reals Lra Lia Arith.
From Coquelicot Require Import Coquelicot.
From Verif Require Import Base RtModel RtSpec RtProof RtProof2.
Import ListNotations.
Open Scope R_scope.

(** ** 2D energy conservation *)

Lemma Rpower_neg_half x : 0 < x -> Rpower x (-1 / 2) = / sqrt x.
Proof.
  intros Hx. replace (-1 / 2) with (- / 2) by field.
  rewrite Rpower_Ropp, Rpower_sqrt by assumption. reflexivity.
Qed.

Lemma rt2d_closed r t c g0 : 0 < c -> 0 < g0 -> 0 < t -> r ^ 2 < c ^ 2 * t ^ 2 ->
  2 * PI * r * rt2d_coda r t c g0 =
  g0 * r / sqrt (c ^ 2 * t ^ 2 - r ^ 2) * exp ((sqrt (c ^ 2 * t ^ 2 - r ^ 2) - c * t) * g0).
Proof.
  intros Hc Hg Ht Hr. unfold rt2d_coda. cbn zeta. assert (Hpi := PI_RGT_0).
  assert (Hct : 0 < c * t) by nra.
  replace (1 - r ^ 2 / c ^ 2 / t ^ 2) with ((c ^ 2 * t ^ 2 - r ^ 2) / (c * t) ^ 2) by (field; lra).
  assert (Hq : 0 < c ^ 2 * t ^ 2 - r ^ 2) by lra.
  rewrite Rpower_neg_half by (apply Rdiv_lt_0_compat; [assumption|now apply pow_lt]).
  rewrite sqrt_div_alt by (now apply pow_lt).
  rewrite sqrt_pow2 by lra.
  assert (Hs := sqrt_lt_R0 _ Hq). set (s := sqrt _) in *.
  replace ((s - c * t) / (1 / g0)) with ((s - c * t) * g0) by (field; lra).
  field. lra.
Qed.

Lemma rt2d_integral t c g0 rho : 0 < c -> 0 < g0 -> 0 < t -> 0 <= rho < c * t ->
  is_RInt (fun r => 2 * PI * r * ok_value (G_scalar "rt2d" r t c g0)) 0 rho
    (1 - exp ((sqrt (c ^ 2 * t ^ 2 - rho ^ 2) - c * t) * g0)).
Proof.
  intros Hc Hg Ht Hrho.
  set (F := fun r => - exp ((sqrt (c ^ 2 * t ^ 2 - r ^ 2) - c * t) * g0)).
  assert (HF : is_RInt (fun r => g0 * r / sqrt (c ^ 2 * t ^ 2 - r ^ 2) *
       exp ((sqrt (c ^ 2 * t ^ 2 - r ^ 2) - c * t) * g0)) 0 rho (minus (F rho) (F 0))).
  { apply (is_RInt_derive F); rewrite Rmin_left, Rmax_right by lra.
    - intros x Hx. assert (0 < c ^ 2 * t ^ 2 - x ^ 2) by (apply front_sq; lra).
      assert (Hs := sqrt_lt_R0 _ H).
      unfold F. auto_derive; [assumption|].
      replace (c * (c * 1) * (t * (t * 1)) + - (x * (x * 1))) with (c ^ 2 * t ^ 2 - x ^ 2) by ring.
      set (s := sqrt _) in *. change (s + - (c * t)) with (s - c * t).
      field. lra.
    - intros x Hx. assert (0 < c ^ 2 * t ^ 2 - x ^ 2) by (apply front_sq; lra).
      assert (Hs := sqrt_lt_R0 _ H).
      apply (@ex_derive_continuous R_AbsRing R_NormedModule). auto_derive.
      replace (c * (c * 1) * (t * (t * 1)) + - (x * (x * 1))) with (c ^ 2 * t ^ 2 - x ^ 2) by ring.
      repeat split; lra. }
  replace (1 - exp ((sqrt (c ^ 2 * t ^ 2 - rho ^ 2) - c * t) * g0)) with (minus (F rho) (F 0)).
  - eapply is_RInt_ext; [|exact HF].
    rewrite Rmin_left, Rmax_right by lra. intros x Hx.
    rewrite <- rt2d_closed by (try assumption; assert (0 < c ^ 2 * t ^ 2 - x ^ 2) by (apply front_sq; lra); lra).
    unfold G_scalar. destruct (Rlt_dec (t - x / c) 0) as [H|H].
    + rewrite <- front_iff in H by assumption. lra.
    + reflexivity.
  - unfold minus, plus, opp, F; cbn. 
    replace (c * (c * 1) * (t * (t * 1)) - 0 * (0 * 1)) with ((c * t) ^ 2) by ring.
    rewrite sqrt_pow2 by nra.
    replace ((c * t - c * t) * g0) with 0 by ring. rewrite exp_0.
    replace (rho * (rho * 1)) with (rho ^ 2) by ring. ring.
Qed.

(** total energy: coda inside rho plus the direct wave tends to 1 *)
Lemma rt2d_total t c g0 : 0 < c -> 0 < g0 -> 0 < t ->
  filterlim (fun rho => RInt (fun r => 2 * PI * r * ok_value (G_scalar "rt2d" r t c g0)) 0 rho
                        + 2 * PI * (c * t) * rt2d_direct t c g0)
    (at_left (c * t)) (locally 1).
Proof.
  intros Hc Hg Ht. assert (Hpi := PI_RGT_0).
  assert (Hd : 2 * PI * (c * t) * rt2d_direct t c g0 = exp (- c * t * g0)).
  { unfold rt2d_direct. cbn zeta.
    replace (- c * t / (1 / g0)) with (- c * t * g0) by (field; lra). field. lra. }
  rewrite Hd.
  set (h := fun rho => 1 - exp ((sqrt (c ^ 2 * t ^ 2 - rho ^ 2) - c * t) * g0) + exp (- c * t * g0)).
  apply filterlim_ext_loc with (f := h).
  - assert (0 < c * t) by nra.
    exists (mkposreal (c * t) H). intros y Hy1 Hy2.
    unfold ball in Hy1; cbn in Hy1. unfold AbsRing_ball in Hy1; cbn in Hy1.
    unfold abs, minus, plus, opp in Hy1; cbn in Hy1.
    apply Rabs_def2 in Hy1. unfold h. f_equal. symmetry.
    apply is_RInt_unique, rt2d_integral; lra.
  - assert (Hh : h (c * t) = 1).
    { unfold h. replace (c ^ 2 * t ^ 2 - (c * t) ^ 2) with 0 by ring. rewrite sqrt_0.
      replace ((0 - c * t) * g0) with (- c * t * g0) by ring. ring. }
    rewrite <- Hh.
    apply (filterlim_filter_le_1 (F := locally (c * t)) (G := at_left (c * t))).
    + apply filter_le_within.
    + change (continuous h (c * t)). unfold h.
      apply (continuous_plus (V := R_NormedModule)); [|apply continuous_const].
      apply (continuous_minus (V := R_NormedModule)); [apply continuous_const|].
      apply continuous_exp_comp.
      apply (continuous_scal_l (K := R_AbsRing) (V := R_NormedModule)).
      apply (continuous_minus (V := R_NormedModule)); [|apply continuous_const].
      apply continuous_sqrt_comp.
      apply (@ex_derive_continuous R_AbsRing R_NormedModule). auto_derive. trivial.
Qed.
