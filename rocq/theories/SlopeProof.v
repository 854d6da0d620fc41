(** C145: the solutions of radiative transfer as functions of the distance. *)
From Coq Require Import String List Reals Lra Lia Arith.
From Coquelicot Require Import Coquelicot.
From Verif Require Import Base RtModel RtSpec RtProof RtProof2 RtProof3 RtProof9.
Open Scope R_scope.

Lemma ln_lt_minus u : 0 < u -> u <> 1 -> ln u < u - 1.
Proof.
  intros H N. pose proof (exp_ineq1 (u - 1) ltac:(lra)) as E. apply ln_increasing in E; [|lra]. rewrite ln_exp in E.
  replace (1 + (u - 1)) with u in E by ring. exact E.
Qed.

(** ln z - ln y between (z - y) / z and (z - y) / y *)
Lemma ln_between y z : 0 < y -> y < z -> (z - y) / z < ln z - ln y < (z - y) / y.
Proof.
  intros Hy Hz. split.
  - assert (P : 0 < y / z) by (apply Rdiv_lt_0_compat; lra).
    assert (N : y / z <> 1). { intros E. apply (f_equal (fun x => x * z)) in E. unfold Rdiv in E. rewrite Rmult_assoc, Rinv_l in E by lra. lra. }
    pose proof (ln_lt_minus _ P N) as L. unfold Rdiv in L. rewrite ln_mult, ln_Rinv in L; try lra; [|apply Rinv_0_lt_compat; lra].
    replace ((z - y) / z) with (1 - y * / z) by (field; lra). lra.
  - assert (P : 0 < z / y) by (apply Rdiv_lt_0_compat; lra).
    assert (N : z / y <> 1). { intros E. apply (f_equal (fun x => x * y)) in E. unfold Rdiv in E. rewrite Rmult_assoc, Rinv_l in E by lra. lra. }
    pose proof (ln_lt_minus _ P N) as L. unfold Rdiv in L. rewrite ln_mult, ln_Rinv in L; try lra; [|apply Rinv_0_lt_compat; lra].
    replace ((z - y) / y) with (z * / y - 1) by (field; lra). lra.
Qed.

Lemma G_inside ty r t c g0 f d : select ty = Some (f, d) -> 0 < c -> r < c * t -> G_scalar ty r t c g0 = Ok (f r t c g0).
Proof.
  intros E Hc Hr. unfold G_scalar. rewrite E. destruct (Rlt_dec (t - r / c) 0) as [L|_]; [|reflexivity].
  exfalso. apply (Rmult_lt_compat_r c) in L; [|exact Hc]. replace ((t - r / c) * c) with (c * t - r) in L by (field; lra). lra.
Qed.

(** ** two dimensions *)
Definition lag (r t c : R) : R := sqrt (c ^ 2 * t ^ 2 - r ^ 2).

Lemma lag_pos r t c : 0 <= r -> 0 < c -> r < c * t -> 0 < lag r t c.
Proof. intros. unfold lag. apply sqrt_lt_R0. now apply front_sq. Qed.

Lemma lag_less r r' t c : 0 <= r -> 0 < c -> r < r' -> r' < c * t -> lag r' t c < lag r t c.
Proof. intros. unfold lag. apply sqrt_lt_1; [apply Rlt_le, front_sq; lra|apply Rlt_le, front_sq; lra|nra]. Qed.

Lemma rt2d_exp r t c g0 : 0 < c -> 0 < g0 -> 0 <= r -> r < c * t ->
  rt2d_coda r t c g0 = g0 / (2 * PI) * exp (- (c * t * g0)) * exp (g0 * lag r t c - ln (lag r t c)).
Proof.
  intros Hc Hg Hr Ht. pose proof PI_RGT_0. pose proof (lag_pos r t c Hr Hc Ht) as L. assert (T : 0 < t) by nra.
  unfold rt2d_coda. cbn zeta. fold (lag r t c).
  replace (1 - r ^ 2 / c ^ 2 / t ^ 2) with ((c ^ 2 * t ^ 2 - r ^ 2) / (c * t) ^ 2) by (field; lra).
  assert (Hq : 0 < c ^ 2 * t ^ 2 - r ^ 2) by now apply front_sq. assert (Hct : 0 < c * t) by nra.
  rewrite Rpower_neg_half by (apply Rdiv_lt_0_compat; [assumption|now apply pow_lt]).
  rewrite sqrt_div_alt by (now apply pow_lt). rewrite sqrt_pow2 by lra. fold (lag r t c).
  replace (exp (g0 * lag r t c - ln (lag r t c))) with (exp (g0 * lag r t c) * / lag r t c).
  2:{ unfold Rminus. rewrite exp_plus, exp_Ropp, exp_ln by exact L. reflexivity. }
  replace ((lag r t c - c * t) / (1 / g0)) with (g0 * lag r t c + - (c * t * g0)) by (field; lra). rewrite exp_plus. field. lra.
Qed.

Lemma plane_fall r r' t c g0 : 0 < c -> 0 < g0 -> 0 <= r -> r < r' -> r' < c * t -> 1 <= g0 * sqrt (c ^ 2 * t ^ 2 - r' ^ 2) ->
  exists E E', G_scalar "rt2d" r t c g0 = Ok E /\ G_scalar "rt2d" r' t c g0 = Ok E' /\ E' < E.
Proof.
  intros Hc Hg Hr Hrr Ht Hl. eexists _, _. split; [eapply G_inside; [reflexivity|exact Hc|lra]|]. split; [eapply G_inside; [reflexivity|exact Hc|lra]|].
  rewrite !rt2d_exp by lra. fold (lag r' t c) in Hl.
  pose proof (lag_pos r' t c ltac:(lra) Hc Ht) as L'. pose proof (lag_less r r' t c Hr Hc Hrr Ht) as L.
  pose proof PI_RGT_0. apply Rmult_lt_compat_l. { apply Rmult_lt_0_compat; [apply Rdiv_lt_0_compat; lra|apply exp_pos]. }
  apply exp_increasing. destruct (ln_between _ _ L' L) as [_ B]. set (y := lag r' t c) in *. set (z := lag r t c) in *.
  assert ((z - y) / y <= g0 * (z - y)). { apply (Rmult_le_reg_r y); [exact L'|]. replace ((z - y) / y * y) with (z - y) by (field; lra). nra. }
  lra.
Qed.

Lemma plane_grow r r' t c g0 : 0 < c -> 0 < g0 -> 0 <= r -> r < r' -> r' < c * t -> g0 * sqrt (c ^ 2 * t ^ 2 - r ^ 2) <= 1 ->
  exists E E', G_scalar "rt2d" r t c g0 = Ok E /\ G_scalar "rt2d" r' t c g0 = Ok E' /\ E < E'.
Proof.
  intros Hc Hg Hr Hrr Ht Hl. eexists _, _. split; [eapply G_inside; [reflexivity|exact Hc|lra]|]. split; [eapply G_inside; [reflexivity|exact Hc|lra]|].
  rewrite !rt2d_exp by lra. fold (lag r t c) in Hl.
  pose proof (lag_pos r' t c ltac:(lra) Hc Ht) as L'. pose proof (lag_less r r' t c Hr Hc Hrr Ht) as L.
  pose proof PI_RGT_0. apply Rmult_lt_compat_l. { apply Rmult_lt_0_compat; [apply Rdiv_lt_0_compat; lra|apply exp_pos]. }
  apply exp_increasing. destruct (ln_between _ _ L' L) as [B _]. set (y := lag r' t c) in *. set (z := lag r t c) in *.
  assert (g0 * (z - y) <= (z - y) / z). { apply (Rmult_le_reg_r z); [lra|]. replace ((z - y) / z * z) with (z - y) by (field; lra). nra. }
  lra.
Qed.

(** ** one dimension *)
Lemma series_mono (A : nat -> R) y z : (forall k, 0 <= A k <= / INR (fact k)) -> 0 <= y -> y <= z -> PSeries A y <= PSeries A z.
Proof.
  intros HA Hy Hz. unfold PSeries. apply Series_le.
  - intros n. destruct (HA n) as [H _]. split; [apply Rmult_le_pos; [exact H|now apply pow_le]|].
    apply Rmult_le_compat_l; [exact H|]. apply pow_incr. lra.
  - apply ex_pseries_R. apply ex_series_bessel; [lra|exact HA].
Qed.

Lemma series_strict (A : nat -> R) y z : (forall k, 0 < A k <= / INR (fact k)) -> 0 <= y -> y < z -> PSeries A y < PSeries A z.
Proof.
  intros HA Hy Hz. assert (HB : forall k, 0 <= A k <= / INR (fact k)) by (intros k; specialize (HA k); lra).
  assert (HS : forall k, 0 <= PS_decr_1 A k <= / INR (fact k)).
  { intros k. unfold PS_decr_1. specialize (HA (S k)). split; [lra|]. apply Rle_trans with (/ INR (fact (S k))); [lra|].
    apply Rinv_le_contravar; [apply INR_fact_lt_0|]. apply le_INR. apply fact_le. lia. }
  rewrite (PSeries_decr_1 A y), (PSeries_decr_1 A z); [|apply ex_series_bessel; [lra|exact HB]|apply ex_series_bessel; [lra|exact HB]].
  apply Rplus_lt_compat_l.
  pose proof (series_mono _ y z HS Hy ltac:(lra)) as M.
  assert (P : 0 < PSeries (PS_decr_1 A) y).
  { apply Rlt_le_trans with (PS_decr_1 A 0); [unfold PS_decr_1; apply HA|]. apply PSeries_ge_a0; [exact Hy|]. intros k. specialize (HS k). split; [unfold PS_decr_1; apply HA|apply HS]. }
  nra.
Qed.

Lemma rt1d_series r t c g0 : 0 < c -> 0 < g0 -> 0 <= r -> r < c * t ->
  rt1d_coda r t c g0 = g0 / 4 * exp (- (c * t * g0 / 2)) *
    (PSeries B0 (g0 ^ 2 / 16 * (c ^ 2 * t ^ 2 - r ^ 2)) + c * t * g0 / 4 * PSeries B1 (g0 ^ 2 / 16 * (c ^ 2 * t ^ 2 - r ^ 2))).
Proof.
  intros Hc Hg Hr Ht. pose proof (lag_pos r t c Hr Hc Ht) as L. assert (Q : 0 < c ^ 2 * t ^ 2 - r ^ 2) by now apply front_sq.
  unfold rt1d_coda, iv0, iv1. cbn zeta. fold (lag r t c). fold B0 B1.
  change (fun k => / (INR (fact k) * INR (fact k))) with B0. change (fun k => / (INR (fact k) * INR (fact (S k)))) with B1.
  replace ((lag r t c / 2 / (1 / g0) / 2) ^ 2) with (g0 ^ 2 / 16 * (c ^ 2 * t ^ 2 - r ^ 2)).
  2:{ rewrite <- (sqrt_sqrt (c ^ 2 * t ^ 2 - r ^ 2)) by lra. fold (lag r t c). field. lra. }
  replace (- c * t / 2 / (1 / g0)) with (- (c * t * g0 / 2)) by (field; lra). field. lra.
Qed.

Lemma line_fall r r' t c g0 : 0 < c -> 0 < g0 -> 0 <= r -> r < r' -> r' < c * t ->
  exists E E', G_scalar "rt1d" r t c g0 = Ok E /\ G_scalar "rt1d" r' t c g0 = Ok E' /\ E' < E.
Proof.
  intros Hc Hg Hr Hrr Ht. eexists _, _. split; [eapply G_inside; [reflexivity|exact Hc|lra]|]. split; [eapply G_inside; [reflexivity|exact Hc|lra]|].
  rewrite !rt1d_series by lra. apply Rmult_lt_compat_l. { apply Rmult_lt_0_compat; [lra|apply exp_pos]. }
  assert (Q : 0 < c ^ 2 * t ^ 2 - r' ^ 2) by (apply front_sq; lra).
  assert (K : 0 < g0 ^ 2 / 16) by (pose proof (pow_lt g0 2 Hg); lra).
  assert (U : 0 <= g0 ^ 2 / 16 * (c ^ 2 * t ^ 2 - r' ^ 2)) by (apply Rlt_le, Rmult_lt_0_compat; assumption).
  assert (V : g0 ^ 2 / 16 * (c ^ 2 * t ^ 2 - r' ^ 2) < g0 ^ 2 / 16 * (c ^ 2 * t ^ 2 - r ^ 2)) by (apply Rmult_lt_compat_l; [exact K|nra]).
  apply Rplus_lt_compat; [apply series_strict; [exact coef0|exact U|exact V]|].
  apply Rmult_lt_compat_l; [assert (0 < c * t * g0) by (apply Rmult_lt_0_compat; lra); lra|]. apply series_strict; [exact coef1|exact U|exact V].
Qed.

(** ** three dimensions *)
Definition opening (r t c g0 : R) : R := g0 * (c * t) * Rpower (1 - r ^ 2 / (c * t) ^ 2) (3 / 4).

Lemma opening_pos r t c g0 : 0 < g0 -> 0 < c * t -> 0 < opening r t c g0.
Proof. intros. unfold opening, Rpower. apply Rmult_lt_0_compat; [now apply Rmult_lt_0_compat|apply exp_pos]. Qed.

Lemma gap_pos r t c : 0 < c -> 0 <= r -> r < c * t -> 0 < 1 - r ^ 2 / (c * t) ^ 2.
Proof.
  intros Hc Hr Ht. replace (1 - r ^ 2 / (c * t) ^ 2) with ((c ^ 2 * t ^ 2 - r ^ 2) / (c * t) ^ 2) by (field; nra).
  apply Rdiv_lt_0_compat; [now apply front_sq|apply pow_lt; lra].
Qed.

Lemma opening_less r r' t c g0 : 0 < c -> 0 < g0 -> 0 <= r -> r < r' -> r' < c * t -> opening r' t c g0 < opening r t c g0.
Proof.
  intros Hc Hg Hr Hrr Ht. unfold opening. apply Rmult_lt_compat_l; [apply Rmult_lt_0_compat; lra|].
  unfold Rpower. apply exp_increasing. apply Rmult_lt_compat_l; [lra|]. apply ln_increasing; [apply gap_pos; lra|].
  assert (I : 0 < / (c * t) ^ 2) by (apply Rinv_0_lt_compat, pow_lt; lra). assert (Q : r ^ 2 < r' ^ 2) by nra.
  apply (Rmult_lt_compat_r _ _ _ I) in Q. unfold Rdiv. lra.
Qed.

Definition room (y : R) : R := y + ln (y + 2.026) / 2 - ln y / 3.

Lemma rt3d_exp r t c g0 : 0 < c -> 0 < g0 -> 0 <= r -> r < c * t ->
  rt3d_coda r t c g0 = g0 ^ 3 / Rpower (4 * PI * (t * c * g0) / 3) 1.5 * exp (- (t * c * g0) - ln (t * c * g0) / 6) * exp (room (opening r t c g0)).
Proof.
  intros Hc Hg Hr Ht. assert (CT : 0 < c * t) by lra. assert (T : 0 < t * c * g0) by (apply Rmult_lt_0_compat; lra).
  unfold rt3d_coda, rt3d_coda_reduced. cbn zeta.
  replace (1 - (r * g0) ^ 2 / (t * c * g0) ^ 2) with (1 - r ^ 2 / (c * t) ^ 2) by (field; nra).
  replace 0.75 with (3 / 4) by lra. pose proof (gap_pos r t c Hc Hr Ht) as A. set (a := 1 - r ^ 2 / (c * t) ^ 2) in *.
  assert (Y : t * c * g0 * Rpower a (3 / 4) = opening r t c g0) by (unfold opening; fold a; ring).
  replace (t * c * g0 * (Rpower a (3 / 4) - 1)) with (opening r t c g0 - t * c * g0) by (rewrite <- Y; ring). rewrite Y.
  pose proof (opening_pos r t c g0 Hg CT) as P.
  assert (LY : ln (opening r t c g0) = ln (t * c * g0) + 3 / 4 * ln a).
  { rewrite <- Y, ln_mult; [|exact T|apply exp_pos]. unfold Rpower. now rewrite ln_exp. }
  set (y := opening r t c g0) in *.
  assert (F : rtF y = exp ((ln (y + 2.026) - ln y) / 2)).
  { unfold rtF. replace (1 + 2.026 / y) with ((y + 2.026) * / y) by (field; lra).
    assert (I : 0 < (y + 2.026) * / y) by (apply Rmult_lt_0_compat; [lra|now apply Rinv_0_lt_compat]).
    rewrite <- Rpower_sqrt by exact I. unfold Rpower. f_equal. rewrite ln_mult, ln_Rinv; [field|exact P|lra|now apply Rinv_0_lt_compat]. }
  rewrite F. assert (E : Rpower a 0.125 = exp ((ln y - ln (t * c * g0)) / 6)). { unfold Rpower. f_equal. rewrite LY. lra. }
  rewrite E. assert (N : Rpower (4 * PI * (t * c * g0) / 3) 1.5 <> 0) by (unfold Rpower; apply Rgt_not_eq, exp_pos).
  set (q := Rpower _ 1.5) in *. clearbody q.
  replace (exp (- (t * c * g0) - ln (t * c * g0) / 6)) with (exp (- (t * c * g0)) * exp (- (ln (t * c * g0) / 6))) by (rewrite <- exp_plus; f_equal; lra).
  transitivity (g0 ^ 3 / q * (exp ((ln y - ln (t * c * g0)) / 6) * exp (y - t * c * g0) * exp ((ln (y + 2.026) - ln y) / 2))); [field; exact N|].
  rewrite <- !exp_plus, !Rmult_assoc, <- !exp_plus. f_equal. f_equal. unfold room. lra.
Qed.

Lemma room_up y z : 1 / 3 <= y -> y < z -> room y < room z.
Proof.
  intros Hy Hz. unfold room. destruct (ln_between y z ltac:(lra) Hz) as [_ B].
  assert (L : ln (y + 2.026) < ln (z + 2.026)) by (apply ln_increasing; lra).
  assert ((z - y) / y <= 3 * (z - y)). { apply (Rmult_le_reg_r y); [lra|]. replace ((z - y) / y * y) with (z - y) by (field; lra). nra. }
  lra.
Qed.

Lemma room_down y z : 0 < y -> y < z -> z <= 1 / 4 -> room z < room y.
Proof.
  intros Hy Hz H. unfold room. destruct (ln_between y z Hy Hz) as [B _]. destruct (ln_between (y + 2.026) (z + 2.026) ltac:(lra) ltac:(lra)) as [_ C].
  replace (z + 2.026 - (y + 2.026)) with (z - y) in C by ring.
  assert (4 * (z - y) <= (z - y) / z). { apply (Rmult_le_reg_r z); [lra|]. replace ((z - y) / z * z) with (z - y) by (field; lra). nra. }
  assert ((z - y) / (y + 2.026) <= (z - y) / 2).
  { unfold Rdiv. apply Rmult_le_compat_l; [lra|]. apply Rinv_le_contravar; lra. }
  lra.
Qed.

Lemma space_fall r r' t c g0 : 0 < c -> 0 < g0 -> 0 <= r -> r < r' -> r' < c * t ->
  1 / 3 <= g0 * (c * t) * Rpower (1 - r' ^ 2 / (c * t) ^ 2) (3 / 4) ->
  exists E E', G_scalar "rt3d" r t c g0 = Ok E /\ G_scalar "rt3d" r' t c g0 = Ok E' /\ E' < E.
Proof.
  intros Hc Hg Hr Hrr Ht Hl. eexists _, _. split; [eapply G_inside; [reflexivity|exact Hc|lra]|]. split; [eapply G_inside; [reflexivity|exact Hc|lra]|].
  rewrite !rt3d_exp by lra. apply Rmult_lt_compat_l.
  - apply Rmult_lt_0_compat; [apply Rdiv_lt_0_compat; [now apply pow_lt|apply exp_pos]|apply exp_pos].
  - apply exp_increasing, room_up; [exact Hl|]. now apply opening_less.
Qed.

Lemma space_grow r r' t c g0 : 0 < c -> 0 < g0 -> 0 <= r -> r < r' -> r' < c * t ->
  g0 * (c * t) * Rpower (1 - r ^ 2 / (c * t) ^ 2) (3 / 4) <= 1 / 4 ->
  exists E E', G_scalar "rt3d" r t c g0 = Ok E /\ G_scalar "rt3d" r' t c g0 = Ok E' /\ E < E'.
Proof.
  intros Hc Hg Hr Hrr Ht Hl. eexists _, _. split; [eapply G_inside; [reflexivity|exact Hc|lra]|]. split; [eapply G_inside; [reflexivity|exact Hc|lra]|].
  rewrite !rt3d_exp by lra. apply Rmult_lt_compat_l.
  - apply Rmult_lt_0_compat; [apply Rdiv_lt_0_compat; [now apply pow_lt|apply exp_pos]|apply exp_pos].
  - apply exp_increasing, room_down; [apply opening_pos; lra|now apply opening_less|exact Hl].
Qed.
