(** Lemmas on the energy of the approximation of 3D radiative transfer (C128). *)
From Coq Require Import String List Bool Reals Lra Lia.
From Coquelicot Require Import Coquelicot.
From Verif Require Import Base RtModel RtSpec RtProof2 GaussProof DiffuSpec DiffuProof.
Import ListNotations.
Open Scope R_scope.

Lemma exp_mono x y : x <= y -> exp x <= exp y.
Proof. intros [L| ->]; [left; now apply exp_increasing|right; reflexivity]. Qed.

Definition aa (r t : R) : R := 1 - r ^ 2 / t ^ 2.
Definition zz (r t : R) : R := sqrt (sqrt (aa r t)).
Definition KK : R := 2.026.
Definition NN (t : R) : R := Rpower (4 * PI * t / 3) 1.5.

Lemma aa_pos r t : 0 <= r < t -> 0 < aa r t <= 1.
Proof.
  intros H. unfold aa. assert (0 <= r ^ 2 / t ^ 2 < 1); [|lra]. assert (0 < t ^ 2) by nra. split.
  - apply Rmult_le_pos; [nra|left; now apply Rinv_0_lt_compat].
  - apply (Rmult_lt_reg_r (t ^ 2)); [assumption|]. unfold Rdiv. rewrite Rmult_assoc, Rinv_l by lra. nra.
Qed.

Lemma zz_facts r t : 0 <= r < t -> 0 < zz r t <= 1 /\ zz r t ^ 4 = aa r t /\ aa r t <= zz r t.
Proof.
  intros H. destruct (aa_pos r t H) as [A A1]. unfold zz. set (a := aa r t) in *.
  assert (S := sqrt_lt_R0 _ A). assert (SS := sqrt_sqrt a ltac:(lra)). assert (Z := sqrt_lt_R0 _ S). assert (ZZ := sqrt_sqrt (sqrt a) ltac:(lra)).
  set (z := sqrt (sqrt a)) in *. assert (Z4 : z ^ 4 = a) by (replace (z ^ 4) with ((z * z) * (z * z)) by ring; rewrite ZZ; exact SS).
  assert (Z1 : z <= 1). { destruct (Rle_dec z 1) as [L|L]; [exact L|]. exfalso. assert (1 < z * z) by nra. assert (1 < z ^ 4) by (replace (z ^ 4) with ((z * z) * (z * z)) by ring; nra). lra. }
  split; [lra|]. split; [exact Z4|]. rewrite <- Z4. assert (z * z <= 1) by nra. assert (z * z * z <= 1) by nra. replace (z ^ 4) with (z * z * z * z) by ring. nra.
Qed.

Lemma reduced_z r t : 0 <= r < t ->
  rt3d_coda_reduced r t = sqrt (zz r t + KK / (t * zz r t ^ 2)) * exp (t * (zz r t ^ 3 - 1)) / NN t.
Proof.
  intros H. destruct (aa_pos r t H) as [A A1]. destruct (zz_facts r t H) as ([Z Z1] & Z4 & _). unfold rt3d_coda_reduced. cbv zeta. fold (aa r t).
  assert (ZP : zz r t = Rpower (aa r t) (/ 2 * / 2)).
  { unfold zz. rewrite <- (Rpower_sqrt (aa r t)) by exact A. rewrite <- Rpower_sqrt by apply exp_pos. apply Rpower_mult. }
  set (z := zz r t) in *.
  assert (P1 : Rpower (aa r t) 0.125 = sqrt z).
  { rewrite <- Rpower_sqrt by exact Z. rewrite ZP, Rpower_mult. f_equal. lra. }
  assert (P2 : Rpower (aa r t) 0.75 = z ^ 3).
  { rewrite <- Rpower_pow by exact Z. rewrite ZP, Rpower_mult. f_equal. cbn. lra. }
  rewrite P1, P2. unfold rtF. fold (NN t) KK.
  assert (N0 : 0 < NN t) by apply exp_pos.
  assert (Q : sqrt (z + KK / (t * z ^ 2)) = sqrt z * sqrt (1 + KK / (t * z ^ 3))).
  { rewrite <- sqrt_mult_alt by lra. f_equal. field. split; lra. }
  rewrite Q. field. lra.
Qed.

(** the exponent *)
Lemma exponent r t : 0 <= r < t ->
  - (3 / 4 * (r ^ 2 / t ^ 2)) - 3 / 2 * (r ^ 2 / t ^ 2) ^ 2 <= zz r t ^ 3 - 1 <= - (3 / 4 * (r ^ 2 / t ^ 2)).
Proof.
  intros H. destruct (zz_facts r t H) as ([Z Z1] & Z4 & ZA). unfold aa in Z4, ZA. set (z := zz r t) in *. set (y := r ^ 2 / t ^ 2) in *.
  assert (Y : y = 1 - z ^ 4) by lra.
  assert (E : z ^ 3 - 1 - - (3 / 4 * y) = - ((1 - z) ^ 2 * (3 * z ^ 2 + 2 * z + 1) / 4)) by (rewrite Y; field).
  assert (0 <= (1 - z) ^ 2) by apply pow2_ge_0. assert (0 <= 3 * z ^ 2 + 2 * z + 1 <= 6) by nra.
  assert (1 - z <= y) by lra. assert ((1 - z) ^ 2 <= y ^ 2) by nra. split; [|nra].
  assert ((1 - z) ^ 2 * (3 * z ^ 2 + 2 * z + 1) <= y ^ 2 * 6) by (apply Rmult_le_compat; lra). lra.
Qed.

Definition hh (t r : R) : R := 4 * PI * r ^ 2 * rt3d_coda_reduced r t.

Lemma hh_nonneg t r : 0 <= r < t -> 0 <= hh t r.
Proof.
  intros H. unfold hh. pose proof PI_RGT_0. apply Rmult_le_pos; [nra|]. left. apply rt3d_reduced_pos; lra.
Qed.

Lemma hh_cont t r : 0 <= r < t -> continuous (hh t) r.
Proof.
  intros H. destruct (aa_pos r t H) as [A A1]. unfold aa in A. apply (@ex_derive_continuous R_AbsRing R_NormedModule).
  unfold hh, rt3d_coda_reduced, rtF, Rpower. cbv zeta. auto_derive.
  pose proof (exp_pos (1.5 * ln (4 * PI * t / 3))).
  assert (0 < exp (0.75 * ln (1 - r ^ 2 / t ^ 2))) by apply exp_pos.
  cbn [pow] in *. unfold Rdiv in *. assert (0 < t) by lra.
  assert (0 < t * exp (0.75 * ln (1 + - (r * (r * 1) * / (t * (t * 1)))))) by (apply Rmult_lt_0_compat; [assumption|apply exp_pos]).
  repeat split; try lra.
  pose proof (Rinv_0_lt_compat _ H3). nra.
Qed.

Lemma NN_eq t : 0 < t -> NN t = (4 * PI * t / 3) * sqrt (4 * PI * t / 3).
Proof.
  intros T. pose proof PI_RGT_0 as P. assert (0 < 4 * PI * t / 3) as Q by (apply Rdiv_lt_0_compat; [|lra]; apply Rmult_lt_0_compat; lra).
  unfold NN. replace 1.5 with (1 + / 2) by lra. rewrite Rpower_plus, Rpower_1, Rpower_sqrt by exact Q. reflexivity.
Qed.

Lemma NN_lower t : 0 < t -> 8 * t * sqrt t <= NN t.
Proof.
  intros T. rewrite NN_eq by exact T. assert (P : 3 <= PI) by (pose proof PI2_3_2; lra).
  assert (Q : 4 * t <= 4 * PI * t / 3) by nra.
  assert (S : sqrt (4 * t) = 2 * sqrt t). { rewrite sqrt_mult by lra. f_equal. replace 4 with (2 * 2) by ring. apply sqrt_square. lra. }
  replace (8 * t * sqrt t) with ((4 * t) * (2 * sqrt t)) by ring. rewrite <- S.
  apply Rmult_le_compat; [lra|apply sqrt_pos|exact Q|apply sqrt_le_1_alt, Q].
Qed.

Definition dk (t r : R) : R := surface 3 r * diff 3 r t 1 1.

Lemma dk_eq t r : 0 < t -> dk t r = 4 * PI * r ^ 2 * exp (- (3 / 4 * (r ^ 2 / t))) / NN t.
Proof.
  intros T. pose proof PI_RGT_0 as P. assert (0 < 4 * PI * t / 3) as Q by (apply Rdiv_lt_0_compat; [|lra]; apply Rmult_lt_0_compat; lra).
  unfold dk, surface, diff. cbv zeta. replace (INR 3) with 3 by (cbn; lra).
  replace (4 * PI * (1 / (3 * 1)) * t) with (4 * PI * t / 3) by field. unfold NN.
  replace (- (3) / 2) with (- (1.5)) by lra. rewrite Rpower_Ropp.
  replace (- r ^ 2 / (4 * (1 / (3 * 1)) * t)) with (- (3 / 4 * (r ^ 2 / t))) by (field; lra).
  field. apply Rgt_not_eq, exp_pos.
Qed.

Lemma dk_int t rho : 0 < t -> is_RInt (dk t) 0 rho (inside 3 (rho * sqrt (3 / (4 * t)))).
Proof.
  intros T. pose proof (diff_inside 3 t 1 1 rho ltac:(right; right; reflexivity) ltac:(lra) ltac:(lra) T) as D.
  replace (INR 3 * 1 / (4 * 1 * t)) with (3 / (4 * t)) in D by (replace (INR 3) with 3 by (cbn; lra); f_equal; ring). exact D.
Qed.

Lemma hh_eq t r : 0 <= r < t ->
  hh t r = 4 * PI * r ^ 2 * (sqrt (zz r t + KK / (t * zz r t ^ 2)) * exp (t * (zz r t ^ 3 - 1))) / NN t.
Proof. intros H. unfold hh. rewrite reduced_z by exact H. unfold Rdiv. ring. Qed.

Lemma scaled t y s : 0 < t -> t * (y / t ^ 2) = y / t /\ (s <= y / t ^ 2 -> t * s <= y / t).
Proof.
  intros T. assert (E : t * (y / t ^ 2) = y / t) by (field; lra). split; [exact E|]. intros S. rewrite <- E. apply Rmult_le_compat_l; lra.
Qed.

Lemma frac_pos r t : 0 < t -> 0 <= r ^ 2 / t ^ 2.
Proof. intros T. apply Rmult_le_pos; [apply pow2_ge_0|left; apply Rinv_0_lt_compat; nra]. Qed.

(** below *)
Lemma hh_below t r R : 0 <= r <= R -> R < t ->
  (1 - R ^ 2 / t ^ 2) * exp (- (3 / 2 * (R ^ 4 / t ^ 3))) * dk t r <= hh t r.
Proof.
  intros Hr HR. assert (T : 0 < t) by lra. assert (H : 0 <= r < t) by lra. assert (HRt : 0 <= R < t) by lra.
  rewrite hh_eq, dk_eq by assumption. destruct (zz_facts r t H) as ([Z Z1] & Z4 & ZA). destruct (exponent r t H) as [X _].
  destruct (aa_pos R t HRt) as [AR _]. fold (aa R t).
  assert (Y : r ^ 2 / t ^ 2 <= R ^ 2 / t ^ 2) by (apply Rmult_le_compat_r; [left; apply Rinv_0_lt_compat; nra|nra]).
  assert (Y0 := frac_pos r t T).
  set (z := zz r t) in *. pose proof PI_RGT_0 as P. assert (N0 : 0 < NN t) by apply exp_pos.
  assert (S : aa R t <= sqrt (z + KK / (t * z ^ 2))).
  { apply Rle_trans with z; [unfold aa in *; lra|]. rewrite <- (sqrt_Rsqr z) at 1 by lra. apply sqrt_le_1_alt. unfold Rsqr.
    assert (0 < KK / (t * z ^ 2)) by (unfold KK; apply Rdiv_lt_0_compat; [lra|]; apply Rmult_lt_0_compat; [lra|apply pow_lt, Z]). nra. }
  assert (E : exp (- (3 / 2 * (R ^ 4 / t ^ 3))) * exp (- (3 / 4 * (r ^ 2 / t))) <= exp (t * (z ^ 3 - 1))).
  { rewrite <- exp_plus. apply exp_mono. assert (t * (- (3 / 4 * (r ^ 2 / t ^ 2)) - 3 / 2 * (r ^ 2 / t ^ 2) ^ 2) <= t * (z ^ 3 - 1)) by (apply Rmult_le_compat_l; lra).
    assert ((r ^ 2 / t ^ 2) ^ 2 <= (R ^ 2 / t ^ 2) ^ 2) by nra.
    assert (R ^ 4 / t ^ 3 = t * (R ^ 2 / t ^ 2) ^ 2) as -> by (field; lra).
    assert (r ^ 2 / t = t * (r ^ 2 / t ^ 2)) as -> by (field; lra). nra. }
  apply Rle_trans with (4 * PI * r ^ 2 / NN t * (aa R t * (exp (- (3 / 2 * (R ^ 4 / t ^ 3))) * exp (- (3 / 4 * (r ^ 2 / t)))))).
  { right. field. lra. }
  apply Rle_trans with (4 * PI * r ^ 2 / NN t * (sqrt (z + KK / (t * z ^ 2)) * exp (t * (z ^ 3 - 1)))); [|right; field; lra].
  apply Rmult_le_compat_l; [apply Rmult_le_pos; [nra|left; now apply Rinv_0_lt_compat]|].
  apply Rmult_le_compat; [lra|left; apply Rmult_lt_0_compat; apply exp_pos|exact S|exact E].
Qed.

(** above, near the source *)
Lemma hh_near t r : 0 < t -> 0 <= r <= t / 2 -> hh t r <= (1 + 2 / t) * dk t r.
Proof.
  intros T Hr. assert (H : 0 <= r < t) by lra. rewrite hh_eq, dk_eq by assumption.
  destruct (zz_facts r t H) as ([Z Z1] & Z4 & ZA). destruct (exponent r t H) as [_ X].
  assert (Y : r ^ 2 / t ^ 2 <= 1 / 4).
  { apply (Rmult_le_reg_r (t ^ 2)); [nra|]. unfold Rdiv at 1. rewrite Rmult_assoc, Rinv_l by nra. nra. }
  unfold aa in ZA. set (z := zz r t) in *. assert (Z3 : 3 / 4 <= z) by lra. pose proof PI_RGT_0 as P. assert (N0 : 0 < NN t) by apply exp_pos.
  assert (IT : 0 < / t) by now apply Rinv_0_lt_compat.
  assert (S : sqrt (z + KK / (t * z ^ 2)) <= 1 + 2 / t).
  { rewrite <- (sqrt_Rsqr (1 + 2 / t)) by (unfold Rdiv; lra). apply sqrt_le_1_alt. unfold Rsqr.
    assert (I : / z ^ 2 <= 16 / 9). { replace (16 / 9) with (/ (9 / 16)) by field. apply Rinv_le_contravar; nra. }
    assert (0 < / z ^ 2) by (apply Rinv_0_lt_compat; nra).
    replace (KK / (t * z ^ 2)) with (/ t * (KK * / z ^ 2)) by (field; lra). unfold KK in *. unfold Rdiv.
    assert (/ t * (2.026 * / z ^ 2) <= / t * 4) by (apply Rmult_le_compat_l; lra). nra. }
  assert (E : exp (t * (z ^ 3 - 1)) <= exp (- (3 / 4 * (r ^ 2 / t)))).
  { apply exp_mono. apply Rle_trans with (t * - (3 / 4 * (r ^ 2 / t ^ 2))); [apply Rmult_le_compat_l; lra|]. right. field. lra. }
  apply Rle_trans with (4 * PI * r ^ 2 / NN t * (sqrt (z + KK / (t * z ^ 2)) * exp (t * (z ^ 3 - 1)))); [right; field; lra|].
  apply Rle_trans with (4 * PI * r ^ 2 / NN t * ((1 + 2 / t) * exp (- (3 / 4 * (r ^ 2 / t))))); [|right; field; lra].
  apply Rmult_le_compat_l; [apply Rmult_le_pos; [nra|left; now apply Rinv_0_lt_compat]|].
  apply Rmult_le_compat; [apply sqrt_pos|left; apply exp_pos|exact S|exact E].
Qed.

(** above, far from the source, with the primitive of r / zz *)
Lemma prim_z t r : 0 <= r < t -> is_derive (fun r => - (2 / 3 * t ^ 2) * zz r t ^ 3) r (r / zz r t).
Proof.
  intros H. destruct (aa_pos r t H) as [A A1]. destruct (zz_facts r t H) as ([Z Z1] & Z4 & _).
  assert (S := sqrt_lt_R0 _ A). unfold zz, aa in *. auto_derive.
  - cbn [pow] in *. unfold Rdiv in *. repeat split; try assumption. 
  - set (a := 1 - r ^ 2 / t ^ 2) in *. replace (1 + - (r * (r * 1) * / (t * (t * 1)))) with a by (unfold a; cbn [pow]; unfold Rdiv; ring).
    assert (SS := sqrt_sqrt a ltac:(lra)). assert (ZZ := sqrt_sqrt (sqrt a) ltac:(lra)). set (z := sqrt (sqrt a)) in *.
    change (@eq R (- (2 / 3 * t ^ 2) * (INR 3 * (- (1 * (r * 1) + r * 1) * / (t * (t * 1)) * / (2 * sqrt a) * / (2 * z)) * z ^ 2)) (r / z)) || idtac.
    rewrite <- ZZ. field. lra.
Qed.

Lemma hh_far t m r : 0 <= m <= r -> r < t ->
  hh t r <= 4 * PI * t * sqrt (1 + KK / t) * exp (- (3 / 4 * (m ^ 2 / t))) / NN t * (r / zz r t).
Proof.
  intros Hm Hr. assert (T : 0 < t) by lra. assert (H : 0 <= r < t) by lra. rewrite hh_eq by assumption.
  destruct (zz_facts r t H) as ([Z Z1] & Z4 & ZA). destruct (exponent r t H) as [_ X].
  set (z := zz r t) in *. pose proof PI_RGT_0 as P. assert (N0 : 0 < NN t) by apply exp_pos.
  assert (IT : 0 < / t) by now apply Rinv_0_lt_compat. assert (K0 : 0 < KK / t) by (unfold KK; apply Rdiv_lt_0_compat; lra).
  assert (IZ : 0 < / z) by now apply Rinv_0_lt_compat.
  assert (S : sqrt (z + KK / (t * z ^ 2)) <= sqrt (1 + KK / t) * / z).
  { rewrite <- (sqrt_Rsqr (/ z)) by lra. rewrite <- sqrt_mult_alt by lra. apply sqrt_le_1_alt. unfold Rsqr.
    assert (z ^ 3 <= 1) by (replace 1 with (1 ^ 3) by ring; apply pow_incr; lra).
    apply Rle_trans with ((z ^ 3 + KK / t) * (/ z * / z)); [right; field; lra|]. apply Rmult_le_compat_r; nra. }
  assert (E : exp (t * (z ^ 3 - 1)) <= exp (- (3 / 4 * (m ^ 2 / t)))).
  { apply exp_mono. apply Rle_trans with (t * - (3 / 4 * (r ^ 2 / t ^ 2))); [apply Rmult_le_compat_l; lra|].
    apply Rle_trans with (- (3 / 4 * (r ^ 2 / t))); [right; field; lra|].
    assert (m ^ 2 / t <= r ^ 2 / t) by (apply Rmult_le_compat_r; nra). lra. }
  apply Rle_trans with (4 * PI * (r * t) / NN t * (sqrt (1 + KK / t) * / z * exp (- (3 / 4 * (m ^ 2 / t))))); [|right; field; lra].
  apply Rle_trans with (4 * PI * r ^ 2 / NN t * (sqrt (z + KK / (t * z ^ 2)) * exp (t * (z ^ 3 - 1)))); [right; field; lra|].
  assert (IN : 0 < / NN t) by now apply Rinv_0_lt_compat.
  apply Rmult_le_compat.
  - apply Rmult_le_pos; [nra|lra].
  - apply Rmult_le_pos; [apply sqrt_pos|left; apply exp_pos].
  - apply Rmult_le_compat_r; [lra|]. apply Rmult_le_compat_l; [lra|nra].
  - apply Rmult_le_compat; [apply sqrt_pos|left; apply exp_pos|exact S|exact E].
Qed.

Lemma hh_int t a b : 0 <= a <= b -> b < t -> ex_RInt (hh t) a b.
Proof.
  intros A B. apply (@ex_RInt_continuous R_CompleteNormedModule). rewrite Rmin_left, Rmax_right by lra. intros r R1. apply hh_cont. lra.
Qed.

Lemma zz_cont t r : 0 <= r < t -> continuous (fun r => r / zz r t) r.
Proof.
  intros H. destruct (aa_pos r t H) as [A _]. destruct (zz_facts r t H) as ([Z _] & _). assert (S := sqrt_lt_R0 _ A).
  apply (@ex_derive_continuous R_AbsRing R_NormedModule). unfold zz, aa in *. auto_derive.
  cbn [pow] in *. unfold Rdiv, Rminus in *. repeat split; try assumption. lra.
Qed.

Lemma z_int t a b : 0 <= a <= b -> b < t -> exists I, is_RInt (fun r => r / zz r t) a b I /\ I <= 2 / 3 * t ^ 2.
Proof.
  intros A B. set (F := fun r => - (2 / 3 * t ^ 2) * zz r t ^ 3).
  exists (minus (F b) (F a)). split.
  - apply (@is_RInt_derive R_CompleteNormedModule).
    + rewrite Rmin_left, Rmax_right by lra. intros r R1. apply prim_z. lra.
    + rewrite Rmin_left, Rmax_right by lra. intros r R1. apply zz_cont. lra.
  - unfold minus, plus, opp, F; cbn -[pow]. destruct (zz_facts a t ltac:(lra)) as ([Z Z1] & _). destruct (zz_facts b t ltac:(lra)) as ([Y _] & _).
    assert (0 < t ^ 2) by nra. assert (zz a t ^ 3 <= 1) by (replace 1 with (1 ^ 3) by ring; apply pow_incr; lra).
    assert (0 < zz b t ^ 3) by (apply pow_lt, Y). nra.
Qed.

Lemma far_energy t a b : 0 <= a <= b -> b < t ->
  0 <= RInt (hh t) a b <= 8 / 3 * PI * t ^ 3 * sqrt (1 + KK / t) * exp (- (3 / 4 * (a ^ 2 / t))) / NN t.
Proof.
  intros A B. assert (T : 0 < t) by lra. destruct (z_int t a b A B) as (I & HI & LI). pose proof PI_RGT_0 as P. assert (N0 : 0 < NN t) by apply exp_pos.
  assert (IN : 0 < / NN t) by now apply Rinv_0_lt_compat.
  split. { apply RInt_ge_0; [lra|now apply hh_int|]. intros r R1. apply hh_nonneg. lra. }
  set (k := 4 * PI * t * sqrt (1 + KK / t) * exp (- (3 / 4 * (a ^ 2 / t))) / NN t).
  assert (K0 : 0 <= k).
  { unfold k. apply Rmult_le_pos; [|lra]. apply Rmult_le_pos; [|left; apply exp_pos]. apply Rmult_le_pos; [|apply sqrt_pos]. nra. }
  apply Rle_trans with (k * I).
  - apply (is_RInt_le (hh t) (fun r => k * (r / zz r t)) a b); [lra|apply (@RInt_correct R_CompleteNormedModule), hh_int; lra| |].
    + apply (@is_RInt_scal R_NormedModule). exact HI.
    + intros r R1. apply hh_far; lra.
  - apply Rle_trans with (k * (2 / 3 * t ^ 2)); [apply Rmult_le_compat_l; assumption|]. right. unfold k. field. lra.
Qed.

Lemma near_energy t a : 0 < t -> 0 <= a <= t / 2 -> RInt (hh t) 0 a <= 1 + 2 / t.
Proof.
  intros T A. assert (IT : 0 < / t) by now apply Rinv_0_lt_compat.
  apply Rle_trans with ((1 + 2 / t) * inside 3 (a * sqrt (3 / (4 * t)))).
  - apply (is_RInt_le (hh t) (fun r => (1 + 2 / t) * dk t r) 0 a); [lra|apply (@RInt_correct R_CompleteNormedModule), hh_int; lra| |].
    + apply (@is_RInt_scal R_NormedModule). now apply dk_int.
    + intros r R1. apply hh_near; lra.
  - rewrite <- (Rmult_1_r (1 + 2 / t)) at 2. apply Rmult_le_compat_l; [unfold Rdiv; lra|].
    destruct (Rle_lt_or_eq_dec 0 a ltac:(lra)) as [L|<-].
    + left. apply inside_bounds; [right; right; reflexivity|]. apply Rmult_lt_0_compat; [exact L|]. apply sqrt_lt_R0. apply Rdiv_lt_0_compat; lra.
    + rewrite Rmult_0_l. unfold inside. cbv zeta. rewrite RInt_point. unfold zero; cbn -[pow]. lra.
Qed.

Lemma below_energy t a b : 0 <= a <= b -> b < t ->
  (1 - a ^ 2 / t ^ 2) * exp (- (3 / 2 * (a ^ 4 / t ^ 3))) * inside 3 (a * sqrt (3 / (4 * t))) <= RInt (hh t) 0 b.
Proof.
  intros A B. assert (T : 0 < t) by lra. apply Rle_trans with (RInt (hh t) 0 a).
  - set (k := (1 - a ^ 2 / t ^ 2) * exp (- (3 / 2 * (a ^ 4 / t ^ 3)))).
    apply (is_RInt_le (fun r => k * dk t r) (hh t) 0 a); [lra| |apply (@RInt_correct R_CompleteNormedModule), hh_int; lra|].
    + apply (@is_RInt_scal R_NormedModule). now apply dk_int.
    + intros r R1. apply hh_below; lra.
  - rewrite <- (RInt_Chasles (hh t) 0 a b) by (apply hh_int; lra).
    assert (0 <= RInt (hh t) a b). { apply RInt_ge_0; [lra|apply hh_int; lra|]. intros r R1. apply hh_nonneg. lra. }
    change (RInt (hh t) 0 a <= RInt (hh t) 0 a + RInt (hh t) a b). lra.
Qed.

(** ** early *)
Lemma early_energy t rho : 0 <= rho < t -> t <= 1 -> 0 <= RInt (hh t) 0 rho <= 4 * t.
Proof.
  intros H T1. assert (T : 0 < t) by lra. destruct (far_energy t 0 rho ltac:(lra) ltac:(lra)) as [A B]. split; [exact A|].
  eapply Rle_trans; [exact B|]. replace (- (3 / 4 * (0 ^ 2 / t))) with 0 by (field; lra). rewrite exp_0, Rmult_1_r.
  pose proof PI_RGT_0 as P. pose proof PI_4 as P4. assert (N0 : 0 < NN t) by apply exp_pos. assert (NL := NN_lower t T).
  assert (S := sqrt_lt_R0 _ T). assert (SS := sqrt_sqrt t ltac:(lra)).
  assert (Q : sqrt (1 + KK / t) * sqrt t <= 2).
  { rewrite <- sqrt_mult_alt by (unfold KK; assert (0 < 2.026 / t) by (apply Rdiv_lt_0_compat; lra); lra).
    replace 2 with (sqrt (2 * 2)) by (apply sqrt_square; lra). apply sqrt_le_1_alt. unfold KK. replace ((1 + 2.026 / t) * t) with (t + 2.026) by (field; lra). lra. }
  apply (Rmult_le_reg_r (NN t)); [exact N0|]. unfold Rdiv at 1. rewrite Rmult_assoc, Rinv_l by lra. rewrite Rmult_1_r.
  apply Rle_trans with (4 * t * (8 * t * sqrt t)); [|apply Rmult_le_compat_l; lra].
  apply (Rmult_le_reg_r (sqrt t)); [exact S|].
  replace (4 * t * (8 * t * sqrt t) * sqrt t) with (32 * t ^ 2 * (sqrt t * sqrt t)) by ring. rewrite SS.
  replace (8 / 3 * PI * t ^ 3 * sqrt (1 + KK / t) * sqrt t) with (8 / 3 * t ^ 3 * (PI * (sqrt (1 + KK / t) * sqrt t))) by ring.
  assert (0 < t ^ 3) by (apply pow_lt, T).
  assert (0 <= sqrt (1 + KK / t) * sqrt t) by (apply Rmult_le_pos; [apply sqrt_pos|lra]).
  assert (PI * (sqrt (1 + KK / t) * sqrt t) <= 4 * 2) by (apply Rmult_le_compat; lra).
  replace (32 * t ^ 2 * t) with (32 * t ^ 3) by ring. nra.
Qed.

(** ** late *)
Lemma exp_third t : 0 < t -> exp (- (3 * t / 16)) <= 4096 / t ^ 3.
Proof.
  intros T. rewrite exp_Ropp. replace (4096 / t ^ 3) with (/ ((t / 16) ^ 3)) by (field; lra). apply Rinv_le_contravar; [apply pow_lt; lra|].
  replace (3 * t / 16) with (t / 16 + t / 16 + t / 16) by field. rewrite !exp_plus. set (e := exp (t / 16)).
  assert (t / 16 <= e) by (pose proof (exp_ineq1 (t / 16) ltac:(lra)); unfold e; lra).
  replace (e * e * e) with (e ^ 3) by ring. apply pow_incr. lra.
Qed.

Lemma late_above t rho : 1 <= t -> t / 2 <= rho < t -> RInt (hh t) 0 rho <= 1 + 10999 / t.
Proof.
  intros T1 H. assert (T : 0 < t) by lra. rewrite <- (RInt_Chasles (hh t) 0 (t / 2) rho) by (apply hh_int; lra).
  change (RInt (hh t) 0 (t / 2) + RInt (hh t) (t / 2) rho <= 1 + 10999 / t).
  assert (A := near_energy t (t / 2) T ltac:(lra)). destruct (far_energy t (t / 2) rho ltac:(lra) ltac:(lra)) as [_ B].
  assert (IT : 0 < / t) by now apply Rinv_0_lt_compat.
  assert (C : RInt (hh t) (t / 2) rho <= 10997 / t); [|unfold Rdiv in *; lra].
  eapply Rle_trans; [exact B|]. replace (- (3 / 4 * ((t / 2) ^ 2 / t))) with (- (3 * t / 16)) by (field; lra).
  pose proof PI_RGT_0 as P. pose proof PI_4 as P4. assert (N0 : 0 < NN t) by apply exp_pos. assert (NL := NN_lower t T). assert (X := exp_third t T).
  assert (S : 1 <= sqrt t) by (rewrite <- sqrt_1; apply sqrt_le_1_alt; lra).
  assert (Q : sqrt (1 + KK / t) <= 2).
  { replace 2 with (sqrt (2 * 2)) by (apply sqrt_square; lra). apply sqrt_le_1_alt. unfold KK, Rdiv. assert (/ t <= 1) by (rewrite <- Rinv_1; apply Rinv_le_contravar; lra). lra. }
  assert (0 < t ^ 3) as T3 by (apply pow_lt, T). pose proof (exp_pos (- (3 * t / 16))) as X0. pose proof (sqrt_pos (1 + KK / t)) as Q0.
  assert (IN : / NN t <= / (8 * t)) by (apply Rinv_le_contravar; nra). assert (IN0 : 0 < / NN t) by now apply Rinv_0_lt_compat.
  apply Rle_trans with (8 / 3 * 4 * t ^ 3 * 2 * (4096 / t ^ 3) * / (8 * t)).
  - unfold Rdiv at 1. apply Rmult_le_compat; [|lra| |exact IN].
    + apply Rmult_le_pos; [|lra]. apply Rmult_le_pos; [|exact Q0]. apply Rmult_le_pos; [|lra]. lra.
    + apply Rmult_le_compat; [|lra| |exact X].
      * apply Rmult_le_pos; [|exact Q0]. apply Rmult_le_pos; lra.
      * apply Rmult_le_compat; [apply Rmult_le_pos; lra|exact Q0| |exact Q]. apply Rmult_le_compat_r; lra.
  - apply Rle_trans with (32768 / 3 / t); [right; field; lra|]. unfold Rdiv. nra.
Qed.

Lemma late_below t rho l : 2 <= l -> 4 * l ^ 4 <= t -> t / 2 <= rho < t -> 1 - 3 * l ^ 4 / t - 6 / l <= RInt (hh t) 0 rho.
Proof.
  intros L T4 H. assert (L2 : 4 <= l ^ 2) by nra. assert (L4 : l ^ 4 = l ^ 2 * l ^ 2) by ring. assert (16 <= l ^ 4) by nra.
  assert (T : 0 < t) by lra. set (a := l * sqrt t). assert (S := sqrt_lt_R0 _ T). assert (SS := sqrt_sqrt t ltac:(lra)).
  assert (A2 : a ^ 2 = l ^ 2 * t) by (unfold a; rewrite Rpow_mult_distr; f_equal; rewrite <- SS at 2; ring).
  assert (A0 : 0 < a) by (unfold a; apply Rmult_lt_0_compat; lra).
  assert (A : a <= t / 2). { destruct (Rle_dec a (t / 2)) as [?|N]; [assumption|exfalso]. assert (t / 2 * (t / 2) < a ^ 2) by nra. rewrite A2 in *. nra. }
  assert (B := below_energy t a rho ltac:(lra) ltac:(lra)). eapply Rle_trans; [|exact B].
  replace (a ^ 2 / t ^ 2) with (l ^ 2 / t) by (rewrite A2; field; lra).
  replace (a ^ 4 / t ^ 3) with (l ^ 4 / t) by (replace (a ^ 4) with (a ^ 2 * a ^ 2) by ring; rewrite A2; field; lra).
  assert (X : a * sqrt (3 / (4 * t)) = l * sqrt (3 / 4)).
  { unfold a. rewrite Rmult_assoc. f_equal. rewrite <- sqrt_mult_alt by lra. f_equal. field. lra. }
  rewrite X. assert (Q : 1 / 2 <= sqrt (3 / 4)). { rewrite <- (sqrt_Rsqr (1 / 2)) by lra. apply sqrt_le_1_alt. unfold Rsqr. lra. }
  assert (X1 : l / 2 <= l * sqrt (3 / 4)) by nra.
  destruct (inside_late 3 (l * sqrt (3 / 4)) ltac:(right; right; reflexivity) ltac:(lra)) as [I J].
  assert (I2 : 3 / (l * sqrt (3 / 4)) <= 6 / l).
  { replace (6 / l) with (3 * / (l / 2)) by (field; lra). apply Rmult_le_compat_l; [lra|]. apply Rinv_le_contravar; lra. }
  set (i := inside 3 (l * sqrt (3 / 4))) in *.
  assert (IT : 0 < / t) by now apply Rinv_0_lt_compat.
  assert (U : l ^ 4 / t <= 1 / 4). { apply (Rmult_le_reg_r t); [exact T|]. unfold Rdiv at 1. rewrite Rmult_assoc, Rinv_l by lra. lra. }
  assert (U0 : l ^ 2 / t <= l ^ 4 / t) by (unfold Rdiv; apply Rmult_le_compat_r; nra).
  assert (V0 : 0 < l ^ 2 / t) by (apply Rdiv_lt_0_compat; lra).
  pose proof (exp_ineq1_le (- (3 / 2 * (l ^ 4 / t)))) as E. set (e := exp (- (3 / 2 * (l ^ 4 / t)))) in *.
  assert (E1 : e <= 1). { unfold e. rewrite <- exp_0. apply exp_mono. lra. }
  assert (E0 : 0 < e) by apply exp_pos.
  set (u := l ^ 4 / t) in *. set (v := l ^ 2 / t) in *. replace (3 * l ^ 4 / t) with (3 * u) by (unfold u; field; lra).
  set (w := 6 / l) in *. assert (W : 0 < w) by (apply Rdiv_lt_0_compat; lra).
  assert (VE : 1 - u - 3 / 2 * u <= (1 - v) * e) by nra.
  assert (VE1 : 0 < (1 - v) * e <= 1) by nra.
  destruct (Rle_dec 0 (1 - w)) as [P|N]; [|].
  - assert ((1 - v) * e * (1 - w) <= (1 - v) * e * i) by (apply Rmult_le_compat_l; lra). nra.
  - assert (0 <= i).
    { unfold i. assert (M := dk_int t a T). rewrite X in M. fold i in M.
      apply (is_RInt_le (fun _ => 0) (dk t) 0 a 0 i); [lra| |exact M|].
      - assert (C := @is_RInt_const R_NormedModule 0 a 0). assert (C0 : (a - 0) * 0 = 0) by ring.
        change (is_RInt (fun _ => 0) 0 a ((a - 0) * 0)) in C. rewrite C0 in C. exact C.
      - intros r R1. rewrite dk_eq by exact T. apply Rmult_le_pos; [|left; apply Rinv_0_lt_compat, exp_pos].
        apply Rmult_le_pos; [|left; apply exp_pos]. pose proof PI_RGT_0. nra. }
    assert (0 <= (1 - v) * e * i) by (apply Rmult_le_pos; lra). lra.
Qed.

(** ** energy of the Green's function *)
Lemma coda_energy t c g0 rho : 0 < c -> 0 < g0 -> 0 < t -> 0 <= rho < c * t ->
  is_RInt (fun r => 4 * PI * r ^ 2 * ok_value (G_scalar "rt3d" r t c g0)) 0 rho (RInt (hh (t * c * g0)) 0 (rho * g0)).
Proof.
  intros Hc Hg Ht H. set (s := t * c * g0). assert (ST : rho * g0 < s) by (unfold s; nra).
  apply (is_RInt_ext (fun r => scal g0 (hh s (g0 * r + 0)))).
  - rewrite Rmin_left, Rmax_right by lra. intros r R1. r_eq. unfold G_scalar. destruct (Rlt_dec (t - r / c) 0) as [L|_].
    { exfalso. apply (Rmult_lt_compat_r c) in L; [|assumption]. replace ((t - r / c) * c) with (c * t - r) in L by (field; lra). lra. }
    change (g0 * hh s (g0 * r + 0) = 4 * PI * r ^ 2 * rt3d_coda r t c g0). unfold hh, rt3d_coda. fold s.
    replace (g0 * r + 0) with (r * g0) by ring. ring.
  - apply (@is_RInt_comp_lin R_NormedModule (hh s) g0 0 0 rho). replace (g0 * 0 + 0) with 0 by ring. replace (g0 * rho + 0) with (rho * g0) by ring.
    apply (@RInt_correct R_CompleteNormedModule), hh_int; [|exact ST]. split; [lra|]. apply Rmult_le_pos; lra.
Qed.

Lemma direct_energy t c g0 : 0 < c -> 0 < t -> 4 * PI * (c * t) ^ 2 * rt3d_direct t c g0 = exp (- (t * c * g0)).
Proof.
  intros Hc Ht. pose proof PI_RGT_0. unfold rt3d_direct. cbv zeta. replace (- c * t * g0) with (- (t * c * g0)) by ring. field. repeat split; lra.
Qed.

Lemma rt3d_early t c g0 rho : 0 < c -> 0 < g0 -> 0 < t -> c * t * g0 <= 1 -> 0 <= rho < c * t ->
  let E := RInt (fun r => 4 * PI * r ^ 2 * ok_value (G_scalar "rt3d" r t c g0)) 0 rho in
  let D := 4 * PI * (c * t) ^ 2 * rt3d_direct t c g0 in
  0 <= E <= 4 * (c * t * g0) /\ Rabs (E + D - 1) <= 4 * (c * t * g0).
Proof.
  intros Hc Hg Ht H1 H E D. assert (EE := coda_energy t c g0 rho Hc Hg Ht H). apply (@is_RInt_unique R_CompleteNormedModule) in EE. change (E = RInt (hh (t * c * g0)) 0 (rho * g0)) in EE.
  unfold D. rewrite direct_energy by assumption. set (s := t * c * g0) in *. replace (c * t * g0) with s in * by (unfold s; ring).
  assert (S : 0 < s) by (unfold s; apply Rmult_lt_0_compat; [apply Rmult_lt_0_compat|]; assumption).
  assert (R1 : 0 <= rho * g0 < s) by (unfold s; split; [apply Rmult_le_pos; lra|nra]).
  destruct (early_energy s (rho * g0) R1 H1) as [A B]. rewrite EE. split; [lra|].
  pose proof (exp_ineq1_le (- s)). assert (exp (- s) <= 1) by (rewrite <- exp_0; apply exp_mono; lra). apply Rabs_le. lra.
Qed.

Lemma rt3d_late eps : 0 < eps -> exists T, forall t c g0 rho, 0 < c -> 0 < g0 -> 0 < t -> T < c * t * g0 -> c * t / 2 <= rho < c * t ->
  let E := RInt (fun r => 4 * PI * r ^ 2 * ok_value (G_scalar "rt3d" r t c g0)) 0 rho in
  let D := 4 * PI * (c * t) ^ 2 * rt3d_direct t c g0 in
  Rabs (E + D - 1) < eps.
Proof.
  intros He. set (l := 2 + 12 / eps). assert (IE : 0 < / eps) by now apply Rinv_0_lt_compat.
  assert (L : 2 <= l) by (unfold l, Rdiv; lra). assert (L4 : 0 < l ^ 4) by (apply pow_lt; lra).
  exists (1 + 11000 / eps + 4 * l ^ 4 + 6 * l ^ 4 / eps). intros t c g0 rho Hc Hg Ht HT H E D.
  assert (P1 : 0 < 11000 / eps) by (unfold Rdiv; lra). assert (P2 : 0 < 6 * l ^ 4 / eps) by (apply Rdiv_lt_0_compat; lra).
  assert (CT : 0 < c * t) by now apply Rmult_lt_0_compat.
  assert (EE := coda_energy t c g0 rho Hc Hg Ht ltac:(lra)). apply (@is_RInt_unique R_CompleteNormedModule) in EE. change (E = RInt (hh (t * c * g0)) 0 (rho * g0)) in EE.
  unfold D. rewrite direct_energy by assumption. set (s := t * c * g0) in *. replace (c * t * g0) with s in * by (unfold s; ring).
  assert (R1 : s / 2 <= rho * g0 < s) by (unfold s; split; nra).
  assert (A := late_above s (rho * g0) ltac:(lra) R1). assert (B := late_below s (rho * g0) l L ltac:(lra) R1). rewrite <- EE in A, B.
  assert (X : exp (- s) <= 1 / s).
  { rewrite exp_Ropp. unfold Rdiv. rewrite Rmult_1_l. apply Rinv_le_contravar; [lra|]. pose proof (exp_ineq1_le s). lra. }
  pose proof (exp_pos (- s)).
  assert (Y1 : 11000 / s < eps).
  { apply (Rmult_lt_reg_r s); [lra|]. unfold Rdiv. rewrite Rmult_assoc, Rinv_l by lra. assert (eps * (11000 / eps) < eps * s) by (apply Rmult_lt_compat_l; lra).
    replace (eps * (11000 / eps)) with 11000 in * by (field; lra). lra. }
  assert (Y2 : 3 * l ^ 4 / s < eps / 2).
  { apply (Rmult_lt_reg_r s); [lra|]. unfold Rdiv at 1. rewrite Rmult_assoc, Rinv_l by lra. assert (eps * (6 * l ^ 4 / eps) < eps * s) by (apply Rmult_lt_compat_l; lra).
    replace (eps * (6 * l ^ 4 / eps)) with (6 * l ^ 4) in * by (field; lra). lra. }
  assert (Y3 : 6 / l < eps / 2).
  { apply (Rmult_lt_reg_r l); [lra|]. unfold Rdiv at 1. rewrite Rmult_assoc, Rinv_l by lra. unfold l. replace (eps / 2 * (2 + 12 / eps)) with (eps + 6) by (field; lra). lra. }
  assert (10999 / s + 1 / s = 11000 / s) by (field; lra). apply Rabs_lt_between. lra.
Qed.
