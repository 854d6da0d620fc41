(** C146: decay of the coda of radiative transfer with time in three dimensions. *)
From Coq Require Import String List Reals Lra Lia Arith.
From Coquelicot Require Import Coquelicot.
From Verif Require Import Base RtModel RtSpec RtProof RtProof2 RtProof3 RtProof9 BeamProof SlopeProof FadeProof.
Open Scope R_scope.

(** x = g0 c t, p = g0 r; b is the fourth root of 1 - p^2/x^2 *)
Definition gape (p x : R) : R := x * exp (3 / 4 * ln (1 - p ^ 2 / x ^ 2)).
Definition root4 (p x : R) : R := exp (1 / 4 * ln (1 - p ^ 2 / x ^ 2)).

Lemma root4_pow p x : 0 < 1 - p ^ 2 / x ^ 2 -> root4 p x ^ 4 = 1 - p ^ 2 / x ^ 2.
Proof.
  intros H. unfold root4. set (a := 1 - p ^ 2 / x ^ 2) in *. clearbody a.
  transitivity (exp (ln a)); [|now apply exp_ln].
  replace (exp (1 / 4 * ln a) ^ 4) with (exp (1 / 4 * ln a) * exp (1 / 4 * ln a) * (exp (1 / 4 * ln a) * exp (1 / 4 * ln a))) by ring.
  rewrite <- !exp_plus. f_equal. lra.
Qed.

Lemma gape_root p x : gape p x = x * root4 p x ^ 3.
Proof. 
  unfold gape, root4. set (a := 1 - p ^ 2 / x ^ 2). clearbody a.
  replace (exp (1 / 4 * ln a) ^ 3) with (exp (1 / 4 * ln a) * exp (1 / 4 * ln a) * exp (1 / 4 * ln a)) by ring.
  rewrite <- !exp_plus. f_equal. f_equal. lra.
Qed.

Lemma gape_derive (p x : R) : 0 < x -> 0 < 1 - p ^ 2 / x ^ 2 ->
  is_derive (gape p) x (3 / 2 / root4 p x - root4 p x ^ 3 / 2).
Proof.
  intros Hx Ha. pose proof (root4_pow p x Ha) as E4. assert (B : 0 < root4 p x) by apply exp_pos.
  assert (E3 : exp (3 / 4 * ln (1 - p ^ 2 / x ^ 2)) = root4 p x ^ 3) by (pose proof (gape_root p x) as G; unfold gape in G; apply (Rmult_eq_reg_l x); lra).
  assert (P : p ^ 2 = x ^ 2 * (1 - root4 p x ^ 4)) by (rewrite E4; field; lra).
  set (b := root4 p x) in *. clearbody b. unfold gape. auto_derive.
  - replace (1 + - (p * (p * 1) * / (x * (x * 1)))) with (1 - p ^ 2 / x ^ 2) by (field; lra). repeat split; nra.
  - replace (1 + - (p * (p * 1) * / (x * (x * 1)))) with (1 - p ^ 2 / x ^ 2) by (field; lra).
    replace (3 * / 4 * ln (1 - p ^ 2 / x ^ 2)) with (3 / 4 * ln (1 - p ^ 2 / x ^ 2)) by reflexivity.
    rewrite E3, <- E4. replace (p * (p * 1)) with (p ^ 2) by ring. rewrite P. field. lra.
Qed.

Lemma space_rate x b : 0 < x -> 0 < b -> b <= 1 -> 3 / 4 <= b ^ 4 -> x * (1 - b ^ 4) <= 8 / 5 ->
  - (5 / 3) / x - 1 + (3 / 2 / b - b ^ 3 / 2) * (1 + 1 / (2 * (x * b ^ 3 + 2.026)) - 1 / (3 * (x * b ^ 3))) < 0.
Proof.
  intros Hx Hb H1 H4 Hp. assert (Lb : 93 / 100 <= b).
  { destruct (Rle_lt_dec (93 / 100) b) as [|N]; [assumption|exfalso]. assert (b ^ 2 < 865 / 1000) by nra.
    assert (b ^ 4 = b ^ 2 * b ^ 2) by ring. nra. }
  assert (Y : 0 < x * b ^ 3) by (apply Rmult_lt_0_compat; [lra|now apply pow_lt]).
  assert (B4 : b ^ 4 <= 1) by (assert (b ^ 2 <= 1) by nra; assert (b ^ 4 = b ^ 2 * b ^ 2) by ring; nra).
  assert (D : 0 < 3 / 2 / b - b ^ 3 / 2).
  { replace (3 / 2 / b - b ^ 3 / 2) with ((3 - b ^ 4) / (2 * b)) by (field; lra). apply Rdiv_lt_0_compat; lra. }
  assert (I : 1 / (2 * (x * b ^ 3 + 2.026)) <= 1 / (2 * (x * b ^ 3))).
  { unfold Rdiv. rewrite !Rmult_1_l. apply Rinv_le_contravar; lra. }
  apply Rle_lt_trans with (- (5 / 3) / x - 1 + (3 / 2 / b - b ^ 3 / 2) * (1 + 1 / (2 * (x * b ^ 3)) - 1 / (3 * (x * b ^ 3)))).
  { apply Rplus_le_compat_l. apply Rmult_le_compat_l; lra. }
  assert (K : (1 / 2 + 1 / ((1 + b) * (1 + b ^ 2))) / b <= 84 / 100).
  { assert (Q : 0 < (1 + b) * (1 + b ^ 2)) by nra. assert (Q1 : 359 / 100 <= (1 + b) * (1 + b ^ 2)) by nra.
    assert (J : 1 / ((1 + b) * (1 + b ^ 2)) <= 1 / (359 / 100)) by (unfold Rdiv; rewrite !Rmult_1_l; apply Rinv_le_contravar; lra).
    apply (Rmult_le_reg_r b); [lra|]. unfold Rdiv at 1. rewrite Rmult_assoc, Rinv_l, Rmult_1_r by lra. lra. }
  assert (V : / b ^ 4 <= / (3 / 4)) by (apply Rinv_le_contravar; lra).
  assert (E : x * (- (5 / 3) / x - 1 + (3 / 2 / b - b ^ 3 / 2) * (1 + 1 / (2 * (x * b ^ 3)) - 1 / (3 * (x * b ^ 3)))) =
    - (7 / 4) + / 4 * / b ^ 4 + x * (1 - b ^ 4) * ((1 / 2 + 1 / ((1 + b) * (1 + b ^ 2))) / b)) by (field; repeat split; nra).
  assert (Z : 0 <= x * (1 - b ^ 4)). { apply Rmult_le_pos; lra. }
  assert (M : x * (1 - b ^ 4) * ((1 / 2 + 1 / ((1 + b) * (1 + b ^ 2))) / b) <= 8 / 5 * (84 / 100)).
  { apply Rle_trans with (x * (1 - b ^ 4) * (84 / 100)); [now apply Rmult_le_compat_l|lra]. }
  apply (Rmult_lt_reg_l x); [exact Hx|]. rewrite Rmult_0_r, E. lra.
Qed.

Lemma space_gap p x : 0 <= p -> 0 < x -> 2 * p <= x -> 3 / 4 <= 1 - p ^ 2 / x ^ 2.
Proof.
  intros Hp Hx H. assert (Q : 0 < x ^ 2) by now apply pow_lt. apply (Rmult_le_reg_r (x ^ 2)); [exact Q|].
  replace ((1 - p ^ 2 / x ^ 2) * x ^ 2) with (x ^ 2 - p ^ 2) by (field; lra). nra.
Qed.

Lemma space_fade r s t c g0 : 0 < c -> 0 < g0 -> 0 <= r -> 0 < s -> 2 * r <= c * s -> 5 / 8 * (r ^ 2 * g0 / c) <= s -> s < t ->
  exists Es Et, G_scalar "rt3d" r s c g0 = Ok Es /\ G_scalar "rt3d" r t c g0 = Ok Et /\ Et < Es.
Proof.
  intros Hc Hg Hr H0 Hs Hp Hst. assert (CS : 0 < c * s) by now apply Rmult_lt_0_compat. assert (X : c * s < c * t) by now apply Rmult_lt_compat_l.
  eexists _, _. split; [eapply G_inside; [reflexivity|exact Hc|lra]|]. split; [eapply G_inside; [reflexivity|exact Hc|lra]|].
  assert (E : forall u, r < c * u -> rt3d_coda r u c g0 = g0 ^ 3 / Rpower (4 * PI / 3) 1.5 *
     exp (- (5 / 3) * ln (g0 * (c * u)) - g0 * (c * u) + room (gape (g0 * r) (g0 * (c * u))))).
  { intros u Hu. assert (XU : 0 < g0 * (c * u)) by (apply Rmult_lt_0_compat; lra). rewrite rt3d_exp by lra.
    replace (opening r u c g0) with (gape (g0 * r) (g0 * (c * u))).
    2:{ unfold opening, gape, Rpower. f_equal. f_equal. f_equal. f_equal. field. split; nra. }
    replace (u * c * g0) with (g0 * (c * u)) by ring. set (x := g0 * (c * u)) in *. clearbody x. pose proof PI_RGT_0.
    replace (4 * PI * x / 3) with (4 * PI / 3 * x) by field. rewrite <- Rpower_mult_distr by lra.
    assert (N : Rpower (4 * PI / 3) 1.5 <> 0) by (unfold Rpower; apply Rgt_not_eq, exp_pos). set (q := Rpower (4 * PI / 3) 1.5) in *. clearbody q.
    replace (g0 ^ 3 / (q * Rpower x 1.5)) with (g0 ^ 3 / q * exp (- (3 / 2) * ln x)).
    2:{ replace (- (3 / 2) * ln x) with (- (1.5 * ln x)) by lra. rewrite exp_Ropp. unfold Rpower. field. split; [apply Rgt_not_eq, exp_pos|exact N]. }
    rewrite !Rmult_assoc, <- !exp_plus. f_equal. f_equal. lra. }
  rewrite !E by lra. pose proof PI_RGT_0. apply Rmult_lt_compat_l; [apply Rdiv_lt_0_compat; [now apply pow_lt|apply exp_pos]|]. apply exp_increasing.
  assert (GX : g0 * (c * s) < g0 * (c * t)) by now apply Rmult_lt_compat_l.
  set (p := g0 * r) in *. assert (P0 : 0 <= p) by (unfold p; apply Rmult_le_pos; lra).
  assert (P2 : 2 * p <= g0 * (c * s)) by (unfold p; nra).
  assert (P3 : 5 / 8 * p ^ 2 <= g0 * (c * s)).
  { apply (Rmult_le_compat_l (g0 * c)) in Hp; [|apply Rmult_le_pos; lra]. replace (g0 * c * (5 / 8 * (r ^ 2 * g0 / c))) with (5 / 8 * p ^ 2) in Hp by (unfold p; field; lra). lra. }
  assert (XS : 0 < g0 * (c * s)) by (now apply Rmult_lt_0_compat).
  apply (falling (fun x => - (5 / 3) * ln x - x + room (gape p x))
    (fun x => - (5 / 3) / x - 1 + (3 / 2 / root4 p x - root4 p x ^ 3 / 2) * (1 + 1 / (2 * (x * root4 p x ^ 3 + 2.026)) - 1 / (3 * (x * root4 p x ^ 3))))); [exact GX| |].
  - intros x Hx. assert (A : 0 < 1 - p ^ 2 / x ^ 2) by (pose proof (space_gap p x ltac:(lra) ltac:(lra) ltac:(lra)); lra).
    assert (B : 0 < root4 p x) by apply exp_pos. assert (Y : 0 < x * root4 p x ^ 3) by (apply Rmult_lt_0_compat; [lra|now apply pow_lt]).
    assert (DR : is_derive room (gape p x) (1 + 1 / (2 * (x * root4 p x ^ 3 + 2.026)) - 1 / (3 * (x * root4 p x ^ 3)))).
    { rewrite gape_root. set (y := x * root4 p x ^ 3) in *. clearbody y. unfold room. auto_derive; [repeat split; lra|field; lra]. }
    pose proof (is_derive_comp room (gape p) x _ _ DR (gape_derive p x ltac:(lra) A)) as DC.
    assert (D1 : is_derive (fun x => - (5 / 3) * ln x - x) x (- (5 / 3) / x - 1)) by (auto_derive; [lra|field; lra]).
    exact (is_derive_plus _ _ x _ _ D1 DC).
  - intros x Hx. pose proof (space_gap p x ltac:(lra) ltac:(lra) ltac:(lra)) as A. pose proof (root4_pow p x ltac:(lra)) as E4.
    assert (B : 0 < root4 p x) by apply exp_pos. apply space_rate; [lra|exact B| | |].
    + destruct (Rle_lt_dec (root4 p x) 1) as [|N]; [assumption|exfalso]. assert (1 < root4 p x ^ 4) by (apply Rlt_pow_R1; [exact N|lia]).
      assert (0 <= p ^ 2 / x ^ 2) by (apply Rmult_le_pos; [apply pow2_ge_0|apply Rlt_le, Rinv_0_lt_compat, pow_lt; lra]). lra.
    + rewrite E4. exact A.
    + rewrite E4. replace (x * (1 - (1 - p ^ 2 / x ^ 2))) with (p ^ 2 / x) by (field; lra).
      apply (Rmult_le_reg_r x); [lra|]. replace (p ^ 2 / x * x) with (p ^ 2) by (field; lra). lra.
Qed.
