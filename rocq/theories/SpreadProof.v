(** Lemmas on the mean square of the distance (C129). *)
From Coq Require Import String List Bool Reals Lra Lia Arith.
From Coquelicot Require Import Coquelicot.
From Verif Require Import Base RtModel RtSpec RtProof RtProof2 RtProof3 RtProof9 BeamProof.
Import ListNotations.
Open Scope R_scope.

(** ** one dimension *)
Lemma bessel_energy_abs a T : a <> 0 -> 0 <= T ->
  is_RInt (fun r => PSeries B0 ((a / 2) ^ 2 * (T ^ 2 - r ^ 2)) + T * (a / 2) * PSeries B1 ((a / 2) ^ 2 * (T ^ 2 - r ^ 2))) 0 T
    (/ a * (exp (a * T) - 1)).
Proof.
  intros Ha HT. set (q := (a / 2) ^ 2). set (Y := q * T ^ 2).
  assert (Hq : 0 <= q) by apply pow2_ge_0.
  apply (int_lim _
    (fun n r => sum_n (fun k => B0 k * (q * (T ^ 2 - r ^ 2)) ^ k) n + T * (a / 2) * sum_n (fun k => B1 k * (q * (T ^ 2 - r ^ 2)) ^ k) n)
    (fun n => plus (sum_n (fun k => B0 k * q ^ k * J T k) n) (T * (a / 2) * sum_n (fun k => B1 k * q ^ k * J T k) n))
    (fun n => (PSeries B0 Y - sum_n (fun k => B0 k * Y ^ k) n) + Rabs (T * (a / 2)) * (PSeries B1 Y - sum_n (fun k => B1 k * Y ^ k) n))); [assumption| | | | |].
  - intros r _. apply (@continuous_plus R_UniformSpace R_AbsRing R_NormedModule); [apply bessel_cont, B0_bound|].
    apply (@continuous_scal_r R_UniformSpace R_AbsRing R_NormedModule (T * (a / 2)) (fun r => PSeries B1 (q * (T ^ 2 - r ^ 2)))).
    apply bessel_cont, B1_bound.
  - intros n. apply (@is_RInt_plus R_NormedModule); [apply sum_int|].
    apply (@is_RInt_scal R_NormedModule (fun r => sum_n (fun k => B1 k * (q * (T ^ 2 - r ^ 2)) ^ k) n)). apply sum_int.
  - intros n r Hr.
    assert (Hy : 0 <= q * (T ^ 2 - r ^ 2) <= Y).
    { split.
      - apply Rmult_le_pos; [assumption|]. assert (r ^ 2 <= T ^ 2) by (apply pow_incr; lra). lra.
      - unfold Y. apply Rmult_le_compat_l; [assumption|]. pose proof (pow2_ge_0 r). lra. }
    pose proof (tail_bound B0 _ _ Hy B0_bound n) as T0. pose proof (tail_bound B1 _ _ Hy B1_bound n) as T1.
    match goal with |- Rabs (?x + ?c * ?y - (?z + ?c * ?u)) <= _ => replace (x + c * y - (z + c * u)) with ((x - z) + c * (y - u)) by ring end.
    eapply Rle_trans; [apply Rabs_triang|]. apply Rplus_le_compat; [exact T0|].
    rewrite Rabs_mult. apply Rmult_le_compat_l; [apply Rabs_pos|assumption].
  - assert (HY : 0 <= Y) by (unfold Y; apply Rmult_le_pos; [assumption|apply pow_le; lra]).
    assert (S0 : forall A, (forall k, 0 <= A k <= / INR (fact k)) -> is_lim_seq (fun n => PSeries A Y - sum_n (fun k => A k * Y ^ k) n) 0).
    { intros A HA. replace (Finite 0) with (Finite (PSeries A Y - PSeries A Y)) by (f_equal; ring).
      apply is_lim_seq_minus'; [apply is_lim_seq_const|].
      apply (Series_correct (fun k => A k * Y ^ k)), ex_pseries_R, ex_series_bessel; assumption. }
    replace (Finite 0) with (Finite (0 + Rabs (T * (a / 2)) * 0)) by (f_equal; ring).
    apply is_lim_seq_plus'; [apply S0, B0_bound|].
    apply (is_lim_seq_scal_l _ (Rabs (T * (a / 2))) 0). apply S0, B1_bound.
  - apply (is_lim_seq_ext (fun n => / a * (sum_n (fun k => / INR (fact k) * (a * T) ^ k) (2 * n + 2) - 1))).
    { intros n. symmetry. apply exp_partial. lra. }
    apply (is_lim_seq_scal_l _ (/ a) (exp (a * T) - 1)). apply is_lim_seq_minus'; [|apply is_lim_seq_const].
    apply (is_lim_seq_subseq (fun n => sum_n (fun k => / INR (fact k) * (a * T) ^ k) n) _ (fun n => (2 * n + 2)%nat)).
    + apply eventually_subseq. intros n. lia.
    + pose proof (is_exp_Reals (a * T)) as X. apply is_pseries_R in X. exact X.
Qed.

Section One.
Variables a T : R.
Hypothesis Ha : 0 < a.
Hypothesis HT : 0 < T.
Let q := (a / 2) ^ 2.
Let b0 r := PSeries B0 (q * (T ^ 2 - r ^ 2)).
Let b1 r := PSeries B1 (q * (T ^ 2 - r ^ 2)).
Let b2 r := PSeries B2 (q * (T ^ 2 - r ^ 2)).

Lemma q_pos : 0 < q.
Proof. apply pow_lt. lra. Qed.

Lemma int_b0 : is_RInt b0 0 T ((exp (a * T) - exp (- (a * T))) / (2 * a)).
Proof.
  pose proof (bessel_energy_abs a T ltac:(lra) ltac:(lra)) as P. pose proof (bessel_energy_abs (- a) T ltac:(lra) ltac:(lra)) as M.
  pose proof (is_RInt_scal _ _ _ (/ 2) _ (is_RInt_plus _ _ _ _ _ _ P M)) as S.
  match type of S with is_RInt _ _ _ ?v => replace ((exp (a * T) - exp (- (a * T))) / (2 * a)) with v end.
  2:{ unfold scal, plus; cbn; unfold mult; cbn. replace (- a * T) with (- (a * T)) by ring. field. lra. }
  revert S. apply is_RInt_ext. intros r _. unfold scal, plus; cbn -[pow]; unfold mult; cbn -[pow]. req.
  replace ((- a / 2) ^ 2) with q by (unfold q; field). fold q. fold (b0 r) (b1 r). field.
Qed.

Lemma int_b1 : is_RInt b1 0 T ((exp (a * T) + exp (- (a * T)) - 2) / (a ^ 2 * T)).
Proof.
  pose proof (bessel_energy_abs a T ltac:(lra) ltac:(lra)) as P. pose proof (bessel_energy_abs (- a) T ltac:(lra) ltac:(lra)) as M.
  pose proof (is_RInt_scal _ _ _ (/ (a * T)) _ (is_RInt_minus _ _ _ _ _ _ P M)) as S.
  match type of S with is_RInt _ _ _ ?v => replace ((exp (a * T) + exp (- (a * T)) - 2) / (a ^ 2 * T)) with v end.
  2:{ unfold scal, minus, plus, opp; cbn; unfold mult; cbn. replace (- a * T) with (- (a * T)) by ring. field. lra. }
  revert S. apply is_RInt_ext. intros r _. unfold scal, minus, plus, opp; cbn -[pow]; unfold mult; cbn -[pow]. req.
  replace ((- a / 2) ^ 2) with q by (unfold q; field). fold q. fold (b0 r) (b1 r). field. lra.
Qed.

Lemma b0_derive r : is_derive b0 r (- (2 * q * r) * b1 r).
Proof.
  apply (is_derive_comp (PSeries B0) (fun r => q * (T ^ 2 - r ^ 2)) r (b1 r) (- (2 * q * r))); [apply B0_derive|].
  auto_derive; [trivial|]. ring.
Qed.

Lemma b1_derive r : is_derive b1 r (- (2 * q * r) * b2 r).
Proof.
  apply (is_derive_comp (PSeries B1) (fun r => q * (T ^ 2 - r ^ 2)) r (b2 r) (- (2 * q * r))); [apply B1_derive|].
  auto_derive; [trivial|]. ring.
Qed.

Lemma b_cont0 r : continuous b0 r.
Proof. apply (@ex_derive_continuous R_AbsRing R_NormedModule). eexists. apply b0_derive. Qed.
Lemma b_cont1 r : continuous b1 r.
Proof. apply (@ex_derive_continuous R_AbsRing R_NormedModule). eexists. apply b1_derive. Qed.

Lemma cont_id x : continuous (fun r : R => r) x.
Proof. apply continuous_id. Qed.

(** integration by parts *)
Lemma second_b1 : is_RInt (fun r => r ^ 2 * b1 r) 0 T ((RInt b0 0 T - T) / (2 * q)).
Proof.
  assert (Q := q_pos).
  assert (D : is_RInt (fun r => b0 r - 2 * q * (r ^ 2 * b1 r)) 0 T (minus ((fun r => r * b0 r) T) ((fun r => r * b0 r) 0))).
  { apply (@is_RInt_derive R_CompleteNormedModule (fun r => r * b0 r)).
    - intros r _. assert (D := b0_derive r). set (f := b0) in *. clearbody f. auto_derive; [eexists; exact D|].
      apply is_derive_unique in D. change (fun x => f x) with f. rewrite D. ring.
    - intros r _. apply (@continuous_minus R_UniformSpace R_AbsRing R_NormedModule); [apply b_cont0|].
      apply (continuous_mult (fun _ => 2 * q) (fun r => r ^ 2 * b1 r)); [apply continuous_const|].
      apply (continuous_mult (fun r => r ^ 2) b1); [|apply b_cont1].
      apply (@ex_derive_continuous R_AbsRing R_NormedModule). auto_derive. trivial. }
  assert (I0 : is_RInt b0 0 T (RInt b0 0 T)) by (apply (@RInt_correct R_CompleteNormedModule); eexists; apply int_b0).
  pose proof (is_RInt_scal _ _ _ (/ (2 * q)) _ (is_RInt_minus _ _ _ _ _ _ I0 D)) as S.
  match type of S with is_RInt _ _ _ ?v => replace ((RInt b0 0 T - T) / (2 * q)) with v end.
  2:{ unfold scal, minus, plus, opp; cbn -[b0]; unfold mult; cbn -[b0].
      assert (BT : b0 T = 1).
      { unfold b0. replace (q * (T ^ 2 - T ^ 2)) with 0 by ring. rewrite PSeries_0. unfold B0. cbn. field. }
      rewrite BT. field. lra. }
  revert S. apply is_RInt_ext. intros r _. unfold scal, minus, plus, opp; cbn -[pow]; unfold mult; cbn -[pow]. req. field. lra.
Qed.

Lemma second_b0 : is_RInt (fun r => r ^ 2 * b0 r) 0 T (T ^ 2 / 2 * RInt b1 0 T - (RInt b0 0 T - T) / (4 * q)).
Proof.
  assert (Q := q_pos).
  assert (D : is_RInt (fun r => (T ^ 2 - r ^ 2) * b1 r - 2 * (r ^ 2 * b0 r)) 0 T
                (minus ((fun r => r * ((T ^ 2 - r ^ 2) * b1 r)) T) ((fun r => r * ((T ^ 2 - r ^ 2) * b1 r)) 0))).
  { apply (@is_RInt_derive R_CompleteNormedModule (fun r => r * ((T ^ 2 - r ^ 2) * b1 r))).
    - intros r _. assert (D := b1_derive r).
      assert (B : b0 r = b1 r + q * (T ^ 2 - r ^ 2) * b2 r) by apply bessel_equation. rewrite B. clear B.
      set (f := b1) in *. clearbody f. auto_derive; [eexists; exact D|].
      apply is_derive_unique in D. change (fun x => f x) with f. rewrite D. ring.
    - intros r _. apply (@continuous_minus R_UniformSpace R_AbsRing R_NormedModule).
      + apply (continuous_mult (fun r => T ^ 2 - r ^ 2) b1); [|apply b_cont1].
        apply (@ex_derive_continuous R_AbsRing R_NormedModule). auto_derive. trivial.
      + apply (continuous_mult (fun _ => 2) (fun r => r ^ 2 * b0 r)); [apply continuous_const|].
        apply (continuous_mult (fun r => r ^ 2) b0); [|apply b_cont0].
        apply (@ex_derive_continuous R_AbsRing R_NormedModule). auto_derive. trivial. }
  assert (I1 : is_RInt b1 0 T (RInt b1 0 T)) by (apply (@RInt_correct R_CompleteNormedModule); eexists; apply int_b1).
  pose proof (is_RInt_minus _ _ _ _ _ _ (is_RInt_minus _ _ _ _ _ _ (is_RInt_scal _ _ _ (T ^ 2) _ I1) second_b1) D) as S.
  apply (is_RInt_scal _ _ _ (/ 2)) in S.
  match type of S with is_RInt _ _ _ ?v => replace (T ^ 2 / 2 * RInt b1 0 T - (RInt b0 0 T - T) / (4 * q)) with v end.
  2:{ unfold scal, minus, plus, opp; cbn; unfold mult; cbn. field. lra. }
  revert S. apply is_RInt_ext. intros r _. unfold scal, minus, plus, opp; cbn -[pow]; unfold mult; cbn -[pow]. req. field.
Qed.

Lemma second_one : is_RInt (fun r => r ^ 2 * (b0 r + T * (a / 2) * b1 r)) 0 T
  ((exp (a * T) * (2 * a * T - 1) + exp (- (a * T))) / (2 * a ^ 3) - T ^ 2 / a).
Proof.
  assert (Q := q_pos).
  pose proof (is_RInt_plus _ _ _ _ _ _ second_b0 (is_RInt_scal _ _ _ (T * (a / 2)) _ second_b1)) as S.
  assert (I0 := int_b0). assert (I1 := int_b1). apply (@is_RInt_unique R_CompleteNormedModule) in I0. apply (@is_RInt_unique R_CompleteNormedModule) in I1.
  rewrite I0, I1 in S.
  match type of S with is_RInt _ _ _ ?v => match goal with |- is_RInt _ _ _ ?w => replace w with v end end.
  2:{ unfold scal, minus, plus, opp; cbn -[pow]; unfold mult; cbn -[pow]. unfold q. field. lra. }
  revert S. apply is_RInt_ext. intros r _. unfold scal, minus, plus, opp; cbn -[pow]; unfold mult; cbn -[pow]. req. ring.
Qed.
End One.

Lemma rt1d_second t c g0 : 0 < c -> 0 < g0 -> 0 < t ->
  RInt (fun r => r ^ 2 * (2 * ok_value (G_scalar "rt1d" r t c g0))) 0 (c * t) + (c * t) ^ 2 * (2 * rt1d_direct t c g0) =
  2 / g0 ^ 2 * (g0 * (c * t) - 1 + exp (- (g0 * (c * t)))).
Proof.
  intros Hc Hg Ht. set (T := c * t). assert (HT : 0 < T) by (apply Rmult_lt_0_compat; assumption).
  pose proof (second_one (g0 / 2) T ltac:(lra) HT) as D.
  apply (is_RInt_scal _ _ _ (g0 / 2 * exp (- (g0 / 2 * T)))) in D.
  match type of D with is_RInt _ _ _ ?v => assert (E : RInt (fun r => r ^ 2 * (2 * ok_value (G_scalar "rt1d" r t c g0))) 0 T = v) end.
  { apply (@is_RInt_unique R_CompleteNormedModule). revert D. apply is_RInt_ext. rewrite Rmin_left, Rmax_right by lra. intros r Hr.
    unfold scal; cbn -[pow G_scalar]. unfold mult; cbn -[pow G_scalar]. req.
    assert (S := beam_sum c g0 Hc Hg r t). rewrite (Rabs_pos_eq r) in S by lra. rewrite S by (fold T; lra). clear S.
    unfold beam, place. fold T. replace ((g0 / 2 / 2) ^ 2) with (g0 ^ 2 / 16) by field.
    set (x0 := PSeries B0 _). set (x1 := PSeries B1 _). set (e := exp _). field. }
  rewrite E. unfold scal; cbn -[pow]; unfold mult; cbn -[pow]. unfold rt1d_direct.
  replace (- c * t / 2 / (1 / g0)) with (- (g0 / 2 * T)) by (unfold T; field; lra).
  replace (- (g0 * T)) with (- (g0 / 2 * T) + - (g0 / 2 * T)) by field. rewrite exp_plus, exp_Ropp.
  pose proof (exp_pos (g0 / 2 * T)). field. split; lra.
Qed.

(** ** two dimensions *)
Lemma rt2d_second_inside t c g0 rho : 0 < c -> 0 < g0 -> 0 < t -> 0 <= rho < c * t ->
  let T := c * t in let w := sqrt (T ^ 2 - rho ^ 2) in
  is_RInt (fun r => r ^ 2 * (2 * PI * r * ok_value (G_scalar "rt2d" r t c g0))) 0 rho
    (2 / g0 * T - 2 / g0 ^ 2 - exp ((w - T) * g0) * (rho ^ 2 + 2 / g0 * w - 2 / g0 ^ 2)).
Proof.
  intros Hc Hg Ht Hrho T w. assert (HT : 0 < T) by (apply Rmult_lt_0_compat; assumption). fold T in Hrho.
  set (F := fun r => - (exp ((sqrt (T ^ 2 - r ^ 2) - T) * g0) * (r ^ 2 + 2 / g0 * sqrt (T ^ 2 - r ^ 2) - 2 / g0 ^ 2))).
  assert (HF : is_RInt (fun r => r ^ 2 * (g0 * r / sqrt (T ^ 2 - r ^ 2) * exp ((sqrt (T ^ 2 - r ^ 2) - T) * g0))) 0 rho (minus (F rho) (F 0))).
  { apply (@is_RInt_derive R_CompleteNormedModule F); rewrite Rmin_left, Rmax_right by lra.
    - intros x Hx. assert (0 < T ^ 2 - x ^ 2) by (assert (0 < (T - x) * (T + x)) by (apply Rmult_lt_0_compat; lra); nra).
      assert (Hs := sqrt_lt_R0 _ H). unfold F. auto_derive; [repeat split; assumption|].
      replace (T * (T * 1) + - (x * (x * 1))) with (T ^ 2 - x ^ 2) by ring.
      set (s := sqrt _) in *. change (s + - T) with (s - T). set (e := exp _). field. lra.
    - intros x Hx. assert (0 < T ^ 2 - x ^ 2) by (assert (0 < (T - x) * (T + x)) by (apply Rmult_lt_0_compat; lra); nra).
      assert (Hs := sqrt_lt_R0 _ H). apply (@ex_derive_continuous R_AbsRing R_NormedModule). auto_derive.
      replace (T * (T * 1) + - (x * (x * 1))) with (T ^ 2 - x ^ 2) by ring. repeat split; lra. }
  match goal with |- is_RInt _ _ _ ?v => replace v with (minus (F rho) (F 0)) end.
  - eapply is_RInt_ext; [|exact HF]. rewrite Rmin_left, Rmax_right by lra. intros x Hx. req. f_equal.
    assert (0 < T ^ 2 - x ^ 2) by (assert (0 < (T - x) * (T + x)) by (apply Rmult_lt_0_compat; lra); nra).
    replace (T ^ 2) with (c ^ 2 * t ^ 2) in * by (unfold T; ring). unfold T.
    rewrite <- rt2d_closed by (try assumption; lra).
    unfold G_scalar. destruct (Rlt_dec (t - x / c) 0) as [L|_]; [|reflexivity].
    exfalso. apply (Rmult_lt_compat_r c) in L; [|assumption]. assert (X : x < c * t) by (destruct Hx as [_ Hx]; eapply Rlt_trans; [exact Hx|]; apply Hrho).
    replace ((t - x / c) * c) with (c * t - x) in L by (field; lra). lra.
  - unfold minus, plus, opp, F; cbn -[pow]. fold w. replace (T ^ 2 - 0 ^ 2) with (T ^ 2) by ring.
    rewrite sqrt_pow2 by lra. replace ((T - T) * g0) with 0 by ring. rewrite exp_0. field. lra.
Qed.

Lemma rt2d_second t c g0 : 0 < c -> 0 < g0 -> 0 < t ->
  filterlim (fun rho => RInt (fun r => r ^ 2 * (2 * PI * r * ok_value (G_scalar "rt2d" r t c g0))) 0 rho
                        + (c * t) ^ 2 * (2 * PI * (c * t) * rt2d_direct t c g0))
    (at_left (c * t)) (locally (2 / g0 ^ 2 * (g0 * (c * t) - 1 + exp (- (g0 * (c * t)))))).
Proof.
  intros Hc Hg Ht. assert (Hpi := PI_RGT_0). set (T := c * t). assert (HT : 0 < T) by (apply Rmult_lt_0_compat; assumption).
  assert (Hd : 2 * PI * T * rt2d_direct t c g0 = exp (- (g0 * T))).
  { unfold rt2d_direct. cbn zeta. replace (- c * t / (1 / g0)) with (- (g0 * T)) by (unfold T; field; lra). unfold T. field. lra. }
  rewrite Hd.
  set (h := fun rho => 2 / g0 * T - 2 / g0 ^ 2 - exp ((sqrt (T ^ 2 - rho ^ 2) - T) * g0) * (rho ^ 2 + 2 / g0 * sqrt (T ^ 2 - rho ^ 2) - 2 / g0 ^ 2) + T ^ 2 * exp (- (g0 * T))).
  apply filterlim_ext_loc with (f := h).
  - exists (mkposreal T HT). intros y Hy1 Hy2.
    unfold ball in Hy1; cbn in Hy1. unfold AbsRing_ball in Hy1; cbn in Hy1.
    unfold abs, minus, plus, opp in Hy1; cbn in Hy1.
    apply Rabs_def2 in Hy1. unfold h. f_equal. symmetry. apply (@is_RInt_unique R_CompleteNormedModule).
    apply (rt2d_second_inside t c g0 y); fold T; try assumption. lra.
  - assert (Hh : h T = 2 / g0 ^ 2 * (g0 * T - 1 + exp (- (g0 * T)))).
    { unfold h. replace (T ^ 2 - T ^ 2) with 0 by ring. rewrite sqrt_0.
      replace ((0 - T) * g0) with (- (g0 * T)) by ring. field. lra. }
    rewrite <- Hh.
    apply (filterlim_filter_le_1 (F := locally T) (G := at_left T)); [apply filter_le_within|].
    change (continuous h T). unfold h.
    assert (CS : continuous (fun rho => sqrt (T ^ 2 - rho ^ 2)) T).
    { apply continuous_sqrt_comp. apply (@ex_derive_continuous R_AbsRing R_NormedModule). auto_derive. trivial. }
    apply (continuous_plus (V := R_NormedModule)); [|apply continuous_const].
    apply (continuous_minus (V := R_NormedModule)); [apply continuous_const|].
    apply (continuous_mult (fun rho => exp ((sqrt (T ^ 2 - rho ^ 2) - T) * g0)) (fun rho => rho ^ 2 + 2 / g0 * sqrt (T ^ 2 - rho ^ 2) - 2 / g0 ^ 2)).
    + apply continuous_exp_comp. apply (continuous_scal_l (K := R_AbsRing) (V := R_NormedModule)).
      apply (continuous_minus (V := R_NormedModule)); [exact CS|apply continuous_const].
    + apply (continuous_minus (V := R_NormedModule)); [|apply continuous_const].
      apply (continuous_plus (V := R_NormedModule)).
      * apply (@ex_derive_continuous R_AbsRing R_NormedModule). auto_derive. trivial.
      * apply (continuous_mult (fun _ => 2 / g0) (fun rho => sqrt (T ^ 2 - rho ^ 2))); [apply continuous_const|exact CS].
Qed.
