(** Lemmas about the filter width: the response of the filters. *)
From Coq Require Import String Ascii List Bool Reals Arith Lia Lra.
From Coquelicot Require Import Coquelicot.
From Verif Require Import Base WidthModel WidthSpec WidthProof.
Import ListNotations.
Open Scope R_scope.

Ltac mp := repeat first [assumption | lra | apply Rmult_le_pos].

(** ** one frequency *)
Definition P (N : nat) (a d : R) : R := a ^ (2 * N) / (a ^ (2 * N) + d ^ (2 * N)).

Lemma even_pos x N : 0 <= x ^ (2 * N).
Proof. rewrite pow_mult. apply pow_le, pow2_ge_0. Qed.

Lemma even_pos_lt x N : x <> 0 -> 0 < x ^ (2 * N).
Proof. intros H. rewrite pow_mult. apply pow_lt. destruct (Rtotal_order x 0) as [A|[A|A]]; [nra|lra|nra]. Qed.

Lemma denom_pos N a d : (0 < N)%nat -> a <> 0 \/ d <> 0 -> 0 < a ^ (2 * N) + d ^ (2 * N).
Proof.
  intros L [H|H].
  - pose proof (even_pos_lt a N H). pose proof (even_pos d N). lra.
  - pose proof (even_pos_lt d N H). pose proof (even_pos a N). lra.
Qed.

Lemma P_range N a d : (0 < N)%nat -> a <> 0 \/ d <> 0 -> 0 <= P N a d <= 1.
Proof.
  intros L H. pose proof (denom_pos N a d L H) as D. pose proof (even_pos a N). pose proof (even_pos d N). unfold P. split.
  - apply Rmult_le_pos; [assumption|]. left. now apply Rinv_0_lt_compat.
  - apply Rmult_le_reg_r with (a ^ (2 * N) + d ^ (2 * N)); [assumption|]. unfold Rdiv. rewrite Rmult_assoc, Rinv_l by lra. lra.
Qed.

Lemma P_pos N a d : (0 < N)%nat -> a <> 0 -> 0 < P N a d.
Proof.
  intros L H. pose proof (denom_pos N a d L (or_introl H)). pose proof (even_pos_lt a N H). unfold P. now apply Rdiv_lt_0_compat.
Qed.

Lemma P_mono N a d a2 d2 : (0 < N)%nat -> a <> 0 \/ d <> 0 -> a2 <> 0 \/ d2 <> 0 -> Rabs (a * d2) <= Rabs (a2 * d) -> P N a d <= P N a2 d2.
Proof.
  intros L H H2 C. pose proof (denom_pos N a d L H) as D. pose proof (denom_pos N a2 d2 L H2) as D2.
  assert (E : a ^ (2 * N) * d2 ^ (2 * N) <= a2 ^ (2 * N) * d ^ (2 * N)).
  { rewrite <- !Rpow_mult_distr, !pow_mult. apply pow_incr. split; [apply pow2_ge_0|].
    rewrite <- (pow2_abs (a * d2)), <- (pow2_abs (a2 * d)). apply pow_incr. split; [apply Rabs_pos|assumption]. }
  unfold P. apply Rmult_le_reg_r with (a ^ (2 * N) + d ^ (2 * N)); [assumption|].
  unfold Rdiv. rewrite Rmult_assoc, Rinv_l, Rmult_1_r by lra.
  apply Rmult_le_reg_r with (a2 ^ (2 * N) + d2 ^ (2 * N)); [assumption|].
  replace (a2 ^ (2 * N) * / (a2 ^ (2 * N) + d2 ^ (2 * N)) * (a ^ (2 * N) + d ^ (2 * N)) * (a2 ^ (2 * N) + d2 ^ (2 * N)))
    with (a2 ^ (2 * N) * (a ^ (2 * N) + d ^ (2 * N))) by (field; lra). lra.
Qed.

Lemma P_ratio N a d : a <> 0 -> 1 / (1 + (d / a) ^ (2 * N)) = P N a d.
Proof.
  intros H. unfold P. pose proof (even_pos_lt a N H). pose proof (even_pos d N). unfold Rdiv at 2. rewrite Rpow_mult_distr, pow_inv.
  field. split; lra.
Qed.

(** steeper and steeper *)
Lemma P_limit_pass a d : Rabs d < Rabs a -> is_lim_seq (fun N => P (S N) a d) 1.
Proof.
  intros H. assert (A : a <> 0) by (intros ->; rewrite Rabs_R0 in H; pose proof (Rabs_pos d); lra).
  apply is_lim_seq_ext with (fun N => 1 / (1 + ((d / a) ^ 2) ^ S N)).
  { intros N. rewrite <- P_ratio by assumption. now rewrite pow_mult. }
  apply (is_lim_seq_incr_1 (fun N => 1 / (1 + ((d / a) ^ 2) ^ N))).
  replace (Finite 1) with (Finite (1 / (1 + 0))) by (f_equal; field).
  apply is_lim_seq_div'; [apply is_lim_seq_const| |lra].
  apply is_lim_seq_plus'; [apply is_lim_seq_const|]. apply is_lim_seq_geom.
  rewrite Rabs_pos_eq by apply pow2_ge_0. rewrite <- pow2_abs. unfold Rdiv. rewrite Rabs_mult, Rabs_inv.
  pose proof (Rabs_pos d). assert (Rabs d * / Rabs a < 1).
  { apply Rmult_lt_reg_r with (Rabs a); [lra|]. rewrite Rmult_assoc, Rinv_l by lra. lra. }
  assert (0 <= Rabs d * / Rabs a) by (apply Rmult_le_pos; [assumption|left; apply Rinv_0_lt_compat; lra]). nra.
Qed.

Lemma P_swap N a d : (0 < N)%nat -> a <> 0 \/ d <> 0 -> P N a d = 1 - P N d a.
Proof. intros L H. pose proof (denom_pos N a d L H). unfold P. field. repeat split; lra. Qed.

Lemma P_limit_stop a d : Rabs a < Rabs d -> is_lim_seq (fun N => P (S N) a d) 0.
Proof.
  intros H. assert (D : d <> 0) by (intros ->; rewrite Rabs_R0 in H; pose proof (Rabs_pos a); lra).
  apply is_lim_seq_ext with (fun N => 1 - P (S N) d a).
  { intros N. symmetry. apply P_swap; [lia|now right]. }
  replace (Finite 0) with (Finite (1 - 1)) by (f_equal; ring).
  apply is_lim_seq_minus'; [apply is_lim_seq_const|now apply P_limit_pass].
Qed.

Lemma P_limit_edge a d : Rabs a = Rabs d -> a <> 0 -> is_lim_seq (fun N => P (S N) a d) (1 / 2).
Proof.
  intros H A. apply is_lim_seq_ext with (fun N => 1 / 2); [|apply is_lim_seq_const].
  intros N. unfold P. assert (E : d ^ (2 * S N) = a ^ (2 * S N)).
  { rewrite !pow_mult, <- (pow2_abs a), <- (pow2_abs d), H. reflexivity. }
  rewrite E. pose proof (even_pos_lt a (S N) A). field. lra.
Qed.

(** ** the filters *)

(** arguments of iirfilter *)
Definition kind_of (x : filter) : btype := match x with Lowpass _ => Low | Highpass _ => High | Bandpass _ _ => Band end.
Definition cut_of (sr : R) (x : filter) : cutoff :=
  match x with
  | Lowpass f | Highpass f => One (f / (0.5 * sr))
  | Bandpass f1 f2 => Two (f1 / (0.5 * sr)) (f2 / (0.5 * sr))
  end.

Notation pa sr x w := (fst (parts (kind_of x) (cut_of sr x) w)).
Notation pd sr x w := (snd (parts (kind_of x) (cut_of sr x) w)).

Lemma sr_pos sr x : valid sr x -> 0 < sr.
Proof. destruct x; cbn; lra. Qed.

Lemma tan_cut sr f : 0 < sr -> tan (PI * (f / (0.5 * sr)) / 2) = warped sr f.
Proof. intros H. unfold warped. f_equal. replace 0.5 with (1 / 2) by lra. field. lra. Qed.

Lemma angle sr f : 0 < sr -> 0 <= f < sr / 2 -> 0 <= PI * f / sr < PI / 2.
Proof.
  intros H F. pose proof PI_RGT_0. split.
  - apply Rmult_le_pos; [nra|]. left. now apply Rinv_0_lt_compat.
  - apply Rmult_lt_reg_r with sr; [assumption|]. unfold Rdiv. rewrite Rmult_assoc, Rinv_l by lra. nra.
Qed.

Lemma warped_increasing sr f g : 0 < sr -> 0 <= f -> f < g -> g < sr / 2 -> warped sr f < warped sr g.
Proof.
  intros H F L G. pose proof (angle sr f H ltac:(lra)). pose proof (angle sr g H ltac:(lra)). pose proof PI_RGT_0.
  apply tan_increasing; try lra. apply Rmult_lt_compat_r; [now apply Rinv_0_lt_compat|]. nra.
Qed.

Lemma warped_0 sr : warped sr 0 = 0.
Proof. unfold warped. replace (PI * 0 / sr) with 0 by (unfold Rdiv; ring). apply tan_0. Qed.

Lemma warped_pos sr f : 0 < sr -> 0 < f < sr / 2 -> 0 < warped sr f.
Proof. intros H F. rewrite <- (warped_0 sr). apply warped_increasing; lra. Qed.

Lemma parts_low sr f w : 0 < sr -> parts Low (One (f / (0.5 * sr))) w = (cos (w / 2) * warped sr f, sin (w / 2)).
Proof. intros H. unfold parts. now rewrite tan_cut. Qed.
Lemma parts_high sr f w : 0 < sr -> parts High (One (f / (0.5 * sr))) w = (sin (w / 2), cos (w / 2) * warped sr f).
Proof. intros H. unfold parts. now rewrite tan_cut. Qed.
Lemma parts_band sr f1 f2 w : 0 < sr -> parts Band (Two (f1 / (0.5 * sr)) (f2 / (0.5 * sr))) w =
  (sin (w / 2) * cos (w / 2) * (warped sr f2 - warped sr f1), sin (w / 2) ^ 2 - warped sr f1 * warped sr f2 * cos (w / 2) ^ 2).
Proof. intros H. unfold parts. now rewrite !tan_cut. Qed.

Lemma half_angle w : 0 <= w <= PI -> 0 <= sin (w / 2) /\ 0 <= cos (w / 2).
Proof. intros H. pose proof PI_RGT_0. split; [apply sin_ge_0|apply cos_ge_0]; lra. Qed.

Lemma sc1 w : sin w * sin w + cos w * cos w = 1.
Proof. pose proof (sin2_cos2 w). unfold Rsqr in H. exact H. Qed.

Lemma parts_nonzero sr x w : valid sr x -> 0 <= w <= PI -> pa sr x w <> 0 \/ pd sr x w <> 0.
Proof.
  intros V W. pose proof (sr_pos _ _ V) as H. pose proof (half_angle w W) as [S K]. pose proof (sc1 (w / 2)) as E.
  destruct x as [f|f|f1 f2]; cbn [kind_of cut_of]; cbn [valid] in V.
  - rewrite parts_low by assumption. cbn [fst snd]. pose proof (warped_pos sr f H V). destruct (Req_dec (sin (w / 2)) 0); [left|right; assumption]. 
    apply Rmult_integral_contrapositive_currified; [|lra]. intros Z. rewrite H1, Z in E. lra.
  - rewrite parts_high by assumption. cbn [fst snd]. pose proof (warped_pos sr f H V). destruct (Req_dec (sin (w / 2)) 0); [right|left; assumption]. 
    apply Rmult_integral_contrapositive_currified; [|lra]. intros Z. rewrite H1, Z in E. lra.
  - rewrite parts_band by assumption. cbn [fst snd].
    pose proof (warped_pos sr f1 H ltac:(lra)). pose proof (warped_pos sr f2 H ltac:(lra)). pose proof (warped_increasing sr f1 f2 H ltac:(lra) ltac:(lra) ltac:(lra)).
    destruct (Req_dec (sin (w / 2)) 0) as [Z|Z]; [right|destruct (Req_dec (cos (w / 2)) 0) as [Z2|Z2]; [right|left]].
    + rewrite Z in *. assert (C2 : cos (w / 2) * cos (w / 2) = 1) by lra. replace (cos (w / 2) ^ 2) with 1 by (cbn; lra).
      assert (0 < warped sr f1 * warped sr f2) by (apply Rmult_lt_0_compat; assumption). cbn. lra.
    + rewrite Z2 in *. assert (C2 : sin (w / 2) * sin (w / 2) = 1) by lra. replace (sin (w / 2) ^ 2) with 1 by (cbn; lra). cbn. lra.
    + apply Rmult_integral_contrapositive_currified; [now apply Rmult_integral_contrapositive_currified|lra].
Qed.

(** the frequency with the largest response *)
Definition top (sr : R) (x : filter) : R :=
  match x with
  | Lowpass _ => 0
  | Highpass _ => PI
  | Bandpass f1 f2 => 2 * atan (sqrt (warped sr f1 * warped sr f2))
  end.

Lemma top_range sr x : valid sr x -> 0 <= top sr x <= PI.
Proof.
  intros V. pose proof PI_RGT_0. destruct x; cbn [top]; try lra.
  pose proof (atan_bound (sqrt (warped sr f1 * warped sr f2))).
  assert (0 <= atan (sqrt (warped sr f1 * warped sr f2))); [|lra].
  destruct (Rle_lt_or_eq_dec 0 (sqrt (warped sr f1 * warped sr f2)) (sqrt_pos _)) as [L|L].
  - left. rewrite <- atan_0. now apply atan_increasing.
  - rewrite <- L, atan_0. lra.
Qed.

Lemma sin_diff w w2 : 0 <= w -> w <= w2 -> w2 <= PI -> sin (w / 2) * cos (w2 / 2) <= sin (w2 / 2) * cos (w / 2).
Proof.
  intros A B C. assert (0 <= sin (w2 / 2 - w / 2)) by (apply sin_ge_0; lra). rewrite sin_minus in H. lra.
Qed.

(** sign of the stopped part of a band-pass *)
Lemma before_top sr f1 f2 w : valid sr (Bandpass f1 f2) -> 0 <= w <= top sr (Bandpass f1 f2) ->
  sin (w / 2) ^ 2 <= warped sr f1 * warped sr f2 * cos (w / 2) ^ 2.
Proof.
  intros V W. pose proof (sr_pos _ _ V) as H. pose proof (top_range sr _ V) as T. cbn [valid] in V. cbn [top] in W, T.
  pose proof (warped_pos sr f1 H ltac:(lra)). pose proof (warped_pos sr f2 H ltac:(lra)).
  set (p := warped sr f1 * warped sr f2) in *. assert (0 < p) by (apply Rmult_lt_0_compat; assumption).
  pose proof (atan_bound (sqrt p)). pose proof PI_RGT_0.
  assert (C : 0 < cos (w / 2)) by (apply cos_gt_0; lra).
  assert (TT : tan (w / 2) <= sqrt p).
  { rewrite <- (tan_atan (sqrt p)). destruct (Rle_lt_or_eq_dec (w / 2) (atan (sqrt p)) ltac:(lra)) as [L|L]; [|rewrite L; lra].
    left. apply tan_increasing; lra. }
  unfold tan in TT. assert (S0 : 0 <= sin (w / 2)) by (apply sin_ge_0; lra).
  assert (M : sin (w / 2) <= sqrt p * cos (w / 2)).
  { apply Rmult_le_reg_r with (/ cos (w / 2)); [now apply Rinv_0_lt_compat|]. rewrite Rmult_assoc, Rinv_r by lra. unfold Rdiv in TT. lra. }
  rewrite <- (sqrt_sqrt p) by lra. replace (sqrt p * sqrt p * cos (w / 2) ^ 2) with ((sqrt p * cos (w / 2)) ^ 2) by ring.
  apply pow_incr. lra.
Qed.

Lemma after_top sr f1 f2 w : valid sr (Bandpass f1 f2) -> top sr (Bandpass f1 f2) <= w <= PI ->
  warped sr f1 * warped sr f2 * cos (w / 2) ^ 2 <= sin (w / 2) ^ 2.
Proof.
  intros V W. pose proof (sr_pos _ _ V) as H. pose proof (top_range sr _ V) as T. cbn [valid] in V. cbn [top] in W, T.
  pose proof (warped_pos sr f1 H ltac:(lra)). pose proof (warped_pos sr f2 H ltac:(lra)).
  set (p := warped sr f1 * warped sr f2) in *. assert (0 < p) by (apply Rmult_lt_0_compat; assumption).
  pose proof (atan_bound (sqrt p)). pose proof PI_RGT_0.
  assert (S0 : 0 <= sin (w / 2)) by (apply sin_ge_0; lra). assert (C0 : 0 <= cos (w / 2)) by (apply cos_ge_0; lra).
  destruct (Rle_lt_or_eq_dec 0 (cos (w / 2)) C0) as [C|C].
  2:{ rewrite <- C. pose proof (pow2_ge_0 (sin (w / 2))). cbn [pow] in *. lra. }
  assert (w / 2 < PI / 2).
  { destruct (Rle_lt_or_eq_dec (w / 2) (PI / 2) ltac:(lra)) as [L|L]; [exact L|]. rewrite L, cos_PI2 in C. lra. }
  assert (TT : sqrt p <= tan (w / 2)).
  { rewrite <- (tan_atan (sqrt p)). destruct (Rle_lt_or_eq_dec (atan (sqrt p)) (w / 2) ltac:(lra)) as [L|L]; [|rewrite L; lra].
    left. apply tan_increasing; lra. }
  unfold tan in TT.
  assert (M : sqrt p * cos (w / 2) <= sin (w / 2)).
  { apply Rmult_le_reg_r with (/ cos (w / 2)); [now apply Rinv_0_lt_compat|]. rewrite Rmult_assoc, Rinv_r by lra. unfold Rdiv in TT. lra. }
  rewrite <- (sqrt_sqrt p) by lra. replace (sqrt p * sqrt p * cos (w / 2) ^ 2) with ((sqrt p * cos (w / 2)) ^ 2) by ring.
  apply pow_incr. split; [|exact M]. apply Rmult_le_pos; [apply sqrt_pos|exact C0].
Qed.

Lemma band_identity s k s2 k2 p : s * k * (s2 ^ 2 - p * k2 ^ 2) - s2 * k2 * (s ^ 2 - p * k ^ 2) = (s2 * k - s * k2) * (s * s2 + p * (k * k2)).
Proof. ring. Qed.

Lemma P_up sr x N w w2 : valid sr x -> (0 < N)%nat -> 0 <= w -> w <= w2 -> w2 <= top sr x ->
  P N (pa sr x w) (pd sr x w) <= P N (pa sr x w2) (pd sr x w2).
Proof.
  intros V L A B C. pose proof (top_range sr x V) as T. pose proof (sr_pos _ _ V) as H.
  apply P_mono; [assumption|apply parts_nonzero; [assumption|lra]|apply parts_nonzero; [assumption|lra]|].
  pose proof (sin_diff w w2 A B ltac:(lra)) as SD.
  pose proof (half_angle w ltac:(lra)) as [S K]. pose proof (half_angle w2 ltac:(lra)) as [S2 K2].
  destruct x as [f|f|f1 f2]; cbn [kind_of cut_of].
  - cbn [top] in C. assert (w = 0) by lra. assert (w2 = 0) by lra. subst. lra.
  - rewrite !parts_high by assumption. cbn [fst snd]. cbn [valid] in V. pose proof (warped_pos sr f H V).
    pose proof (Rmult_le_compat_r (warped sr f) _ _ ltac:(lra) SD). rewrite !Rabs_pos_eq; [lra|mp|mp].
  - pose proof (before_top sr f1 f2 w V ltac:(lra)) as D1. pose proof (before_top sr f1 f2 w2 V ltac:(lra)) as D2. cbn [valid] in V.
    rewrite !parts_band by assumption. cbn [fst snd].
    pose proof (warped_pos sr f1 H ltac:(lra)). pose proof (warped_pos sr f2 H ltac:(lra)). pose proof (warped_increasing sr f1 f2 H ltac:(lra) ltac:(lra) ltac:(lra)).
    set (o1 := warped sr f1) in *. set (o2 := warped sr f2) in *.
    pose proof (band_identity (sin (w / 2)) (cos (w / 2)) (sin (w2 / 2)) (cos (w2 / 2)) (o1 * o2)) as BI.
    rewrite (Rabs_mult _ (sin (w2 / 2) ^ 2 - _)), (Rabs_mult _ (sin (w / 2) ^ 2 - _)).
    rewrite (Rabs_left1 (sin (w2 / 2) ^ 2 - _)) by lra. rewrite (Rabs_left1 (sin (w / 2) ^ 2 - _)) by lra.
    rewrite !Rabs_pos_eq by (mp).
    assert (Q : 0 <= sin (w / 2) * sin (w2 / 2) + o1 * o2 * (cos (w / 2) * cos (w2 / 2))).
    { apply Rplus_le_le_0_compat; mp. }
    assert (0 <= (sin (w2 / 2) * cos (w / 2) - sin (w / 2) * cos (w2 / 2)) * (sin (w / 2) * sin (w2 / 2) + o1 * o2 * (cos (w / 2) * cos (w2 / 2)))) by (apply Rmult_le_pos; lra).
    set (X := sin (w / 2) * cos (w / 2)) in *. set (Y := sin (w2 / 2) * cos (w2 / 2)) in *.
    set (E := sin (w2 / 2) ^ 2 - o1 * o2 * cos (w2 / 2) ^ 2) in *. set (G := sin (w / 2) ^ 2 - o1 * o2 * cos (w / 2) ^ 2) in *.
    assert (Y * G <= X * E) by lra. assert (0 < o2 - o1) by lra. nra.
Qed.

Lemma P_down sr x N w w2 : valid sr x -> (0 < N)%nat -> top sr x <= w -> w <= w2 -> w2 <= PI ->
  P N (pa sr x w2) (pd sr x w2) <= P N (pa sr x w) (pd sr x w).
Proof.
  intros V L A B C. pose proof (top_range sr x V) as T. pose proof (sr_pos _ _ V) as H.
  apply P_mono; [assumption|apply parts_nonzero; [assumption|lra]|apply parts_nonzero; [assumption|lra]|].
  pose proof (sin_diff w w2 ltac:(lra) B ltac:(lra)) as SD.
  pose proof (half_angle w ltac:(lra)) as [S K]. pose proof (half_angle w2 ltac:(lra)) as [S2 K2].
  destruct x as [f|f|f1 f2]; cbn [kind_of cut_of].
  - rewrite !parts_low by assumption. cbn [fst snd]. cbn [valid] in V. pose proof (warped_pos sr f H V).
    pose proof (Rmult_le_compat_r (warped sr f) _ _ ltac:(lra) SD). rewrite !Rabs_pos_eq; [lra|mp|mp].
  - cbn [top] in A. assert (w = PI) by lra. assert (w2 = PI) by lra. subst. lra.
  - pose proof (after_top sr f1 f2 w V ltac:(lra)) as D1. pose proof (after_top sr f1 f2 w2 V ltac:(lra)) as D2. cbn [valid] in V.
    rewrite !parts_band by assumption. cbn [fst snd].
    pose proof (warped_pos sr f1 H ltac:(lra)). pose proof (warped_pos sr f2 H ltac:(lra)). pose proof (warped_increasing sr f1 f2 H ltac:(lra) ltac:(lra) ltac:(lra)).
    set (o1 := warped sr f1) in *. set (o2 := warped sr f2) in *.
    pose proof (band_identity (sin (w / 2)) (cos (w / 2)) (sin (w2 / 2)) (cos (w2 / 2)) (o1 * o2)) as BI.
    rewrite (Rabs_mult _ (sin (w2 / 2) ^ 2 - _)), (Rabs_mult _ (sin (w / 2) ^ 2 - _)).
    rewrite !Rabs_pos_eq by (lra || (mp)).
    assert (Q : 0 <= sin (w / 2) * sin (w2 / 2) + o1 * o2 * (cos (w / 2) * cos (w2 / 2))).
    { apply Rplus_le_le_0_compat; mp. }
    assert (0 <= (sin (w2 / 2) * cos (w / 2) - sin (w / 2) * cos (w2 / 2)) * (sin (w / 2) * sin (w2 / 2) + o1 * o2 * (cos (w / 2) * cos (w2 / 2)))) by (apply Rmult_le_pos; lra).
    set (X := sin (w / 2) * cos (w / 2)) in *. set (Y := sin (w2 / 2) * cos (w2 / 2)) in *.
    set (E := sin (w2 / 2) ^ 2 - o1 * o2 * cos (w2 / 2) ^ 2) in *. set (G := sin (w / 2) ^ 2 - o1 * o2 * cos (w / 2) ^ 2) in *.
    assert (Y * G <= X * E) by lra. assert (0 < o2 - o1) by lra. nra.
Qed.
