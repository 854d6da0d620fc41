From Coq Require Import String List Bool Reals ZArith Arith Lra Lia Permutation.
From Verif Require Import Base Pyf StatModel StatProof SmoothModel SmoothSpec.
Import ListNotations.
Open Scope string_scope.
Open Scope list_scope.
Open Scope R_scope.

Lemma total_ext n g h : (forall k, (k < n)%nat -> g k = h k) -> total n g = total n h.
Proof. induction n; intros H; cbn; [reflexivity|]. rewrite IHn by (intros; apply H; lia). now rewrite H by lia. Qed.

Lemma total_scale n c g : total n (fun k => c * g k) = c * total n g.
Proof. induction n; cbn; [lra|]. rewrite IHn. lra. Qed.

Lemma total_le n g h : (forall k, (k < n)%nat -> g k <= h k) -> total n g <= total n h.
Proof. induction n; intros H; cbn; [lra|]. specialize (IHn ltac:(intros; apply H; lia)). specialize (H n ltac:(lia)). lra. Qed.

Lemma total_nonneg n g : (forall k, (k < n)%nat -> 0 <= g k) -> 0 <= total n g.
Proof. induction n; intros H; cbn; [lra|]. specialize (IHn ltac:(intros; apply H; lia)). specialize (H n ltac:(lia)). lra. Qed.

Lemma total_pos n g k : (forall k, (k < n)%nat -> 0 <= g k) -> (k < n)%nat -> 0 < g k -> 0 < total n g.
Proof.
  induction n; intros H Hk Hp; [lia|]. cbn.
  assert (0 <= total n g) by (apply total_nonneg; intros; apply H; lia).
  assert (0 <= g n) by (apply H; lia).
  destruct (Nat.eq_dec k n) as [->|]; [lra|].
  assert (0 < total n g) by (apply IHn; [intros; apply H; lia|lia|assumption]). lra.
Qed.

Lemma total_rsum n g : rsum (map g (seq 0 n)) = total n g.
Proof.
  induction n; [reflexivity|]. rewrite seq_S, map_app. cbn [map plus total].
  unfold rsum in *. rewrite fold_right_app. cbn [fold_right].
  rewrite <- IHn. clear. generalize (map g (seq 0 n)). intros l. induction l; cbn; lra.
Qed.

Lemma total_shift n g : total (S n) g = g O + total n (fun k => g (S k)).
Proof. induction n; cbn in *; [lra|]. rewrite IHn. lra. Qed.

Lemma total_rev n g : total n g = total n (fun k => g (n - 1 - k)%nat).
Proof.
  induction n; [reflexivity|]. rewrite total_shift with (g := fun k => g (S n - 1 - k)%nat).
  cbn [total]. rewrite IHn. replace (S n - 1 - 0)%nat with n by lia. rewrite Rplus_comm. f_equal.
  apply total_ext. intros. f_equal. lia.
Qed.

(** ** windows *)
Lemma wpos_sym M k : (k < M)%nat -> wpos M (M - 1 - k) = - wpos M k.
Proof. intros H. unfold wpos. rewrite !minus_INR by lia. cbn. lra. Qed.

Lemma window_sym window M k : (2 <= M)%nat -> (k < M)%nat ->
  window_at window M k = window_at window M (M - 1 - k).
Proof.
  intros HM H. unfold window_at. rewrite wpos_sym by assumption.
  assert (D : INR M - 1 <> 0). { apply le_INR in HM. cbn in HM. lra. }
  set (n := wpos M k).
  replace (PI * - n / (INR M - 1)) with (- (PI * n / (INR M - 1))) by (field; assumption).
  replace (2 * PI * - n / (INR M - 1)) with (- (2 * PI * n / (INR M - 1))) by (field; assumption).
  rewrite !cos_neg.
  destruct (String.eqb window "flat"); [reflexivity|].
  destruct (String.eqb window "hanning"); [reflexivity|].
  destruct (String.eqb window "hamming"); [reflexivity|].
  destruct (String.eqb window "bartlett"); [|reflexivity].
  destruct (Rle_dec n 0), (Rle_dec (- n) 0); try (field; assumption); try lra.
  assert (n = 0) by lra. rewrite H0. field; assumption.
Qed.

Lemma wpos_abs M k : (2 <= M)%nat -> (k < M)%nat -> - (INR M - 1) <= wpos M k <= INR M - 1.
Proof.
  intros HM H. unfold wpos. assert (H1 : INR k <= INR M - 1).
  { assert (INR (S k) <= INR M) by (apply le_INR; lia). rewrite S_INR in H0. lra. }
  pose proof (pos_INR k). lra.
Qed.

Lemma ratio_bounds M k : (2 <= M)%nat -> (k < M)%nat -> -1 <= wpos M k / (INR M - 1) <= 1.
Proof.
  intros HM H. assert (W := wpos_abs M k HM H).
  assert (D : 0 < INR M - 1) by (apply le_INR in HM; cbn in HM; lra).
  split; [apply Rmult_le_reg_r with (INR M - 1)|apply Rmult_le_reg_r with (INR M - 1)]; auto;
  unfold Rdiv; rewrite Rmult_assoc, Rinv_l; lra.
Qed.

Lemma window_nonneg window M k : (2 <= M)%nat -> (k < M)%nat -> 0 <= window_at window M k.
Proof.
  intros HM H. unfold window_at. assert (B := ratio_bounds M k HM H).
  set (n := wpos M k) in *.
  destruct (String.eqb window "flat"); [lra|].
  assert (C := COS_bound (PI * n / (INR M - 1))).
  destruct (String.eqb window "hanning"); [lra|].
  destruct (String.eqb window "hamming"); [lra|].
  destruct (String.eqb window "bartlett"); [destruct (Rle_dec n 0); lra|].
  replace (2 * PI * n / (INR M - 1)) with (2 * (PI * n / (INR M - 1))) by (unfold Rdiv; ring).
  rewrite cos_2a_cos. set (c := cos _) in *.
  replace (42 / 100 + 1 / 2 * c + 8 / 100 * (2 * c * c - 1)) with (16 / 100 * ((1 + c) * (c + 2125 / 1000))) by field.
  assert (0 <= (1 + c) * (c + 2125 / 1000)) by (apply Rmult_le_pos; lra). lra.
Qed.

(** the entry next to the border is positive for at least three points *)
Lemma window_pos1 window M : (3 <= M)%nat -> 0 < window_at window M 1.
Proof.
  intros HM. unfold window_at.
  assert (HM' : 3 <= INR M) by (apply le_INR in HM; cbn in HM; lra).
  assert (N : wpos M 1 = 3 - INR M) by (unfold wpos; cbn; lra). rewrite N.
  set (D := INR M - 1) in *. assert (HD : 2 <= D) by (unfold D; lra).
  replace (3 - INR M) with (2 - D) by (unfold D; lra).
  assert (B : -1 < (2 - D) / D <= 0).
  { split; [apply Rmult_lt_reg_r with D|apply Rmult_le_reg_r with D]; try lra;
    unfold Rdiv; rewrite Rmult_assoc, Rinv_l; lra. }
  assert (C : -1 < cos (PI * (2 - D) / D)).
  { replace (PI * (2 - D) / D) with (- (PI * - ((2 - D) / D))) by (field; lra). rewrite cos_neg.
    set (r := - ((2 - D) / D)). assert (R1 : 0 <= r < 1) by (unfold r; lra).
    assert (PI_pos := PI_RGT_0).
    rewrite <- cos_PI. apply cos_decreasing_1; try lra.
    - apply Rmult_le_pos; lra.
    - rewrite <- (Rmult_1_r PI) at 2. apply Rmult_le_compat_l; lra.
    - rewrite <- (Rmult_1_r PI) at 2. apply Rmult_lt_compat_l; lra. }
  destruct (String.eqb window "flat"); [lra|].
  destruct (String.eqb window "hanning"); [lra|].
  destruct (String.eqb window "hamming"); [lra|].
  destruct (String.eqb window "bartlett"); [destruct (Rle_dec (2 - D) 0); lra|].
  replace (2 * PI * (2 - D) / D) with (2 * (PI * (2 - D) / D)) by (unfold Rdiv; ring).
  rewrite cos_2a_cos. set (c := cos _) in *.
  replace (42 / 100 + 1 / 2 * c + 8 / 100 * (2 * c * c - 1)) with (16 / 100 * ((1 + c) * (c + 2125 / 1000))) by field.
  assert (0 < (1 + c) * (c + 2125 / 1000)) by (apply Rmult_lt_0_compat; lra). lra.
Qed.

(** normalised window *)
Definition weight (window : string) (M k : nat) : R :=
  window_at window M k / total M (window_at window M).

Lemma window_sum_pos window M : (3 <= M)%nat -> 0 < total M (window_at window M).
Proof.
  intros HM. apply total_pos with 1%nat; [|lia|now apply window_pos1].
  intros. apply window_nonneg; lia.
Qed.

Lemma weight_window window M : (3 <= M)%nat -> is_window M (weight window M).
Proof.
  intros HM. assert (P := window_sum_pos window M HM). split; [|split].
  - intros k Hk. unfold weight. apply Rmult_le_pos; [apply window_nonneg; lia|].
    left. now apply Rinv_0_lt_compat.
  - unfold weight, Rdiv.
    rewrite (total_ext _ _ (fun k => / total M (window_at window M) * window_at window M k)) by (intros; ring).
    rewrite total_scale. apply Rinv_l. lra.
  - intros k Hk. unfold weight. now rewrite (window_sym window M k) by lia.
Qed.

Lemma nth_map_seq (g : nat -> R) n k d : (k < n)%nat -> nth k (map g (seq 0 n)) d = g k.
Proof. intros H. rewrite nth_indep with (d' := g 0%nat) by (rewrite map_length, seq_length; lia). rewrite map_nth, seq_nth; auto. Qed.

(** ** the convolution is a sliding weighted mean *)
Lemma convolve_spec window M s : (3 <= M)%nat -> (M <= length s)%nat ->
  let w := window_list window M in
  let out := convolve_valid (map (fun v => v / rsum w) w) s in
  length out = (length s - M + 1)%nat /\
  forall j, (j < length out)%nat -> nth j out 0 = window_mean M (weight window M) s j.
Proof.
  intros HM HL w out.
  assert (Lw : length w = M) by (unfold w, window_list; now rewrite map_length, seq_length).
  unfold out, convolve_valid. rewrite map_length, Lw.
  destruct (Nat.leb_spec M (length s)); [|lia].
  unfold convolve_short. rewrite !map_length, seq_length, Lw. split; [reflexivity|].
  intros j Hj. rewrite nth_map_seq by lia. rewrite total_rsum.
  unfold window_mean. rewrite total_rev. apply total_ext. intros k Hk.
  assert (W := weight_window window M HM). destruct W as (_ & _ & W). rewrite (W k) by lia.
  f_equal; [|f_equal; lia].
  assert (E : rsum w = total M (window_at window M)) by (unfold w, window_list; apply total_rsum).
  rewrite E. unfold w, window_list, weight. rewrite map_map, nth_map_seq by lia. reflexivity.
Qed.

Lemma window_mean_bounds n w s j lo hi : is_window n w ->
  (forall k, (k < n)%nat -> lo <= nth (j + k) s 0 <= hi) -> lo <= window_mean n w s j <= hi.
Proof.
  intros (W1 & W2 & _) H. unfold window_mean. split.
  - replace lo with (total n (fun k => lo * w k)) by (rewrite total_scale, W2; ring).
    apply total_le. intros k Hk. specialize (H k Hk). specialize (W1 k Hk).
    rewrite Rmult_comm. apply Rmult_le_compat_l; lra.
  - replace hi with (total n (fun k => hi * w k)) by (rewrite total_scale, W2; ring).
    apply total_le. intros k Hk. specialize (H k Hk). specialize (W1 k Hk).
    rewrite (Rmult_comm hi). apply Rmult_le_compat_l; lra.
Qed.

(** ** padding *)
Definition border (m : string) : Prop := m = "zeros" \/ m = "reflect" \/ m = "clip".

Lemma slice_down_nth {A} (x : list A) a b d k :
  (0 <= b <= a)%Z -> (a < Z.of_nat (length x))%Z -> (k < Z.to_nat (a - b))%nat ->
  nth k (slice_down x a b) d = nth (Z.to_nat a - k) x d /\
  length (slice_down x a b) = Z.to_nat (a - b).
Proof.
  intros Hab Ha Hk. unfold slice_down.
  destruct (Z.ltb_spec a 0); [lia|]. destruct (Z.leb_spec (Z.of_nat (length x)) a); [lia|].
  destruct (Z.ltb_spec b 0); [lia|]. destruct (Z.leb_spec (Z.of_nat (length x)) b); [lia|].
  assert (E : flat_map (fun k => match nth_error x (Z.to_nat (a - Z.of_nat k)) with Some v => [v] | None => [] end)
    (seq 0 (Z.to_nat (a - b))) = map (fun k => nth (Z.to_nat a - k) x d) (seq 0 (Z.to_nat (a - b)))).
  { assert (G : forall l, (forall k, In k l -> (k < Z.to_nat (a - b))%nat) ->
      flat_map (fun k => match nth_error x (Z.to_nat (a - Z.of_nat k)) with Some v => [v] | None => [] end) l =
      map (fun k => nth (Z.to_nat a - k) x d) l).
    { induction l as [|i l IH]; intros Hl; [reflexivity|]. cbn [flat_map map].
      rewrite IH by (intros; apply Hl; now right).
      assert (i < Z.to_nat (a - b))%nat by (apply Hl; now left).
      replace (Z.to_nat (a - Z.of_nat i)) with (Z.to_nat a - i)%nat by lia.
      rewrite (nth_error_nth' x d) by lia. reflexivity. }
    apply G. intros i Hi. apply in_seq in Hi. lia. }
  rewrite E, map_length, seq_length. split; [|reflexivity].
  rewrite nth_indep with (d' := nth (Z.to_nat a - 0) x d) by (rewrite map_length, seq_length; lia).
  rewrite (map_nth (fun k => nth (Z.to_nat a - k) x d)), seq_nth by lia. reflexivity.
Qed.

Lemma slice_down_length {A} (x : list A) a b :
  (0 <= b <= a)%Z -> (a < Z.of_nat (length x))%Z -> length (slice_down x a b) = Z.to_nat (a - b).
Proof.
  intros Hab Ha. destruct (Z.eq_dec a b) as [->|N].
  - unfold slice_down. rewrite Z.sub_diag. now rewrite Z.sub_diag.
  - destruct x as [|d x']; [cbn in Ha; lia|].
    now apply (slice_down_nth (d :: x') a b d 0); try lia.
Qed.

Lemma slice_down_neg {A} (x : list A) a b : (a < 0)%Z -> (b < 0)%Z ->
  (- Z.of_nat (length x) <= a)%Z -> (- Z.of_nat (length x) <= b)%Z ->
  slice_down x a b = slice_down x (a + Z.of_nat (length x)) (b + Z.of_nat (length x)).
Proof.
  intros Ha Hb Ha' Hb'. unfold slice_down.
  destruct (Z.ltb_spec a 0); [|lia]. destruct (Z.ltb_spec b 0); [|lia].
  destruct (Z.ltb_spec (a + Z.of_nat (length x)) 0); [lia|].
  destruct (Z.ltb_spec (b + Z.of_nat (length x)) 0); [lia|].
  destruct (Z.leb_spec (Z.of_nat (length x)) (a + Z.of_nat (length x))); [lia|].
  destruct (Z.leb_spec (Z.of_nat (length x)) (b + Z.of_nat (length x))); [lia|].
  reflexivity.
Qed.

Lemma slice_down_In {A} (x : list A) a b v : In v (slice_down x a b) -> In v x.
Proof.
  unfold slice_down. rewrite in_flat_map. intros (k & _ & H).
  destruct (nth_error x _) as [u|] eqn:E; [|destruct H].
  destruct H as [<-|[]]. eapply nth_error_In; eauto.
Qed.

(** left padding, signal, right padding *)
Lemma pad_spec x n m : border m -> (3 <= n)%Z -> (n <= Z.of_nat (length x))%Z ->
  exists l r, pad x n (Some m) = l ++ x ++ r /\
    length l = Z.to_nat ((n - 1) / 2) /\ length r = Z.to_nat (n / 2) /\
    forall v, In v l \/ In v r -> In v x \/ (m = "zeros" /\ v = 0).
Proof.
  intros Hm H3 HL. unfold pad. destruct Hm as [->|[->| ->]]; streq; cbv iota.
  - eexists _, _. split; [reflexivity|]. rewrite !repeat_length. split; [reflexivity|]. split; [reflexivity|].
    intros v [H|H]; apply repeat_spec in H; auto.
  - eexists _, _. split; [reflexivity|].
    assert (0 <= (n - 1) / 2 < n)%Z.
    { split; [apply Z.div_pos; lia|]. apply Z.div_lt_upper_bound; lia. }
    assert (E : (- (n + 1) / 2 = - (n / 2) - 1)%Z).
    { symmetry. apply (Z.div_unique _ _ _ (1 - n mod 2)); [left|].
      - assert (0 <= n mod 2 < 2)%Z by (apply Z.mod_pos_bound; lia). lia.
      - assert (n = 2 * (n / 2) + n mod 2)%Z by (apply Z_div_mod_eq_full). lia. }
    assert (0 <= n / 2 < n)%Z.
    { split; [apply Z.div_pos; lia|]. apply Z.div_lt_upper_bound; lia. }
    rewrite E.
    rewrite (slice_down_neg x (-1)) by lia.
    rewrite !slice_down_length by lia.
    split; [f_equal; lia|]. split; [f_equal; lia|].
    intros v [H1|H1]; left; eapply slice_down_In; eauto.
  - eexists _, _. split; [reflexivity|]. rewrite !repeat_length. split; [reflexivity|]. split; [reflexivity|].
    destruct x as [|x0 x]; [cbn in HL; lia|].
    intros v [H|H]; apply repeat_spec in H; subst v; left; [now left|].
    destruct (exists_last (l := x0 :: x)) as (y & z & E); [discriminate|]. rewrite E, last_last.
    apply in_or_app. right. now left.
Qed.

Lemma half_split n : (1 <= n)%Z -> (Z.to_nat ((n - 1) / 2) + Z.to_nat (n / 2) = Z.to_nat n - 1)%nat.
Proof.
  intros H. assert (n = 2 * (n / 2) + n mod 2)%Z by (apply Z_div_mod_eq_full).
  assert (0 <= n mod 2 < 2)%Z by (apply Z.mod_pos_bound; lia).
  assert ((n - 1) / 2 = n / 2 + n mod 2 - 1)%Z.
  { symmetry. apply (Z.div_unique _ _ _ (1 - n mod 2)); lia. }
  lia.
Qed.

(** ** C03 *)
Lemma smooth_error x n window method :
  (smooth x (Some n) window method = Err ValueError <->
   (Z.of_nat (length x) < n)%Z \/
   ((3 <= n)%Z /\ ~ In window ["flat"; "hanning"; "hamming"; "bartlett"; "blackman"])) /\
  (forall e, smooth x (Some n) window method = Err e -> e = ValueError).
Proof.
  unfold smooth. destruct (Z.ltb_spec (Z.of_nat (length x)) n); [split; [tauto|congruence]|].
  destruct (Z.ltb_spec n 3); [split; [split; [discriminate|lia]|discriminate]|].
  destruct (inb String.eqb window window_names) eqn:E; cbn [negb].
  - apply (inb_In _ string_eqb_spec) in E. split; [|discriminate]. split; [discriminate|].
    intros [H1|[_ H1]]; [lia|contradiction].
  - split; [|congruence]. split; [|reflexivity]. intros _. right. split; [assumption|].
    intros Hin. apply (inb_In _ string_eqb_spec) in Hin. unfold window_names in E. congruence.
Qed.

Lemma smooth_small x n window method : (n < 3)%Z -> (n <= Z.of_nat (length x))%Z ->
  smooth x (Some n) window method = Ok x.
Proof.
  intros H HL. unfold smooth. destruct (Z.ltb_spec (Z.of_nat (length x)) n); [lia|].
  destruct (Z.ltb_spec n 3); [reflexivity|lia].
Qed.

Lemma smooth_ok x n window method :
  In window ["flat"; "hanning"; "hamming"; "bartlett"; "blackman"] ->
  (3 <= n)%Z -> (n <= Z.of_nat (length x))%Z ->
  exists out, smooth x (Some n) window method = Ok out /\
    length out = (length (pad x n method) - Z.to_nat n + 1)%nat /\
    (Z.to_nat n <= length (pad x n method))%nat /\
    forall j, (j < length out)%nat ->
      nth j out 0 = window_mean (Z.to_nat n) (weight window (Z.to_nat n)) (pad x n method) j.
Proof.
  intros Hw H3 HL. unfold smooth.
  destruct (Z.ltb_spec (Z.of_nat (length x)) n); [lia|].
  destruct (Z.ltb_spec n 3); [lia|].
  assert (E : inb String.eqb window window_names = true) by (apply (inb_In _ string_eqb_spec); exact Hw).
  rewrite E. cbn [negb].
  assert (HP : (Z.to_nat n <= length (pad x n method))%nat).
  { destruct method as [m|]; [|cbn; lia].
    unfold pad. repeat (destruct (String.eqb _ _)); rewrite ?app_length; lia. }
  destruct (convolve_spec window (Z.to_nat n) (pad x n method)) as [H1 H2]; [lia|assumption|].
  eexists. split; [reflexivity|]. split; [exact H1|]. split; [assumption|]. exact H2.
Qed.

Lemma smooth_length_border x n window m out :
  border m -> smooth x (Some n) window (Some m) = Ok out -> length out = length x.
Proof.
  intros Hm H.
  destruct (Z.lt_ge_cases n 3) as [L|L].
  - unfold smooth in H. destruct (Z.ltb_spec (Z.of_nat (length x)) n); [discriminate|].
    destruct (Z.ltb_spec n 3); [|lia]. congruence.
  - destruct (Z.lt_ge_cases (Z.of_nat (length x)) n) as [G|G].
    { rewrite (proj2 (proj1 (smooth_error x n window (Some m)))) in H by auto. discriminate. }
    destruct (in_dec string_dec window ["flat"; "hanning"; "hamming"; "bartlett"; "blackman"]) as [Hw|Hw].
    2:{ rewrite (proj2 (proj1 (smooth_error x n window (Some m)))) in H by auto. discriminate. }
    destruct (smooth_ok x n window (Some m) Hw L G) as (o & E & Lo & _). rewrite E in H. injection H as <-.
    destruct (pad_spec x n m Hm L G) as (l & r & Ep & Ll & Lr & _).
    rewrite Lo, Ep, !app_length, Ll, Lr. assert (HS := half_split n ltac:(lia)). lia.
Qed.

Lemma smooth_length_none x n window out : (3 <= n)%Z ->
  smooth x (Some n) window None = Ok out -> length out = (length x - Z.to_nat n + 1)%nat.
Proof.
  intros L H.
  destruct (Z.lt_ge_cases (Z.of_nat (length x)) n) as [G|G].
  { rewrite (proj2 (proj1 (smooth_error x n window None))) in H by auto. discriminate. }
  destruct (in_dec string_dec window ["flat"; "hanning"; "hamming"; "bartlett"; "blackman"]) as [Hw|Hw].
  2:{ rewrite (proj2 (proj1 (smooth_error x n window None))) in H by auto. discriminate. }
  destruct (smooth_ok x n window None Hw L G) as (o & E & Lo & _). rewrite E in H. injection H as <-. exact Lo.
Qed.

(** ** C04 *)
Lemma nth_In_bounds (s : list R) lo hi i : (forall v, In v s -> lo <= v <= hi) ->
  (i < length s)%nat -> lo <= nth i s 0 <= hi.
Proof. intros H Hi. apply H. now apply nth_In. Qed.

Lemma smooth_cases x n window method out :
  smooth x (Some n) window method = Ok out ->
  out = x \/ (3 <= n)%Z /\ (n <= Z.of_nat (length x))%Z /\ In window window_names.
Proof.
  unfold smooth. destruct (Z.ltb_spec (Z.of_nat (length x)) n); [discriminate|].
  destruct (Z.ltb_spec n 3); [intros [= <-]; auto|].
  destruct (inb String.eqb window window_names) eqn:E; cbn [negb]; [|discriminate].
  intros _. right. apply (inb_In _ string_eqb_spec) in E. auto.
Qed.

Lemma smooth_bounds x n window method out lo hi v :
  (method = Some "zeros" -> lo <= 0 <= hi) ->
  (forall u, In u x -> lo <= u <= hi) ->
  smooth x (Some n) window method = Ok out -> In v out -> lo <= v <= hi.
Proof.
  intros Hz Hx H Hv. destruct (smooth_cases x n window method out H) as [->|(L & G & Hw)]; [auto|].
  destruct (smooth_ok x n window method Hw L G) as (o & E & Lo & LP & Hn). rewrite E in H. injection H as <-.
  apply (In_nth _ _ 0) in Hv as (j & Hj & <-). rewrite Hn by assumption.
  apply window_mean_bounds; [apply weight_window; lia|].
  intros k Hk. apply nth_In_bounds; [|lia].
  intros u Hu. destruct method as [m|]; [|auto].
  assert (D : border m \/ pad x n (Some m) = x).
  { unfold pad, border. destruct (String.eqb m "zeros") eqn:E1; [apply String.eqb_eq in E1; auto|].
    destruct (String.eqb m "reflect") eqn:E2; [apply String.eqb_eq in E2; auto|].
    destruct (String.eqb m "clip") eqn:E3; [apply String.eqb_eq in E3; auto|]. auto. }
  destruct D as [Hm|Ep]; [|rewrite Ep in Hu; auto].
  destruct (pad_spec x n m Hm L G) as (l & r & Ep & Ll & Lr & Hl). rewrite Ep in Hu.
  apply in_app_or in Hu as [Hu|Hu].
  - destruct (Hl u (or_introl Hu)) as [|[-> ->]]; auto.
  - apply in_app_or in Hu as [Hu|Hu]; auto.
    destruct (Hl u (or_intror Hu)) as [|[-> ->]]; auto.
Qed.

Lemma smooth_constant x n window method out c :
  method <> Some "zeros" -> (forall u, In u x -> u = c) ->
  smooth x (Some n) window method = Ok out -> forall v, In v out -> v = c.
Proof.
  intros Hm Hx H v Hv. apply Rle_antisym;
  apply (smooth_bounds x n window method out c c v); auto; try congruence; intros u Hu; apply Hx in Hu; lra.
Qed.

Lemma smooth_interior x n window m o1 o2 j :
  border m -> smooth x (Some n) window (Some m) = Ok o1 -> smooth x (Some n) window None = Ok o2 ->
  (3 <= n)%Z -> (j < length o2)%nat -> nth (j + Z.to_nat ((n - 1) / 2)) o1 0 = nth j o2 0.
Proof.
  intros Hm H1 H2 L Hj.
  destruct (smooth_cases _ _ _ _ _ H2) as [Eq|(_ & G & Hw)].
  { subst o2. exfalso. assert (HL := smooth_length_none _ _ _ _ L H2).
    assert (L2 := smooth_length_border _ _ _ _ _ Hm H1).
    unfold smooth in H2. destruct (Z.ltb_spec (Z.of_nat (length x)) n); [discriminate|]. lia. }
  destruct (smooth_ok x n window (Some m) Hw L G) as (o & E & Lo & LP & Hn). rewrite E in H1. injection H1 as <-.
  destruct (smooth_ok x n window None Hw L G) as (o' & E' & Lo' & LP' & Hn'). rewrite E' in H2. injection H2 as <-.
  destruct (pad_spec x n m Hm L G) as (l & r & Ep & Ll & Lr & _).
  cbn [pad] in *. rewrite Hn' by assumption.
  assert (HS := half_split n ltac:(lia)).
  rewrite Hn by (rewrite Lo, Ep, !app_length; lia).
  unfold window_mean. apply total_ext. intros k Hk. f_equal.
  rewrite Ep. rewrite app_nth2 by lia. rewrite app_nth1 by lia. f_equal. lia.
Qed.

Lemma shape_window window M k : In window ["flat"; "hanning"; "hamming"; "bartlett"; "blackman"] -> (2 <= M)%nat ->
  window_at window M k = window_shape window (INR k / (INR M - 1)).
Proof.
  intros Hw HM. assert (1 < INR M) by (apply (lt_INR 1); lia).
  assert (A : PI * wpos M k / (INR M - 1) = 2 * PI * (INR k / (INR M - 1)) - PI).
  { unfold wpos. field. lra. }
  assert (B : 2 * PI * wpos M k / (INR M - 1) = 4 * PI * (INR k / (INR M - 1)) - 2 * PI).
  { unfold wpos. field. lra. }
  assert (C : wpos M k / (INR M - 1) = 2 * (INR k / (INR M - 1)) - 1).
  { unfold wpos. field. lra. }
  assert (HC : cos (2 * PI * (INR k / (INR M - 1)) - PI) = - cos (2 * PI * (INR k / (INR M - 1)))).
  { rewrite cos_minus, cos_PI, sin_PI. ring. }
  assert (HS : cos (2 * PI * (INR k / (INR M - 1))) = 1 - 2 * sin (PI * (INR k / (INR M - 1))) ^ 2).
  { replace (2 * PI * (INR k / (INR M - 1))) with (2 * (PI * (INR k / (INR M - 1)))) by ring.
    rewrite cos_2a_sin. ring. }
  assert (HB : cos (4 * PI * (INR k / (INR M - 1)) - 2 * PI) = cos (4 * PI * (INR k / (INR M - 1)))).
  { rewrite cos_minus, cos_2PI, sin_2PI. ring. }
  unfold window_at, window_shape.
  cbn [In] in Hw. destruct Hw as [<-|[<-|[<-|[<-|[<-|[]]]]]]; streq; cbv iota.
  - reflexivity.
  - rewrite A, HC, HS. field.
  - rewrite A, HC, HS. field.
  - rewrite <- C. unfold Rabs. assert (0 < / (INR M - 1)) by (apply Rinv_0_lt_compat; lra).
    destruct (Rle_dec (wpos M k) 0) as [L|L]; destruct (Rcase_abs (wpos M k / (INR M - 1))) as [N|N].
    + lra.
    + assert (wpos M k / (INR M - 1) <= 0).
      { unfold Rdiv. rewrite <- (Rmult_0_l (/ (INR M - 1))). apply Rmult_le_compat_r; lra. }
      lra.
    + assert (0 < wpos M k / (INR M - 1)) by (apply Rmult_lt_0_compat; lra). lra.
    + lra.
  - rewrite A, B, HC, HB. field.
Qed.

Lemma smooth_mean x n window out : (3 <= n)%Z -> smooth x (Some n) window None = Ok out ->
  exists w, is_window (Z.to_nat n) w /\
    (exists c, forall k, (k < Z.to_nat n)%nat -> w k = c * window_shape window (INR k / (IZR n - 1))) /\
    forall j, (j < length out)%nat -> nth j out 0 = window_mean (Z.to_nat n) w x j.
Proof.
  intros L H. assert (HL := smooth_length_none _ _ _ _ L H).
  destruct (Z.lt_ge_cases (Z.of_nat (length x)) n) as [G|G].
  { rewrite (proj2 (proj1 (smooth_error x n window None))) in H by auto. discriminate. }
  destruct (in_dec string_dec window ["flat"; "hanning"; "hamming"; "bartlett"; "blackman"]) as [Hw|Hw].
  2:{ rewrite (proj2 (proj1 (smooth_error x n window None))) in H by auto. discriminate. }
  destruct (smooth_ok x n window None Hw L G) as (o & E & Lo & LP & Hn). rewrite E in H. injection H as <-.
  exists (weight window (Z.to_nat n)). split; [apply weight_window; lia|]. split; [|exact Hn].
  exists (/ total (Z.to_nat n) (window_at window (Z.to_nat n))). intros k Hk.
  unfold weight. rewrite (shape_window window _ k Hw) by lia.
  rewrite (INR_IZR_INZ (Z.to_nat n)), Z2Nat.id by lia. unfold Rdiv. ring.
Qed.

(** time reversal *)
Lemma window_mean_rev n w s j : is_window n w -> (j + n <= length s)%nat ->
  window_mean n w (rev s) j = window_mean n w s (length s - n - j).
Proof.
  intros (_ & _ & W) H. unfold window_mean. rewrite total_rev. apply total_ext. intros k Hk.
  rewrite <- W by assumption. f_equal. rewrite rev_nth by lia. f_equal. lia.
Qed.

Lemma nth_ext0 (a b : list R) : length a = length b ->
  (forall j, (j < length a)%nat -> nth j a 0 = nth j b 0) -> a = b.
Proof. intros. now apply nth_ext with 0 0. Qed.

Lemma rev_repeat {A} (x : A) n : rev (repeat x n) = repeat x n.
Proof.
  induction n; [reflexivity|]. cbn. rewrite IHn. clear. induction n; cbn; [reflexivity|]. now rewrite IHn at 1.
Qed.

Lemma odd_halves n : (n mod 2 = 1)%Z -> ((n - 1) / 2 = n / 2)%Z.
Proof.
  intros H. assert (n = 2 * (n / 2) + n mod 2)%Z by (apply Z_div_mod_eq_full).
  symmetry. apply (Z.div_unique _ _ _ 0); lia.
Qed.

Lemma pad_rev x n method : method = None \/ ((method = Some "zeros" \/ method = Some "clip") /\ (n mod 2 = 1)%Z) ->
  x <> [] -> pad (rev x) n method = rev (pad x n method).
Proof.
  intros H Hx. unfold pad. destruct H as [->|[[->| ->] Ho]]; streq; cbv iota; [reflexivity| |];
  rewrite !rev_app_distr, !rev_repeat, <- app_assoc, (odd_halves n Ho); [reflexivity|].
  destruct x as [|a x]; [congruence|].
  destruct (exists_last (l := a :: x)) as (y & z & E); [discriminate|].
  rewrite E. rewrite last_last, rev_unit. cbn [nth].
  replace (last (z :: rev y) 0) with (nth 0 (y ++ [z]) 0); [reflexivity|].
  destruct y as [|y0 y]; [reflexivity|]. cbn [app nth rev].
  replace (z :: rev y ++ [y0]) with ((z :: rev y) ++ [y0]) by reflexivity. now rewrite last_last.
Qed.

Lemma smooth_reverse x n window method out :
  method = None \/ ((method = Some "zeros" \/ method = Some "clip") /\ (n mod 2 = 1)%Z) ->
  smooth x (Some n) window method = Ok out -> smooth (rev x) (Some n) window method = Ok (rev out).
Proof.
  intros Hm H. destruct (Z.lt_ge_cases n 3) as [L|L].
  { unfold smooth in *. rewrite rev_length.
    destruct (Z.ltb_spec (Z.of_nat (length x)) n); [discriminate|].
    destruct (Z.ltb_spec n 3); [congruence|lia]. }
  assert (G : (n <= Z.of_nat (length x))%Z /\ In window window_names).
  { unfold smooth in H. destruct (Z.ltb_spec (Z.of_nat (length x)) n); [discriminate|].
    destruct (Z.ltb_spec n 3); [lia|].
    destruct (inb String.eqb window window_names) eqn:E; [|discriminate].
    apply (inb_In _ string_eqb_spec) in E. auto. }
  destruct G as [G Hw].
  destruct (smooth_ok x n window method Hw L G) as (o & E & Lo & LP & Hn). rewrite E in H. injection H as <-.
  destruct (smooth_ok (rev x) n window method Hw L ltac:(rewrite rev_length; assumption)) as (o' & E' & Lo' & LP' & Hn').
  rewrite E'. f_equal.
  assert (Hx : x <> []) by (destruct x; [cbn in G; lia|congruence]).
  rewrite (pad_rev x n method Hm Hx) in *. rewrite rev_length in *.
  apply nth_ext0; [rewrite rev_length; lia|]. intros j Hj.
  rewrite rev_nth by lia. rewrite Hn', Hn by lia.
  rewrite window_mean_rev by (try apply weight_window; lia).
  f_equal. lia.
Qed.

(** ** C05 *)
Lemma py_round_nearest x k : nearest_int x k -> py_round x = k.
Proof.
  intros H. unfold py_round. destruct (base_Int_part x) as [B1 B2].
  set (m := Int_part x) in *.
  assert (B : IZR m <= x < IZR (m + 1)) by (rewrite plus_IZR; lra). clear B1 B2.
  assert (A : Rabs (x - IZR k) <= 1 / 2) by (destruct H as [H|[H _]]; lra).
  assert (A' : - (1 / 2) <= x - IZR k <= 1 / 2).
  { revert A. unfold Rabs. destruct (Rcase_abs (x - IZR k)); lra. }
  rewrite plus_IZR in B.
  assert (K : k = m \/ k = (m + 1)%Z).
  { assert (m - 1 < k)%Z by (apply lt_IZR; rewrite minus_IZR; lra).
    assert (k < m + 2)%Z by (apply lt_IZR; rewrite plus_IZR; lra). lia. }
  destruct (Rlt_dec (x - IZR m) (1 / 2)).
  { destruct K as [K|K]; [congruence|]. exfalso. subst k. rewrite plus_IZR in A'. lra. }
  destruct (Rlt_dec (1 / 2) (x - IZR m)).
  { destruct K as [K|K]; [|congruence]. exfalso. subst k. lra. }
  assert (D : x - IZR m = 1 / 2) by lra.
  destruct H as [H|[_ H]].
  - exfalso. destruct K as [K|K]; subst k; rewrite ?plus_IZR in H; revert H; unfold Rabs; destruct (Rcase_abs _); lra.
  - destruct K as [K|K]; subst k; [now rewrite H|].
    destruct (Z.even m) eqn:E; [|reflexivity]. rewrite Z.even_add, E in H. discriminate.
Qed.

Lemma nearest_ex x : exists k, nearest_int x k.
Proof.
  destruct (base_Int_part x) as [B1 B2]. set (m := Int_part x) in *.
  destruct (Rlt_dec (x - IZR m) (1 / 2)).
  { exists m. left. rewrite Rabs_pos_eq; lra. }
  destruct (Rlt_dec (1 / 2) (x - IZR m)).
  { exists (m + 1)%Z. left. rewrite plus_IZR. rewrite <- Rabs_Ropp, Rabs_pos_eq; lra. }
  destruct (Z.even m) eqn:E.
  - exists m. right. rewrite Rabs_pos_eq by lra. split; [lra|assumption].
  - exists (m + 1)%Z. right. rewrite plus_IZR, <- Rabs_Ropp, Rabs_pos_eq by lra.
    split; [lra|]. rewrite Z.even_add, E. reflexivity.
Qed.

Lemma spaced_diffs l a dt : (forall i, (i < length l)%nat -> nth i l 0 = a + INR i * dt) ->
  rsum (map (fun p => Rabs (snd p - fst p - dt)) (combine l (tl l))) = 0.
Proof.
  revert a. induction l as [|x l IH]; intros a H; [reflexivity|].
  destruct l as [|y l]; [reflexivity|]. cbn [tl].
  change (combine (x :: y :: l) (y :: l)) with ((x, y) :: combine (y :: l) l). rewrite map_cons, rsum_cons.
  assert (IH' := IH (a + dt)). cbn [tl] in IH'. rewrite IH'.
  - assert (H0 := H 0%nat ltac:(cbn; lia)). assert (H1 := H 1%nat ltac:(cbn; lia)). cbn [nth fst snd] in *.
    cbn [INR] in *.
    replace (y - x - dt) with 0 by lra. rewrite Rabs_R0. lra.
  - intros i Hi. specialize (H (S i) ltac:(cbn in *; lia)). cbn [nth] in *. rewrite H, S_INR. lra.
Qed.

Lemma nth_map_R (f : R -> R) l i : (i < length l)%nat -> nth i (map f l) 0 = f (nth i l 0).
Proof. intros H. rewrite nth_indep with (d' := f 0) by (now rewrite map_length). apply map_nth. Qed.

Lemma last_nth (l : list R) : last l 0 = nth (length l - 1) l 0.
Proof.
  destruct l as [|a l]; [reflexivity|].
  destruct (exists_last (l := a :: l)) as (y & z & E); [discriminate|]. rewrite E, last_last.
  rewrite app_length. cbn [length]. rewrite app_nth2 by lia. now replace (length y + 1 - 1 - length y)%nat with 0%nat by lia.
Qed.

Lemma extended_times t t0 dt N1 N2 i :
  evenly_spaced t t0 dt -> (1 <= length t)%nat -> (0 <= N1)%Z -> (0 <= N2)%Z ->
  (i < Z.to_nat N1 + length t + Z.to_nat N2)%nat ->
  nth i (map (fun a => t0 - IZR N1 * dt + a) (map (fun i => INR i * dt) (seq 0 (Z.to_nat N1))) ++ t
         ++ map (fun a => last t 0 + dt + a) (map (fun i => INR i * dt) (seq 0 (Z.to_nat N2)))) 0
  = t0 + (INR i - IZR N1) * dt.
Proof.
  intros Ht Hl H1 H2 Hi.
  assert (NI : INR (Z.to_nat N1) = IZR N1) by (rewrite INR_IZR_INZ, Z2Nat.id; auto).
  destruct (Nat.lt_ge_cases i (Z.to_nat N1)) as [A|A].
  { rewrite app_nth1 by (rewrite !map_length, seq_length; lia).
    rewrite map_map, nth_map_seq by lia. lra. }
  rewrite app_nth2 by (rewrite !map_length, seq_length; lia). rewrite !map_length, seq_length.
  destruct (Nat.lt_ge_cases i (Z.to_nat N1 + length t)) as [B|B].
  { rewrite app_nth1 by lia. rewrite Ht by lia. rewrite minus_INR by lia. rewrite NI. lra. }
  rewrite app_nth2 by lia. rewrite map_map, nth_map_seq by lia.
  rewrite last_nth, Ht by lia. rewrite !minus_INR by lia. rewrite NI. cbn [INR]. lra.
Qed.

Lemma even_first t t0 dt : evenly_spaced t t0 dt -> (2 <= length t)%nat ->
  exists t1 r, t = t0 :: t1 :: r /\ t1 - t0 = dt.
Proof.
  intros H L. destruct t as [|a [|b r]]; cbn in L; try lia.
  assert (H0 := H 0%nat ltac:(cbn; lia)). assert (H1 := H 1%nat ltac:(cbn; lia)). cbn [nth INR] in *.
  exists b, r. split; [f_equal; lra|lra].
Qed.

Lemma smooth_func_unfold f t t0 dt wl window n :
  evenly_spaced t t0 dt -> (2 <= length t)%nat -> dt <> 0 -> nearest_int (wl / dt) n ->
  exists ft, smooth_func f t (Some wl) window = smooth ft (Some n) window None /\
    length ft = (Z.to_nat ((n - 1) / 2) + length t + Z.to_nat (n / 2))%nat /\
    ((n <= 1)%Z -> ft = map f t) /\
    ((1 <= n)%Z -> forall i, (i < length ft)%nat -> nth i ft 0 = f (t0 + (INR i - IZR ((n - 1) / 2)) * dt)).
Proof.
  intros Ht L Hd Hn. assert (Ht' := Ht). destruct (even_first t t0 dt Ht L) as (t1 & r & E & Ed).
  cbn [smooth_func]. unfold smooth_func_win. rewrite E. rewrite <- E. rewrite Ed.
  rewrite (spaced_diffs t t0 dt Ht). destruct (Rlt_dec (1 / 100000) 0); [lra|].
  destruct (Req_EM_T dt 0); [contradiction|].
  rewrite (py_round_nearest _ _ Hn).
  eexists. split; [reflexivity|].
  assert (Lf : length (map f (map (fun a => t0 - IZR ((n - 1) / 2) * dt + a) (map (fun i => INR i * dt) (seq 0 (Z.to_nat ((n - 1) / 2)))) ++ t ++
     map (fun a => last t 0 + dt + a) (map (fun i => INR i * dt) (seq 0 (Z.to_nat (n / 2))))))
    = (Z.to_nat ((n - 1) / 2) + length t + Z.to_nat (n / 2))%nat).
  { rewrite map_length, !app_length, !map_length, !seq_length. lia. }
  split; [exact Lf|]. split.
  - intros Hle. assert ((n - 1) / 2 <= 0)%Z by (apply Z.div_le_upper_bound; lia).
    assert (n / 2 < 1)%Z by (apply Z.div_lt_upper_bound; lia).
    replace (Z.to_nat ((n - 1) / 2)) with O by lia. replace (Z.to_nat (n / 2)) with O by lia. cbn [seq map app].
    now rewrite app_nil_r.
  - intros Hge i Hi. rewrite Lf in Hi.
    rewrite nth_map_R by (rewrite map_length in Lf; lia).
    f_equal. apply extended_times; auto; try lia; apply Z.div_pos; lia.
Qed.

Lemma sf_none f t window : smooth_func f t None window = Ok (map f t).
Proof. reflexivity. Qed.

Lemma sf_length f t t0 dt wl window n :
  evenly_spaced t t0 dt -> (2 <= length t)%nat -> dt <> 0 -> nearest_int (wl / dt) n ->
  In window ["flat"; "hanning"; "hamming"; "bartlett"; "blackman"] ->
  exists out, smooth_func f t (Some wl) window = Ok out /\
    length out = (if Z.eqb n 2 then S (length t) else length t).
Proof.
  intros Ht L Hd Hn Hw. destruct (smooth_func_unfold f t t0 dt wl window n Ht L Hd Hn) as (ft & -> & Lf & Hle & _).
  destruct (Z.lt_ge_cases n 2) as [A|A].
  { rewrite Hle by lia. rewrite smooth_small by (rewrite ?map_length; lia). eexists. split; [reflexivity|].
    rewrite map_length. destruct (Z.eqb_spec n 2); [lia|reflexivity]. }
  assert (HS := half_split n ltac:(lia)).
  destruct (Z.eq_dec n 2) as [->|N].
  { rewrite smooth_small by lia. eexists. split; [reflexivity|]. cbn [Z.eqb Pos.eqb].
    rewrite Lf. change ((2 - 1) / 2)%Z with 0%Z. change (2 / 2)%Z with 1%Z. cbn. lia. }
  destruct (smooth_ok ft n window None Hw ltac:(lia) ltac:(lia)) as (out & E & Lo & _).
  exists out. split; [exact E|]. cbn [pad] in Lo. destruct (Z.eqb_spec n 2); [lia|]. lia.
Qed.

Lemma sf_values f t t0 dt wl window n out :
  evenly_spaced t t0 dt -> (2 <= length t)%nat -> dt <> 0 -> nearest_int (wl / dt) n ->
  smooth_func f t (Some wl) window = Ok out ->
  ((n <= 1)%Z -> out = map f t) /\
  ((3 <= n)%Z -> length out = length t /\
     exists w, is_window (Z.to_nat n) w /\
       (exists c, forall k, (k < Z.to_nat n)%nat -> w k = c * window_shape window (INR k / (IZR n - 1))) /\
       forall j, (j < length t)%nat ->
         nth j out 0 = total (Z.to_nat n) (fun k => w k * f (nth j t 0 + (INR k - IZR ((n - 1) / 2)) * dt))).
Proof.
  intros Ht L Hd Hn. destruct (smooth_func_unfold f t t0 dt wl window n Ht L Hd Hn) as (ft & -> & Lf & Hle & Hge).
  intros H. split.
  - intros A. rewrite Hle in H by assumption. rewrite smooth_small in H by (rewrite ?map_length; lia). congruence.
  - intros A. destruct (smooth_mean _ _ _ _ A H) as (w & Hw & Hc & Hj).
    assert (Lo := smooth_length_none _ _ _ _ A H). assert (HS := half_split n ltac:(lia)).
    split; [lia|]. exists w. split; [assumption|]. split; [exact Hc|]. intros j Hj'.
    rewrite Hj by lia. unfold window_mean. apply total_ext. intros k Hk. f_equal.
    rewrite Hge by lia. f_equal. rewrite Ht by assumption. rewrite plus_INR. lra.
Qed.

(** centred: for an odd window and an affine f the value is f(t_j) *)
Lemma total_plus n g h : total n (fun k => g k + h k) = total n g + total n h.
Proof. induction n; cbn; [lra|]. rewrite IHn. lra. Qed.

Lemma window_centre n w : is_window n w -> (1 <= n)%nat ->
  total n (fun k => w k * INR k) = INR (n - 1) / 2.
Proof.
  intros (_ & W2 & W3) Hn.
  assert (E : total n (fun k => w k * INR k) = total n (fun k => w k * (INR (n - 1) - INR k))).
  { rewrite total_rev. apply total_ext. intros k Hk. rewrite <- W3 by assumption. f_equal.
    rewrite <- minus_INR by lia. reflexivity. }
  assert (E2 : total n (fun k => w k * INR k) + total n (fun k => w k * (INR (n - 1) - INR k)) = INR (n - 1)).
  { rewrite <- total_plus. rewrite (total_ext _ _ (fun k => INR (n - 1) * w k)) by (intros; ring).
    rewrite total_scale, W2. ring. }
  lra.
Qed.

Lemma sf_affine a b t t0 dt wl window n out :
  evenly_spaced t t0 dt -> (2 <= length t)%nat -> dt <> 0 -> nearest_int (wl / dt) n ->
  (n mod 2 = 1)%Z ->
  smooth_func (fun s => a * s + b) t (Some wl) window = Ok out ->
  forall j, (j < length t)%nat -> nth j out 0 = a * nth j t 0 + b.
Proof.
  intros Ht L Hd Hn Ho H j Hj. destruct (sf_values _ _ _ _ _ _ _ _ Ht L Hd Hn H) as [V1 V2].
  assert (n = 2 * (n / 2) + n mod 2)%Z by (apply Z_div_mod_eq_full).
  destruct (Z.lt_ge_cases n 3) as [A|A].
  { rewrite V1 by lia. rewrite nth_map_R by assumption. reflexivity. }
  destruct (V2 A) as (_ & w & Hw & _ & V). rewrite V by assumption.
  assert (C := window_centre _ _ Hw ltac:(lia)). assert (Hw' := Hw). destruct Hw' as (_ & W2 & _).
  set (m := IZR ((n - 1) / 2)).
  rewrite (total_ext _ _ (fun k => (a * dt) * (w k * INR k) + (a * nth j t 0 + b - a * dt * m) * w k)) by (intros; ring).
  rewrite total_plus, !total_scale, C, W2.
  assert (M : INR (Z.to_nat n - 1) / 2 = m).
  { unfold m. rewrite (odd_halves n Ho). rewrite minus_INR by lia. rewrite INR_IZR_INZ, Z2Nat.id by lia.
    rewrite H0 at 1. rewrite Ho, plus_IZR, mult_IZR. cbn [INR]. lra. }
  rewrite M. ring.
Qed.
