(** Lemmas about the filter width: the result. *)
From Coq Require Import String Ascii List Bool Reals Arith Lia Lra.
From Coquelicot Require Import Coquelicot.
From Verif Require Import Base WidthModel WidthSpec WidthProof WidthProof2.
Import ListNotations.
Open Scope R_scope.

Definition ex (z : bool) : nat := if z then 2 else 1.

(** squared response by number of the sample *)
Definition q (sr : R) (x : filter) (N : nat) (z : bool) (u : R) : R :=
  P N (pa sr x (PI * u / 512)) (pd sr x (PI * u / 512)) ^ ex z.

Lemma samples_range u : 0 <= u <= 512 -> 0 <= PI * u / 512 <= PI.
Proof. intros H. pose proof PI_RGT_0. split; [apply Rmult_le_pos; [nra|lra]|nra]. Qed.

Lemma q_range sr x N z u : valid sr x -> (0 < N)%nat -> 0 <= u <= 512 -> 0 <= q sr x N z u <= 1.
Proof.
  intros V L U. pose proof (P_range N _ _ L (parts_nonzero sr x _ V (samples_range u U))) as H.
  unfold q. destruct z; cbn [ex pow]; nra.
Qed.

Lemma ex_mono z a b : 0 <= a -> a <= b -> a ^ ex z <= b ^ ex z.
Proof. intros A B. apply pow_incr. lra. Qed.

Definition peak (sr : R) (x : filter) : R := top sr x * 512 / PI.

Lemma peak_range sr x : valid sr x -> 0 <= peak sr x <= 512.
Proof.
  intros V. pose proof (top_range sr x V). pose proof PI_RGT_0. unfold peak, Rdiv. split.
  - apply Rmult_le_pos; [nra|]. left. now apply Rinv_0_lt_compat.
  - apply Rmult_le_reg_r with PI; [assumption|]. rewrite Rmult_assoc, Rinv_l by lra. nra.
Qed.

Lemma peak_le sr x u : PI * u / 512 <= top sr x <-> u <= peak sr x.
Proof.
  pose proof PI_RGT_0. unfold peak. split; intros A.
  - apply Rmult_le_reg_r with PI; [assumption|]. unfold Rdiv. rewrite Rmult_assoc, Rinv_l by lra. nra.
  - apply (Rmult_le_compat_r (PI / 512)) in A; [|lra]. replace (top sr x * 512 / PI * (PI / 512)) with (top sr x) in A by (field; lra). lra.
Qed.

Lemma peak_ge sr x u : top sr x <= PI * u / 512 <-> peak sr x <= u.
Proof.
  pose proof PI_RGT_0. unfold peak. split; intros A.
  - apply Rmult_le_reg_r with PI; [assumption|]. unfold Rdiv. rewrite Rmult_assoc, Rinv_l by lra. nra.
  - apply (Rmult_le_compat_r (PI / 512)) in A; [|lra]. replace (top sr x * 512 / PI * (PI / 512)) with (top sr x) in A by (field; lra). lra.
Qed.

Lemma q_up sr x N z a b : valid sr x -> (0 < N)%nat -> 0 <= a -> a <= b -> b <= peak sr x -> q sr x N z a <= q sr x N z b.
Proof.
  intros V L A B C. pose proof (peak_range sr x V). pose proof PI_RGT_0. unfold q. apply ex_mono.
  - apply P_range; [assumption|]. apply parts_nonzero; [assumption|]. apply samples_range. lra.
  - apply P_up; [assumption|assumption|apply samples_range; lra|nra|now apply peak_le].
Qed.

Lemma q_down sr x N z a b : valid sr x -> (0 < N)%nat -> peak sr x <= a -> a <= b -> b <= 512 -> q sr x N z b <= q sr x N z a.
Proof.
  intros V L A B C. pose proof (peak_range sr x V). pose proof PI_RGT_0. unfold q. apply ex_mono.
  - apply P_range; [assumption|]. apply parts_nonzero; [assumption|]. apply samples_range. lra.
  - apply P_down; [assumption|assumption|now apply peak_ge|nra|apply samples_range; lra].
Qed.

Lemma part_derive sr x u : 0 < sr -> ex_derive (fun u => pa sr x (PI * u / 512)) u /\ ex_derive (fun u => pd sr x (PI * u / 512)) u.
Proof.
  intros H. destruct x as [f|f|f1 f2]; cbn [kind_of cut_of parts fst snd]; split; auto_derive; trivial.
Qed.

Lemma q_derive sr x N z u : valid sr x -> (0 < N)%nat -> 0 <= u <= 512 -> ex_derive (q sr x N z) u.
Proof.
  intros V L U. destruct (part_derive sr x u (sr_pos _ _ V)) as [A D].
  pose proof (denom_pos N _ _ L (parts_nonzero sr x _ V (samples_range u U))) as DP.
  unfold q, P. apply (ex_derive_pow (fun u => _ / _)). apply (ex_derive_div (fun u => pa sr x (PI * u / 512) ^ (2 * N))).
  - now apply ex_derive_pow.
  - apply (ex_derive_plus (fun u => pa sr x (PI * u / 512) ^ (2 * N))); now apply ex_derive_pow.
  - cbv beta. unfold plus; cbn -[Nat.mul pow]. lra.
Qed.

Lemma q_int sr x N z : valid sr x -> (0 < N)%nat -> ex_RInt (q sr x N z) 0 512.
Proof.
  intros V L. apply (@ex_RInt_continuous R_CompleteNormedModule). intros u. rewrite Rmin_left, Rmax_right by lra. intros U.
  apply (@ex_derive_continuous R_AbsRing R_NormedModule). now apply q_derive.
Qed.

Lemma n512 : INR 512 = 512.
Proof. rewrite INR_IZR_INZ. reflexivity. Qed.

Lemma q_sum_integral sr x N z : valid sr x -> (0 < N)%nat -> Rabs (rs (q sr x N z) 512 - RInt (q sr x N z) 0 512) <= 1.
Proof.
  intros V L. pose proof n512 as E. rewrite <- E. apply sum_integral with (peak sr x).
  - intros. now apply q_up.
  - intros a b A B C. rewrite E in C. now apply q_down.
  - rewrite E. now apply peak_range.
  - rewrite E. now apply q_int.
  - intros u U. rewrite E in U. now apply q_range.
Qed.

Lemma q_gain sr x N z f : valid sr x -> (0 < N)%nat -> 0 < f < sr / 2 -> q sr x N z (1024 / sr * f) = gain sr x N z f.
Proof.
  intros V L F. pose proof (sr_pos _ _ V) as H. unfold q.
  replace (PI * (1024 / sr * f) / 512) with (2 * (PI * f / sr)) by (field; lra).
  assert (G : forall g, g ^ ex z = if z then g * g else g) by (intros g; destruct z; cbn; ring). rewrite G. unfold gain.
  assert (Q : P N (pa sr x (2 * (PI * f / sr))) (pd sr x (2 * (PI * f / sr))) = 1 / (1 + prototype sr x f ^ (2 * N))).
  { pose proof (angle sr f H ltac:(lra)) as [A1 A2]. assert (A3 : 0 < PI * f / sr).
    { pose proof PI_RGT_0. apply Rdiv_lt_0_compat; [apply Rmult_lt_0_compat; lra|assumption]. }
    pose proof PI_RGT_0. assert (S : 0 < sin (PI * f / sr)) by (apply sin_gt_0; lra). assert (K : 0 < cos (PI * f / sr)) by (apply cos_gt_0; lra).
    pose proof (warped_pos sr f H F) as WF.
    destruct x as [g|g|g1 g2]; cbn [kind_of cut_of prototype]; cbn [valid] in V.
    - rewrite parts_low by assumption. cbn [fst snd]. replace (2 * (PI * f / sr) / 2) with (PI * f / sr) by lra.
      pose proof (warped_pos sr g H V). rewrite <- P_ratio by (apply Rmult_integral_contrapositive_currified; lra).
      replace (warped sr f / warped sr g) with (sin (PI * f / sr) / (cos (PI * f / sr) * warped sr g)); [reflexivity|].
      unfold warped at 2, tan. field. split; lra.
    - rewrite parts_high by assumption. cbn [fst snd]. replace (2 * (PI * f / sr) / 2) with (PI * f / sr) by lra.
      rewrite <- P_ratio by lra.
      replace (warped sr g / warped sr f) with (cos (PI * f / sr) * warped sr g / sin (PI * f / sr)); [reflexivity|].
      unfold warped at 3, tan. field. split; lra.
    - rewrite parts_band by assumption. cbn [fst snd]. replace (2 * (PI * f / sr) / 2) with (PI * f / sr) by lra.
      pose proof (warped_increasing sr g1 g2 H ltac:(lra) ltac:(lra) ltac:(lra)).
      rewrite <- P_ratio by (repeat apply Rmult_integral_contrapositive_currified; lra).
      match goal with |- 1 / (1 + ?a ^ _) = 1 / (1 + ?b ^ _) => replace b with a; [reflexivity|] end.
      unfold warped at 5 8, tan. field. repeat split; lra. }
  rewrite Q. reflexivity.
Qed.

Lemma width_value sr x freq f1 f2 type N z : valid sr x -> asked x freq f1 f2 type -> (0 < N)%nat ->
  filter_width sr freq f1 f2 N z type = Ok (sr / 1024 * rs (q sr x N z) 512).
Proof.
  intros V A L. pose proof (sr_pos _ _ V) as H. pose proof PI_RGT_0.
  assert (half : forall f, 0 < f < sr / 2 -> 0 < f / (0.5 * sr) < 1).
  { intros f F. assert (0 < 0.5 * sr) by lra. split; [apply Rdiv_lt_0_compat; lra|].
    apply Rmult_lt_reg_r with (0.5 * sr); [assumption|]. unfold Rdiv. rewrite Rmult_assoc, Rinv_l by lra. lra. }
  assert (R : squared_response N (cut_of sr x) (match x with Lowpass _ => "low" | Highpass _ => "high" | Bandpass _ _ => "band" end)%string
              = Ok (map (response (kind_of x) (cut_of sr x) N) frequencies)).
  { destruct x as [f|f|g1 g2]; cbn [cut_of kind_of valid] in *; unfold squared_response; cbn [btype_of String.eqb Ascii.eqb Bool.eqb orb].
    - pose proof (half f V). destruct (Rlt_dec 0 _); [|lra]. destruct (Rlt_dec _ 1); [reflexivity|lra].
    - pose proof (half f V). destruct (Rlt_dec 0 _); [|lra]. destruct (Rlt_dec _ 1); [reflexivity|lra].
    - pose proof (half g1 ltac:(lra)). pose proof (half g2 ltac:(lra)).
      assert (g1 / (0.5 * sr) < g2 / (0.5 * sr)) by (apply Rmult_lt_compat_r; [apply Rinv_0_lt_compat; lra|lra]).
      destruct (Rlt_dec 0 _); [|lra]. destruct (Rlt_dec _ 1); [|lra]. destruct (Rlt_dec _ _); [reflexivity|lra]. }
  assert (F : exists fs, (if String.eqb type "bandpass" then
             match f1, f2 with
             | Some f1, Some f2 => Ok (Two (f1 / (0.5 * sr)) (f2 / (0.5 * sr)))
             | _, _ => Err TypeError
             end
           else match freq with Some f => Ok (One (f / (0.5 * sr))) | None => Err TypeError end) = Ok fs /\
           fs = cut_of sr x /\ rstrip (lstrip type) = (match x with Lowpass _ => "low" | Highpass _ => "high" | Bandpass _ _ => "band" end)%string).
  { destruct A; eexists; (split; [reflexivity|split; reflexivity]). }
  destruct F as (fs & F1 & -> & F3). unfold filter_width. rewrite F1. cbn [bind]. rewrite F3, R. cbn [bind].
  f_equal. f_equal.
  - change (nth 1 frequencies 0) with (PI * INR 1 / 512). change (nth 0 frequencies 0) with (PI * INR 0 / 512). cbn [INR]. field. lra.
  - rewrite <- rs_list. unfold frequencies. rewrite !map_map. f_equal. apply map_ext. intros k. unfold q, response, P.
    destruct N as [|N]; [lia|]. destruct (parts (kind_of x) (cut_of sr x) (PI * INR k / 512)). cbn [fst snd]. now destruct z.
Qed.

Lemma width_integral sr x freq f1 f2 type N z : valid sr x -> asked x freq f1 f2 type -> (0 < N)%nat ->
  exists v I, filter_width sr freq f1 f2 N z type = Ok v /\
    is_RInt (gain sr x N z) 0 (sr / 2) I /\ Rabs (v - I) <= sr / 1024.
Proof.
  intros V A L. pose proof (sr_pos _ _ V) as H. exists (sr / 1024 * rs (q sr x N z) 512), (sr / 1024 * RInt (q sr x N z) 0 512).
  split; [now apply width_value|]. split.
  - assert (E : is_RInt (q sr x N z) (1024 / sr * 0 + 0) (1024 / sr * (sr / 2) + 0) (RInt (q sr x N z) 0 512)).
    { replace (1024 / sr * 0 + 0) with 0 by (field; lra). replace (1024 / sr * (sr / 2) + 0) with 512 by (field; lra).
      apply (@RInt_correct R_CompleteNormedModule). now apply q_int. }
    apply is_RInt_comp_lin in E. apply (is_RInt_scal _ _ _ (sr / 1024)) in E. revert E. apply is_RInt_ext.
    intros f. rewrite Rmin_left, Rmax_right by lra. intros F. rewrite <- q_gain by assumption. unfold scal; cbn; unfold mult; cbn.
    replace (1024 / sr * f + 0) with (1024 / sr * f) by ring.
    match goal with |- ?a = ?b => change (@eq R a b) end. field. lra.
  - replace (sr / 1024 * rs (q sr x N z) 512 - sr / 1024 * RInt (q sr x N z) 0 512)
      with (sr / 1024 * (rs (q sr x N z) 512 - RInt (q sr x N z) 0 512)) by ring.
    rewrite Rabs_mult, (Rabs_pos_eq (sr / 1024)) by lra. pose proof (q_sum_integral sr x N z V L). nra.
Qed.

(** ** bounds *)
Lemma rs_le f g n : (forall k, (k < n)%nat -> f (INR k) <= g (INR k)) -> rs f n <= rs g n.
Proof. induction n as [|n IH]; intros H; cbn [rs]; [lra|]. pose proof (H n ltac:(lia)). specialize (IH ltac:(intros; apply H; lia)). lra. Qed.

Lemma rs_const c n : rs (fun _ => c) n = INR n * c.
Proof. induction n as [|n IH]; [cbn; ring|]. cbn [rs]. rewrite IH, S_INR. ring. Qed.

Lemma k512 k : (k < 512)%nat -> 0 <= INR k <= 512.
Proof. intros L. split; [apply pos_INR|]. rewrite <- n512. apply le_INR. lia. Qed.

Lemma pa_inner sr x w : valid sr x -> 0 < w < PI -> pa sr x w <> 0.
Proof.
  intros V W. pose proof (sr_pos _ _ V) as H. assert (S : 0 < sin (w / 2)) by (apply sin_gt_0; lra). assert (K : 0 < cos (w / 2)) by (apply cos_gt_0; lra).
  destruct x as [f|f|f1 f2]; cbn [kind_of cut_of]; cbn [valid] in V.
  - rewrite parts_low by assumption. pose proof (warped_pos sr f H V). cbn [fst]. apply Rmult_integral_contrapositive_currified; lra.
  - rewrite parts_high by assumption. cbn [fst]. lra.
  - rewrite parts_band by assumption. cbn [fst]. pose proof (warped_increasing sr f1 f2 H ltac:(lra) ltac:(lra) ltac:(lra)).
    repeat apply Rmult_integral_contrapositive_currified; lra.
Qed.

Lemma width_bounds sr x freq f1 f2 type N z : valid sr x -> asked x freq f1 f2 type -> (0 < N)%nat ->
  exists v, filter_width sr freq f1 f2 N z type = Ok v /\ 0 < v <= sr / 2.
Proof.
  intros V A L. pose proof (sr_pos _ _ V) as H. eexists. split; [now apply width_value with (x := x)|]. split.
  - apply Rmult_lt_0_compat; [lra|].
    assert (G : forall n, (n <= 512)%nat -> 0 <= rs (q sr x N z) n).
    { induction n as [|n IH]; intros Ln; cbn [rs]; [lra|]. specialize (IH ltac:(lia)). pose proof (q_range sr x N z (INR n) V L (k512 n ltac:(lia))). lra. }
    assert (E : rs (q sr x N z) 512 = rs (q sr x N z) 511 + q sr x N z (INR 511)) by reflexivity. rewrite E.
    pose proof (G 511%nat ltac:(lia)). assert (0 < q sr x N z (INR 511)); [|lra]. unfold q. apply pow_lt, P_pos; [assumption|].
    apply pa_inner; [assumption|]. pose proof PI_RGT_0.
    assert (E5 : INR 511 = 511) by (rewrite INR_IZR_INZ; reflexivity). rewrite E5. lra.
  - pose proof (rs_le (q sr x N z) (fun _ => 1) 512 ltac:(intros k Lk; apply q_range; [assumption|assumption|now apply k512])) as B.
    rewrite rs_const, n512 in B. nra.
Qed.

Lemma width_zerophase sr x freq f1 f2 type N : valid sr x -> asked x freq f1 f2 type -> (0 < N)%nat ->
  exists v v2, filter_width sr freq f1 f2 N false type = Ok v /\ filter_width sr freq f1 f2 N true type = Ok v2 /\ v2 <= v.
Proof.
  intros V A L. pose proof (sr_pos _ _ V) as H. do 2 eexists. split; [now apply width_value with (x := x)|]. split; [now apply width_value with (x := x)|].
  apply Rmult_le_compat_l; [lra|]. apply rs_le. intros k Lk. pose proof (q_range sr x N false (INR k) V L (k512 k Lk)) as R0.
  unfold q in *. cbn [ex pow] in *. nra.
Qed.

(** ** steep filters *)
Lemma grid_tan sr k : 0 < sr -> (k < 512)%nat ->
  0 <= sin (PI * INR k / 512 / 2) /\ 0 < cos (PI * INR k / 512 / 2) /\
  sin (PI * INR k / 512 / 2) = warped sr (sr / 1024 * INR k) * cos (PI * INR k / 512 / 2) /\ 0 <= sr / 1024 * INR k < sr / 2.
Proof.
  intros H L. pose proof (k512 k L) as [B _]. assert (INR k < 512) by (rewrite <- n512; now apply lt_INR). pose proof PI_RGT_0.
  assert (A : 0 <= PI * INR k / 512 / 2 < PI / 2) by (split; [apply Rmult_le_pos; [apply Rmult_le_pos; [nra|lra]|lra]|nra]).
  assert (K : 0 < cos (PI * INR k / 512 / 2)) by (apply cos_gt_0; lra).
  split; [apply sin_ge_0; lra|]. split; [exact K|]. split.
  - unfold warped, tan. replace (PI * (sr / 1024 * INR k) / sr) with (PI * INR k / 512 / 2) by (field; lra). field. lra.
  - split; [apply Rmult_le_pos; lra|nra].
Qed.

Lemma grid_inside sr x k : valid sr x -> (k < 512)%nat -> lower x < sr / 1024 * INR k < upper sr x ->
  Rabs (pd sr x (PI * INR k / 512)) < Rabs (pa sr x (PI * INR k / 512)).
Proof.
  intros V L B. pose proof (sr_pos _ _ V) as H. destruct (grid_tan sr k H L) as (S & K & E & F).
  set (g := sr / 1024 * INR k) in *.
  destruct x as [f|f|f1 f2]; cbn [kind_of cut_of lower upper] in *; cbn [valid] in V.
  - rewrite parts_low by assumption. cbn [fst snd]. rewrite E. pose proof (warped_increasing sr g f H ltac:(lra) ltac:(lra) ltac:(lra)).
    assert (0 <= warped sr g) by (rewrite <- (warped_0 sr); left; apply warped_increasing; lra).
    rewrite !Rabs_pos_eq; [nra|mp|mp].
  - rewrite parts_high by assumption. cbn [fst snd]. rewrite E. pose proof (warped_increasing sr f g H ltac:(lra) ltac:(lra) ltac:(lra)).
    pose proof (warped_pos sr f H V). rewrite !Rabs_pos_eq; [nra|mp|mp].
  - rewrite parts_band by assumption. cbn [fst snd]. rewrite E.
    pose proof (warped_increasing sr f1 g H ltac:(lra) ltac:(lra) ltac:(lra)). pose proof (warped_increasing sr g f2 H ltac:(lra) ltac:(lra) ltac:(lra)).
    pose proof (warped_pos sr f1 H ltac:(lra)). set (k0 := cos (PI * INR k / 512 / 2)) in *.
    set (o1 := warped sr f1) in *. set (o2 := warped sr f2) in *. set (t := warped sr g) in *.
    replace ((t * k0) ^ 2 - o1 * o2 * k0 ^ 2) with ((t ^ 2 - o1 * o2) * k0 ^ 2) by ring.
    replace (t * k0 * k0 * (o2 - o1)) with (t * (o2 - o1) * k0 ^ 2) by ring.
    rewrite !Rabs_mult. apply Rmult_lt_compat_r; [rewrite Rabs_pos_eq by apply pow2_ge_0; apply pow_lt; exact K|].
    rewrite <- Rabs_mult. rewrite (Rabs_pos_eq (t * (o2 - o1))) by (mp). apply Rabs_def1; nra.
Qed.

Lemma grid_outside sr x k : valid sr x -> (k < 512)%nat -> sr / 1024 * INR k < lower x \/ upper sr x < sr / 1024 * INR k ->
  Rabs (pa sr x (PI * INR k / 512)) < Rabs (pd sr x (PI * INR k / 512)).
Proof.
  intros V L B. pose proof (sr_pos _ _ V) as H. destruct (grid_tan sr k H L) as (S & K & E & F).
  set (g := sr / 1024 * INR k) in *.
  assert (G0 : 0 <= warped sr g).
  { destruct F as [[F0|F0] F1]; [left; apply warped_pos; lra|]. rewrite <- F0, warped_0. lra. }
  destruct x as [f|f|f1 f2]; cbn [kind_of cut_of lower upper] in *; cbn [valid] in V.
  - rewrite parts_low by assumption. cbn [fst snd]. rewrite E. destruct B as [B|B]; [lra|].
    pose proof (warped_increasing sr f g H ltac:(lra) ltac:(lra) ltac:(lra)). pose proof (warped_pos sr f H V).
    rewrite !Rabs_pos_eq; [nra|mp|mp].
  - rewrite parts_high by assumption. cbn [fst snd]. rewrite E. destruct B as [B|B]; [|lra].
    pose proof (warped_increasing sr g f H ltac:(lra) ltac:(lra) ltac:(lra)).
    rewrite !Rabs_pos_eq; [nra|mp|mp].
  - rewrite parts_band by assumption. cbn [fst snd]. rewrite E.
    pose proof (warped_increasing sr f1 f2 H ltac:(lra) ltac:(lra) ltac:(lra)) as O.
    pose proof (warped_pos sr f1 H ltac:(lra)). set (k0 := cos (PI * INR k / 512 / 2)) in *.
    assert (T : warped sr g < warped sr f1 \/ warped sr f2 < warped sr g).
    { destruct B as [B|B]; [left|right]; apply warped_increasing; lra. }
    set (o1 := warped sr f1) in *. set (o2 := warped sr f2) in *. set (t := warped sr g) in *.
    replace ((t * k0) ^ 2 - o1 * o2 * k0 ^ 2) with ((t ^ 2 - o1 * o2) * k0 ^ 2) by ring.
    replace (t * k0 * k0 * (o2 - o1)) with (t * (o2 - o1) * k0 ^ 2) by ring.
    rewrite !Rabs_mult. apply Rmult_lt_compat_r; [rewrite Rabs_pos_eq by apply pow2_ge_0; apply pow_lt; exact K|].
    rewrite <- Rabs_mult. rewrite (Rabs_pos_eq (t * (o2 - o1))) by (mp). destruct T as [T|T].
    + apply Rlt_le_trans with (- (t ^ 2 - o1 * o2)); [nra|]. rewrite <- Rabs_Ropp. apply Rle_abs.
    + apply Rlt_le_trans with (t ^ 2 - o1 * o2); [nra|]. apply Rle_abs.
Qed.

(** the limit at one frequency *)
Definition limit (sr : R) (x : filter) (z : bool) (u : R) : R :=
  let a := Rabs (pa sr x (PI * u / 512)) in
  let d := Rabs (pd sr x (PI * u / 512)) in
  (if Rlt_dec d a then 1 else if Rlt_dec a d then 0 else 1 / 2) ^ ex z.

Lemma limit_range sr x z u : 0 <= limit sr x z u <= 1.
Proof. unfold limit. destruct (Rlt_dec _ _); [|destruct (Rlt_dec _ _)]; destruct z; cbn; lra. Qed.

Lemma q_limit sr x z k : valid sr x -> (k < 512)%nat -> is_lim_seq (fun N => q sr x (S N) z (INR k)) (limit sr x z (INR k)).
Proof.
  intros V L. assert (E : forall l, l = (if Rlt_dec (Rabs (pd sr x (PI * INR k / 512))) (Rabs (pa sr x (PI * INR k / 512))) then 1
     else if Rlt_dec (Rabs (pa sr x (PI * INR k / 512))) (Rabs (pd sr x (PI * INR k / 512))) then 0 else 1 / 2) ->
     is_lim_seq (fun N => P (S N) (pa sr x (PI * INR k / 512)) (pd sr x (PI * INR k / 512))) (Finite l)).
  { intros l ->. destruct (Rlt_dec _ _) as [A|A]; [now apply P_limit_pass|]. destruct (Rlt_dec _ _) as [B|B]; [now apply P_limit_stop|].
    assert (EQ : Rabs (pa sr x (PI * INR k / 512)) = Rabs (pd sr x (PI * INR k / 512))) by lra. apply P_limit_edge; [exact EQ|].
    intros Z. rewrite Z, Rabs_R0 in EQ. destruct (parts_nonzero sr x (PI * INR k / 512) V (samples_range _ (k512 k L))) as [C|C]; [contradiction|].
    apply Rabs_no_R0 in C. lra. }
  specialize (E _ eq_refl). unfold q, limit. destruct z; cbn [ex pow].
  - apply (is_lim_seq_mult' _ _ _ _ E). rewrite Rmult_1_r. apply is_lim_seq_ext with (2 := E). intros n. ring.
  - rewrite Rmult_1_r. apply is_lim_seq_ext with (2 := E). intros n. ring.
Qed.

Lemma rs_limit (f : nat -> R -> R) (g : R -> R) n : (forall k, (k < n)%nat -> is_lim_seq (fun N => f N (INR k)) (g (INR k))) ->
  is_lim_seq (fun N => rs (f N) n) (rs g n).
Proof.
  induction n as [|n IH]; intros H; cbn [rs]; [apply is_lim_seq_const|].
  apply is_lim_seq_plus'; [apply IH; intros; apply H; lia|apply H; lia].
Qed.

Lemma band_order sr x : valid sr x -> 0 <= lower x <= upper sr x /\ upper sr x <= sr / 2.
Proof. intros V. destruct x; cbn in *; lra. Qed.

Lemma width_steep sr x freq f1 f2 type z : valid sr x -> asked x freq f1 f2 type ->
  exists v l, (forall N, filter_width sr freq f1 f2 (S N) z type = Ok (v N)) /\ is_lim_seq v (Finite l) /\
    Rabs (l - (upper sr x - lower x)) <= sr / 1024.
Proof.
  intros V A. pose proof (sr_pos _ _ V) as H. exists (fun N => sr / 1024 * rs (q sr x (S N) z) 512), (sr / 1024 * rs (limit sr x z) 512).
  split; [intros N; apply width_value with (x := x); auto; lia|]. split.
  - apply is_lim_seq_mult'; [apply is_lim_seq_const|]. apply rs_limit. intros k L. now apply q_limit.
  - pose proof (band_order sr x V) as [O M].
    assert (C : Rabs (rs (limit sr x z) 512 - (1024 / sr * upper sr x - 1024 / sr * lower x)) <= 1).
    { assert (S0 : 0 < 1024 / sr) by (apply Rdiv_lt_0_compat; lra).
      assert (E : forall k, 1024 / sr * (sr / 1024 * INR k) = INR k) by (intros k; field; lra).
      apply count_all.
      - intros. apply limit_range.
      - intros k L [B1 B2]. rewrite <- (E k) in B1, B2. apply Rmult_lt_reg_l in B1, B2; try assumption.
        pose proof (grid_inside sr x k V L (conj B1 B2)). unfold limit. destruct (Rlt_dec _ _); [|lra]. destruct z; cbn; ring.
      - intros k L B. rewrite <- (E k) in B.
        assert (B2 : sr / 1024 * INR k < lower x \/ upper sr x < sr / 1024 * INR k) by (destruct B as [B|B]; apply Rmult_lt_reg_l in B; auto).
        pose proof (grid_outside sr x k V L B2). unfold limit. destruct (Rlt_dec _ _); [lra|]. destruct (Rlt_dec _ _); [|lra]. destruct z; cbn; ring.
      - split; [apply Rmult_le_pos; lra|]. apply Rmult_le_compat_l; lra.
      - rewrite n512. apply Rle_trans with (1024 / sr * (sr / 2)); [apply Rmult_le_compat_l; lra|]. right. field. lra. }
    replace (sr / 1024 * rs (limit sr x z) 512 - (upper sr x - lower x))
      with (sr / 1024 * (rs (limit sr x z) 512 - (1024 / sr * upper sr x - 1024 / sr * lower x))) by (field; lra).
    rewrite Rabs_mult, (Rabs_pos_eq (sr / 1024)) by lra. nra.
Qed.

(** ** units and errors *)
Lemma width_scaled k sr freq f1 f2 N z type : 0 < k -> 0 < sr ->
  filter_width (k * sr) (scaled k freq) (scaled k f1) (scaled k f2) N z type =
  match filter_width sr freq f1 f2 N z type with Ok v => Ok (k * v) | Err e => Err e end.
Proof.
  intros Hk H. assert (E : forall f, k * f / (0.5 * (k * sr)) = f / (0.5 * sr)).
  { intros f. replace 0.5 with (1 / 2) by lra. field. split; lra. }
  assert (M : forall fs : res cutoff, (do c <- fs; do h2 <- squared_response N c (rstrip (lstrip type));
      (let df := (nth 1 frequencies 0 - nth 0 frequencies 0) / 2 / PI * (k * sr) in
       Ok (df * fold_right Rplus 0 (map (fun x => x ^ (if z then 2 else 1)) h2)))) =
    match (do c <- fs; do h2 <- squared_response N c (rstrip (lstrip type));
      (let df := (nth 1 frequencies 0 - nth 0 frequencies 0) / 2 / PI * sr in
       Ok (df * fold_right Rplus 0 (map (fun x => x ^ (if z then 2 else 1)) h2)))) with Ok v => Ok (k * v) | Err e => Err e end).
  { intros [c|e]; cbn [bind]; [|reflexivity]. destruct (squared_response N c (rstrip (lstrip type))); cbn [bind]; [|reflexivity].
    cbv zeta. f_equal. ring. }
  unfold filter_width. rewrite <- M. f_equal.
  destruct (String.eqb type "bandpass"); [destruct f1, f2|destruct freq]; cbn [scaled]; rewrite ?E; reflexivity.
Qed.

Lemma width_invalid sr x freq f1 f2 type N z : 0 < sr -> asked x freq f1 f2 type -> ~ valid sr x ->
  filter_width sr freq f1 f2 N z type = Err ValueError.
Proof.
  intros H A V.
  assert (half : forall f, 0 < f / (0.5 * sr) -> f / (0.5 * sr) < 1 -> 0 < f < sr / 2).
  { intros f F1 F2. assert (P0 : 0 < 0.5 * sr) by lra. replace f with (f / (0.5 * sr) * (0.5 * sr)) by (replace 0.5 with (1 / 2) by lra; field; lra).
    split; [now apply Rmult_lt_0_compat|]. nra. }
  destruct A as [f a b|f a b|g1 g2 a]; unfold filter_width; cbn [String.eqb Ascii.eqb Bool.eqb bind rstrip lstrip pas orb];
    unfold squared_response; cbn [btype_of String.eqb Ascii.eqb Bool.eqb orb valid] in *.
  - destruct (Rlt_dec 0 _) as [A1|]; [|reflexivity]. destruct (Rlt_dec _ 1) as [A2|]; [|reflexivity]. now destruct V; apply half.
  - destruct (Rlt_dec 0 _) as [A1|]; [|reflexivity]. destruct (Rlt_dec _ 1) as [A2|]; [|reflexivity]. now destruct V; apply half.
  - destruct (Rlt_dec 0 _) as [A1|]; [|reflexivity]. destruct (Rlt_dec _ 1) as [A2|]; [|reflexivity].
    destruct (Rlt_dec _ _) as [A3|]; [|reflexivity]. destruct V.
    assert (P0 : 0 < 0.5 * sr) by lra. assert (G : g1 < g2).
    { apply Rmult_lt_reg_r with (/ (0.5 * sr)); [now apply Rinv_0_lt_compat|]. exact A3. }
    assert (Q1 : 0 < g1 < sr / 2).
    { apply half; [exact A1|]. lra. }
    assert (Q2 : 0 < g2 < sr / 2) by (apply half; lra). lra.
Qed.

Lemma width_missing sr freq f1 f2 type N z :
  (type = "bandpass"%string /\ (f1 = None \/ f2 = None)) \/ (type <> "bandpass"%string /\ freq = None) ->
  filter_width sr freq f1 f2 N z type = Err TypeError.
Proof.
  intros [[-> [->| ->]]|[T ->]]; unfold filter_width.
  - reflexivity.
  - cbn [String.eqb Ascii.eqb Bool.eqb]. now destruct f1.
  - apply String.eqb_neq in T. now rewrite T.
Qed.
