(** The Gaussian integral. *)
From Coq Require Import Reals Lra Lia.
From Coquelicot Require Import Coquelicot.
Open Scope R_scope.

Definition gauss (u : R) : R := exp (- (u ^ 2)).
Definition Gi (x : R) : R := RInt gauss 0 x.
Definition kern (x s : R) : R := exp (- (x ^ 2 * (1 + s ^ 2))) / (1 + s ^ 2).
Definition Ki (x : R) : R := RInt (kern x) 0 1.

Lemma one_sq s : 0 < 1 + s ^ 2.
Proof. pose proof (pow2_ge_0 s). lra. Qed.

Lemma gauss_cont u : continuous gauss u.
Proof. apply (@ex_derive_continuous R_AbsRing R_NormedModule). unfold gauss. auto_derive. trivial. Qed.

Lemma gauss_int a b : ex_RInt gauss a b.
Proof. apply (@ex_RInt_continuous R_CompleteNormedModule). intros z _. apply gauss_cont. Qed.

Lemma Gi_derive x : is_derive Gi x (gauss x).
Proof.
  unfold Gi. apply (@is_derive_RInt R_CompleteNormedModule gauss (fun y => RInt gauss 0 y) 0 x).
  - apply filter_forall. intros y. apply (@RInt_correct R_CompleteNormedModule), gauss_int.
  - apply gauss_cont.
Qed.

Lemma kern_cont x s : continuous (kern x) s.
Proof.
  apply (@ex_derive_continuous R_AbsRing R_NormedModule). unfold kern. auto_derive. pose proof (one_sq s). cbn in *. lra.
Qed.

Lemma kern_int x : ex_RInt (kern x) 0 1.
Proof. apply (@ex_RInt_continuous R_CompleteNormedModule). intros z _. apply kern_cont. Qed.

Lemma kern_derive x s : is_derive (fun u => kern u s) x (- (2 * x * exp (- (x ^ 2 * (1 + s ^ 2))))).
Proof.
  unfold kern. pose proof (one_sq s). auto_derive; [cbn in *; lra|].
  replace (x * (x * 1)) with (x ^ 2) by ring. replace (s * (s * 1)) with (s ^ 2) by ring. field. lra.
Qed.

Lemma kern_2d x s : continuity_2d_pt (fun u v => Derive (fun z => kern z v) u) x s.
Proof.
  apply (continuity_2d_pt_ext (fun u v => - (2 * u * exp (- (u ^ 2 * (1 + v ^ 2)))))).
  { intros u v. symmetry. apply is_derive_unique, kern_derive. }
  apply continuity_2d_pt_opp. apply continuity_2d_pt_mult.
  - apply continuity_2d_pt_mult; [apply continuity_2d_pt_const|apply continuity_2d_pt_id1].
  - apply (continuity_1d_2d_pt_comp exp). { apply derivable_continuous_pt, derivable_pt_exp. }
    apply continuity_2d_pt_opp. cbn. apply continuity_2d_pt_mult.
    + apply continuity_2d_pt_mult; [apply continuity_2d_pt_id1|]. apply continuity_2d_pt_mult; [apply continuity_2d_pt_id1|apply continuity_2d_pt_const].
    + apply continuity_2d_pt_plus; [apply continuity_2d_pt_const|].
      apply continuity_2d_pt_mult; [apply continuity_2d_pt_id2|]. apply continuity_2d_pt_mult; [apply continuity_2d_pt_id2|apply continuity_2d_pt_const].
Qed.

Lemma Ki_derive x : is_derive Ki x (RInt (fun s => Derive (fun u => kern u s) x) 0 1).
Proof.
  unfold Ki. apply (is_derive_RInt_param (fun u s => kern u s)).
  - apply filter_forall. intros y s _. eexists. apply kern_derive.
  - intros s _. apply kern_2d.
  - apply filter_forall. intros y. apply kern_int.
Qed.

Lemma Ki_value x : RInt (fun s => Derive (fun u => kern u s) x) 0 1 = - (2 * gauss x * Gi x).
Proof.
  assert (E : forall s, Derive (fun u => kern u s) x = scal (- (2 * gauss x)) (scal x (gauss (x * s + 0)))).
  { intros s. transitivity (- (2 * x * exp (- (x ^ 2 * (1 + s ^ 2))))); [apply is_derive_unique, kern_derive|]. unfold gauss, scal. cbn -[pow]. unfold mult. cbn -[pow].
    rewrite Rplus_0_r. replace (- (x ^ 2 * (1 + s ^ 2))) with (- x ^ 2 + - (x * s) ^ 2) by ring. rewrite exp_plus. ring. }
  rewrite (RInt_ext _ (fun s => scal (- (2 * gauss x)) (scal x (gauss (x * s + 0))))) by (intros; apply E).
  rewrite (@RInt_scal R_CompleteNormedModule).
  - rewrite (@RInt_comp_lin R_CompleteNormedModule) by apply gauss_int.
    replace (x * 0 + 0) with 0 by ring. replace (x * 1 + 0) with x by ring. unfold scal; cbn -[pow]; unfold mult; cbn -[pow]. unfold Gi. ring.
  - apply (@ex_RInt_comp_lin R_NormedModule). apply gauss_int.
Qed.

Lemma Ki_0 : Ki 0 = PI / 4.
Proof.
  unfold Ki. assert (D : is_RInt (kern 0) 0 1 (minus (atan 1) (atan 0))).
  { apply (is_RInt_ext (fun s => / (1 + s ^ 2))).
    { intros s _. unfold kern. replace (- (0 ^ 2 * (1 + s ^ 2))) with 0 by ring. rewrite exp_0. unfold Rdiv. now rewrite Rmult_1_l. }
    apply (@is_RInt_derive R_CompleteNormedModule atan).
    - intros s _. pose proof (one_sq s). auto_derive; [trivial|]. unfold Rsqr. field. cbn in *; lra.
    - intros s _. apply (@ex_derive_continuous R_AbsRing R_NormedModule). auto_derive. pose proof (one_sq s). cbn in *. lra. }
  rewrite (is_RInt_unique _ _ _ _ D), atan_1, atan_0. unfold minus, plus, opp. cbn. lra.
Qed.

Lemma gauss_identity x : Gi x ^ 2 + Ki x = PI / 4.
Proof.
  set (F := fun x => Gi x ^ 2 + Ki x).
  assert (D : forall x, is_derive F x 0).
  { intros y. unfold F. replace 0 with (plus (INR 2 * gauss y * Gi y ^ pred 2) (- (2 * gauss y * Gi y))).
    2:{ unfold plus. cbn. ring. }
    apply (@is_derive_plus R_AbsRing R_NormedModule).
    - apply is_derive_pow, Gi_derive.
    - rewrite <- Ki_value. apply Ki_derive. }
  assert (C : F x = F 0).
  { destruct (MVT_gen F 0 x (fun _ => 0)) as (z & _ & H); [intros; apply D| |lra].
    intros y _. apply continuity_pt_filterlim. apply (@ex_derive_continuous R_AbsRing R_NormedModule). eexists. apply D. }
  change (F x = PI / 4). rewrite C. unfold F. rewrite Ki_0. unfold Gi. rewrite RInt_point. unfold zero. cbn. ring.
Qed.

(** bounds of the second integral *)
Lemma RInt_atan k : RInt (fun s => scal k (kern 0 s)) 0 1 = k * (PI / 4).
Proof. rewrite (@RInt_scal R_CompleteNormedModule) by apply kern_int. fold (Ki 0). now rewrite Ki_0. Qed.

Lemma Ki_bounds x : exp (- (2 * x ^ 2)) * (PI / 4) <= Ki x <= exp (- x ^ 2) * (PI / 4).
Proof.
  assert (K : forall s, kern 0 s = / (1 + s ^ 2)).
  { intros s. unfold kern. replace (- (0 ^ 2 * (1 + s ^ 2))) with 0 by ring. rewrite exp_0. unfold Rdiv. now rewrite Rmult_1_l. }
  assert (I : forall k, ex_RInt (fun s => scal k (kern 0 s)) 0 1) by (intros k; apply (@ex_RInt_scal R_NormedModule), kern_int).
  rewrite <- !RInt_atan. split.
  - apply RInt_le; [lra|apply I|apply kern_int|]. intros s [S0 S1]. unfold scal; cbn -[pow kern]; unfold mult; cbn -[pow kern]. rewrite K.
    unfold kern, Rdiv. apply Rmult_le_compat_r; [left; apply Rinv_0_lt_compat, one_sq|].
    destruct (Rle_lt_or_eq_dec (- (2 * x ^ 2)) (- (x ^ 2 * (1 + s ^ 2)))) as [L| ->]; [|left; now apply exp_increasing|right; reflexivity].
    pose proof (pow2_ge_0 x). assert (s ^ 2 <= 1) by nra. nra.
  - apply RInt_le; [lra|apply kern_int|apply I|]. intros s [S0 S1]. unfold scal; cbn -[pow kern]; unfold mult; cbn -[pow kern]. rewrite K.
    unfold kern, Rdiv. apply Rmult_le_compat_r; [left; apply Rinv_0_lt_compat, one_sq|].
    destruct (Rle_lt_or_eq_dec (- (x ^ 2 * (1 + s ^ 2))) (- x ^ 2)) as [L| ->]; [|left; now apply exp_increasing|right; reflexivity].
    pose proof (pow2_ge_0 x). pose proof (pow2_ge_0 s). nra.
Qed.

(** ** the error function *)
Definition erf (x : R) : R := 2 / sqrt PI * Gi x.

Lemma erf_square x : 1 - exp (- x ^ 2) <= erf x ^ 2 <= 1 - exp (- (2 * x ^ 2)).
Proof.
  pose proof PI_RGT_0 as P. pose proof (sqrt_lt_R0 _ P) as S.
  assert (E : erf x ^ 2 = 1 - 4 / PI * Ki x).
  { unfold erf. replace ((2 / sqrt PI * Gi x) ^ 2) with (4 / (sqrt PI * sqrt PI) * Gi x ^ 2) by (field; lra).
    rewrite sqrt_sqrt by lra. pose proof (gauss_identity x) as G. replace (Gi x ^ 2) with (PI / 4 - Ki x) by lra. field. lra. }
  rewrite E. destruct (Ki_bounds x) as [A B].
  assert (Q : forall k, 4 / PI * (k * (PI / 4)) = k) by (intros k; field; lra).
  apply (Rmult_le_compat_l (4 / PI)) in A, B; try (left; apply Rdiv_lt_0_compat; lra). rewrite Q in A, B. lra.
Qed.

Lemma Gi_nonneg x : 0 <= x -> 0 <= Gi x.
Proof.
  intros H. unfold Gi. assert (Z : RInt (fun _ => 0) 0 x = 0).
  { rewrite (@RInt_const R_CompleteNormedModule). unfold scal. cbn. unfold mult. cbn. ring. }
  rewrite <- Z at 1. apply RInt_le; [exact H|apply (@ex_RInt_const R_NormedModule)|apply gauss_int|]. intros. left. apply exp_pos.
Qed.

Lemma erf_bounds x : 0 <= x -> 1 - exp (- x ^ 2) <= erf x < 1.
Proof.
  intros H. destruct (erf_square x) as [A B]. pose proof (exp_pos (- x ^ 2)). pose proof (exp_pos (- (2 * x ^ 2))).
  pose proof PI_RGT_0 as P. pose proof (sqrt_lt_R0 _ P) as S.
  assert (N : 0 <= erf x). { unfold erf. apply Rmult_le_pos; [left; apply Rdiv_lt_0_compat; lra|now apply Gi_nonneg]. }
  assert (U : erf x < 1) by nra. split; [|exact U]. nra.
Qed.

(** second moment *)
Lemma gauss_second x : is_RInt (fun u => u ^ 2 * gauss u) 0 x (Gi x / 2 - x * gauss x / 2).
Proof.
  replace (Gi x / 2 - x * gauss x / 2) with (minus ((fun u => Gi u / 2 - u * gauss u / 2) x) ((fun u => Gi u / 2 - u * gauss u / 2) 0)).
  2:{ unfold Gi at 2. rewrite RInt_point. unfold zero, minus, plus, opp. cbn -[gauss Gi]. lra. }
  apply (@is_RInt_derive R_CompleteNormedModule (fun u => Gi u / 2 - u * gauss u / 2)).
  - intros u _.
    replace (u ^ 2 * gauss u) with (minus (scal (/ 2) (gauss u)) ((gauss u - 2 * u ^ 2 * gauss u) / 2)).
    2:{ unfold minus, plus, opp, scal. cbn -[gauss]. unfold mult. cbn -[gauss]. field. }
    apply (@is_derive_minus R_AbsRing R_NormedModule).
    + apply (is_derive_ext (fun u => scal (/ 2) (Gi u))). { intros y. unfold scal. cbn. unfold mult. cbn. field. }
      apply (is_derive_scal Gi), Gi_derive.
    + unfold gauss. auto_derive; [trivial|]. cbn. field.
  - intros u _. apply (@ex_derive_continuous R_AbsRing R_NormedModule). unfold gauss. auto_derive. trivial.
Qed.
