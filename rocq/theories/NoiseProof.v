(** C136: least squares with errors, and the right hand side. *)
From Coq Require Import String List Bool Reals Lra Lia ZArith Arith.
From Verif Require Import Base Pyf PyfOps StatModel StatProof FbModel FbProof3 SiteProof LsqfbModel LsqfbSpec LsqfbProof LsqfbProof2 LsqfbProof3 LsqfbProof4 LsqfbProof5 GainSpec GainProof NoiseSpec.
Import ListNotations.
Open Scope string_scope.
Open Scope list_scope.
Open Scope R_scope.

Lemma abs_both x e : Rabs x <= e -> - e <= x <= e.
Proof. intros H. unfold Rabs in H. destruct (Rcase_abs x); lra. Qed.

Lemma sse_line rows : forall b ws x y l, List.length x = List.length y -> List.length b = List.length rows ->
  sse rows b ws (vlin (1 - l) x l y) =
  (1 - l) * sse rows b ws x + l * sse rows b ws y - l * (1 - l) * sse rows (map (fun r => dotr r x) rows) ws y.
Proof.
  induction rows as [|r rows IH]; intros [|c b] [|w ws] x y l L LB; cbn [sse map List.length] in *; try discriminate; try lra.
  rewrite dotr_vlin, IH by (try exact L; lia). ring.
Qed.

(** the distance from the minimiser *)
Lemma min_distance rows b ws x y n :
  Forall (fun w => 0 < w) ws -> List.length b = List.length rows -> List.length x = n -> List.length y = n ->
  (forall z, List.length z = n -> sse rows b ws x <= sse rows b ws z) ->
  sse rows (map (fun r => dotr r x) rows) ws y <= sse rows b ws y.
Proof.
  intros WP LB LX LY M. set (Q := sse rows (map (fun r => dotr r x) rows) ws y).
  pose proof (sse_nonneg rows b ws x WP) as X0.
  assert (Q0 : 0 <= Q) by now apply sse_nonneg.
  assert (K : forall l, 0 < l < 1 -> (1 - l) * Q <= sse rows b ws y - sse rows b ws x).
  { intros l L. pose proof (M (vlin (1 - l) x l y) (vlin_length _ _ _ _ _ LX LY)) as H.
    rewrite sse_line in H by congruence. fold Q in H. apply (Rmult_le_reg_l l); [lra|]. nra. }
  destruct (Rle_dec Q (sse rows b ws y - sse rows b ws x)) as [|N]; [lra|].
  set (G := sse rows b ws y - sse rows b ws x) in *.
  pose proof (M y LY) as MY. assert (G0 : 0 <= G) by (unfold G; lra).
  assert (QP : 0 < Q) by lra.
  set (l := (Q - G) / (2 * Q)).
  assert (LQ : l * Q = (Q - G) / 2) by (unfold l; field; lra).
  assert (L0 : 0 < l) by (unfold l; apply Rdiv_lt_0_compat; lra).
  assert (L1 : l < 1) by (apply (Rmult_lt_reg_r Q); [lra|]; rewrite LQ; lra).
  specialize (K l (conj L0 L1)). lra.
Qed.

Lemma sse_bound eps rows : forall b ws x, Forall (fun w => 0 < w) ws ->
  Forall2 (fun r y => Rabs (dotr r x - y) <= eps) rows b -> List.length ws = List.length rows ->
  sse rows b ws x <= eps * eps * fold_right Rplus 0 ws.
Proof.
  induction rows as [|r rows IH]; intros b [|w ws] x WP F L; inversion F as [|? y ? b' E F']; subst; cbn [sse fold_right List.length] in *; try discriminate; try lra.
  inversion WP as [|? ? W0 W1]; subst. specialize (IH b' ws x W1 F' ltac:(lia)).
  assert (Q : (dotr r x - y) * (dotr r x - y) <= eps * eps).
  { apply abs_both in E. nra. }
  nra.
Qed.

Lemma sse_terms rows : forall b ws x, Forall (fun w => 0 < w) ws -> List.length b = List.length rows -> List.length ws = List.length rows ->
  Forall2 (fun ry w => w * (dotr (fst ry) x - snd ry) * (dotr (fst ry) x - snd ry) <= sse rows b ws x) (combine rows b) ws.
Proof.
  induction rows as [|r rows IH]; intros [|y b] [|w ws] x WP LB LW; cbn [List.length combine] in *; try discriminate; [constructor|].
  inversion WP as [|? ? W0 W1]; subst. pose proof (sse_nonneg rows b ws x W1) as N.
  assert (T : 0 <= w * (dotr r x - y) * (dotr r x - y)) by (rewrite Rmult_assoc; apply Rmult_le_pos; [lra|apply Rle_0_sqr]).
  constructor; cbn [sse fst snd]; [lra|].
  specialize (IH b ws x W1 ltac:(lia) ltac:(lia)). refine (Forall2_impl_in _ _ _ _ _ IH). intros. lra.
Qed.

(** Two vectors which give A and B for the samples: the first is a minimiser for data with errors
    of at most eps to B, so they differ by at most d for the samples with weight 1. *)
Lemma near_targets (A B : sample -> R) rows b ws c x n eps cs ss : 0 <= eps ->
  Forall (fun w => 0 < w) ws -> List.length c = n -> List.length x = n ->
  Forall2 (fun r s => dotr r c = A s) rows (cs ++ ss) -> Forall2 (fun r s => dotr r x = B s) rows (cs ++ ss) ->
  Forall2 (fun s y => Rabs (y - B s) <= eps) (cs ++ ss) b ->
  (exists ws', ws = repeat 1 (List.length cs) ++ ws' /\ List.length ws' = List.length ss) ->
  (forall z, List.length z = n -> sse rows b ws c <= sse rows b ws z) ->
  sse rows b ws c <= eps * eps * fold_right Rplus 0 ws /\
  forall s, In s cs -> Rabs (A s - B s) <= eps * sqrt (fold_right Rplus 0 ws).
Proof.
  intros E0 WP LC LX FA FB FE (ws' & EW & LW) M.
  assert (LR : List.length rows = List.length (cs ++ ss)) by exact (Forall2_len _ _ _ FA).
  assert (LB : List.length b = List.length rows) by (rewrite LR; symmetry; exact (Forall2_len _ _ _ FE)).
  assert (LWS : List.length ws = List.length rows) by (rewrite EW, LR, !app_length, repeat_length; lia).
  assert (FN : Forall2 (fun r y => Rabs (dotr r x - y) <= eps) rows b).
  { clear - FB FE. revert b FE. induction FB as [|r s rows ss' Q FB IH]; intros b FE; inversion FE as [|? y ? b' Q' FE']; subst; constructor; [|now apply IH].
    rewrite Q, Rabs_minus_sym. exact Q'. }
  pose proof (sse_bound eps rows b ws x WP FN LWS) as SB.
  split; [exact (Rle_trans _ _ _ (M x LX) SB)|].
  pose proof (min_distance rows b ws c x n WP LB LC LX M) as MD.
  pose proof (sse_terms rows (map (fun r => dotr r c) rows) ws x WP ltac:(apply map_length) LWS) as TE.
  set (Tw := fold_right Rplus 0 ws) in *.
  assert (TE' : Forall2 (fun ry w => w * (dotr (fst ry) x - snd ry) * (dotr (fst ry) x - snd ry) <= eps * eps * Tw) (combine rows (map (fun r => dotr r c) rows)) ws).
  { refine (Forall2_impl_in _ _ _ _ _ TE). intros. lra. }
  clearbody Tw. clear TE MD SB FN M LB LWS FE LR WP.
  rewrite EW in TE'. clear EW LC LX LW. revert rows FA FB TE'.
  induction cs as [|s0 cs IH]; intros rows FA FB TE s I; [destruct I|].
  cbn [app List.length repeat] in *. inversion FA as [|r ? rows' ? QA FA']; subst. inversion FB as [|? ? ? ? QB FB']; subst.
  cbn [combine map] in TE. inversion TE as [|? ? ? ? QT TE']; subst. destruct I as [->|I]; [|exact (IH rows' FA' FB' TE' s I)].
  cbn [fst snd] in QT. rewrite QA, QB in QT.
  assert (T0 : 0 <= eps * eps * Tw) by (pose proof (Rle_0_sqr (B s - A s)) as P; unfold Rsqr in P; lra).
  rewrite <- (sqrt_square eps) by exact E0.
  destruct (Req_dec eps 0) as [Z|Z].
  - rewrite Z in *. assert (P : (B s - A s) * (B s - A s) <= 0) by lra. assert (A s - B s = 0) by nra.
    rewrite H, Rabs_R0. rewrite Rmult_0_l, sqrt_0. lra.
  - assert (TP : 0 <= Tw). { apply (Rmult_le_reg_l (eps * eps)); [nra|]. lra. }
    rewrite <- sqrt_mult by nra. rewrite <- sqrt_Rsqr_abs. apply sqrt_le_1_alt. unfold Rsqr. lra.
Qed.

(** ** the right hand side *)
Lemma up_to_log d x y : 0 < y -> up_to d x y -> 0 < x /\ Rabs (ln x - ln y) <= d.
Proof.
  intros Y [H1 H2]. assert (X : 0 < x) by (eapply Rlt_le_trans; [|exact H1]; apply Rmult_lt_0_compat; [apply exp_pos|exact Y]).
  split; [exact X|]. apply Rabs_le. split.
  - assert (ln (exp (- d) * y) <= ln x) by (destruct H1 as [H1| <- ]; [left; apply ln_increasing; [apply Rmult_lt_0_compat; [apply exp_pos|exact Y]|exact H1]|lra]).
    rewrite ln_mult, ln_exp in H by (try apply exp_pos; exact Y). lra.
  - assert (ln x <= ln (exp d * y)) by (destruct H2 as [H2| -> ]; [left; apply ln_increasing; assumption|lra]).
    rewrite ln_mult, ln_exp in H by (try apply exp_pos; exact Y). lra.
Qed.

Lemma log_up_to d x y : 0 < x -> 0 < y -> Rabs (ln x - ln y) <= d -> up_to d x y.
Proof.
  intros X Y H. apply abs_both in H.
  assert (E : forall u v, u <= v -> exp u <= exp v) by (intros u v [L| <- ]; [left; now apply exp_increasing|lra]).
  split.
  - rewrite <- (exp_ln y Y), <- exp_plus. rewrite <- (exp_ln x X) at 1. apply E. lra.
  - rewrite <- (exp_ln y Y), <- exp_plus. rewrite <- (exp_ln x X) at 1. apply E. lra.
Qed.

Lemma zip_noisy eps site source bt ss : forall gs z,
  (forall s, In s ss -> 0 < site (snd (fst s)) /\ 0 < source (fst (fst s))) ->
  Forall2 (noisy eps site source bt) ss gs ->
  zip_op fsub (map flog (map senergy ss)) (map flog gs) = Ok z ->
  exists b, z = map FNum b /\
  Forall2 (fun s y => Rabs (y - (ln (source (fst (fst s))) + ln (site (snd (fst s))) - bt * tof s)) <= eps) ss b /\
  Forall (fun s => stime s = FNum (tof s)) ss.
Proof.
  induction ss as [|s ss IH]; intros gs z P F H; inversion F as [|? g ? gs' S F']; subst; cbn [map zip_op] in H.
  - injection H as <-. exists []. repeat split; constructor.
  - destruct (zip_op fsub _ _) as [r|] eqn:E; [|discriminate]. cbn [bind] in H. injection H as <-.
    destruct (IH gs' r) as (b & -> & FB & T); [intros; apply P; now right|assumption|exact E|].
    destruct S as (t & e & x & T' & -> & XP & EE). destruct (P s) as [P1 P2]; [now left|].
    assert (T1 : stime s = FNum t) by (unfold stime; now rewrite T').
    assert (T2 : tof s = t) by (unfold tof; now rewrite T1).
    assert (MP : 0 < source (fst (fst s)) * site (snd (fst s)) * x * exp (- (bt * t))).
    { repeat apply Rmult_lt_0_compat; auto. apply exp_pos. }
    destruct (up_to_log _ _ _ MP EE) as [EP EL].
    exists ((ln e - ln x) :: b). split; [|split; [constructor; [|exact FB]|constructor; [now rewrite T1, T2|exact T]]].
    + cbn [map]. f_equal. unfold senergy. rewrite T'. cbn [snd]. rewrite !flog_num by assumption. reflexivity.
    + rewrite !ln_mult, ln_exp in EL by (try (repeat apply Rmult_lt_0_compat; auto); try apply exp_pos).
      rewrite T2. replace (ln e - ln x - _) with (ln e - (ln (source (fst (fst s))) + ln (site (snd (fst s))) + ln x + - (bt * t))) by ring.
      exact EL.
Qed.
