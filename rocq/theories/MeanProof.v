(** Proofs for C139. *)
From Coq Require Import String List Bool Reals Lra Lia Arith.
From Verif Require Import Base Pyf StatModel StatSpec StatProof SourceModel NoiseSpec JitterProof MeanSpec.
Import ListNotations.
Open Scope list_scope.
Open Scope R_scope.

(** masked logarithms *)
Definition rel (Q : R -> R -> Prop) (x y : option R) : Prop :=
  match x, y with Some a, Some b => Q a b | None, None => True | _, _ => False end.

Lemma rel_log d x y : near_datum d x y -> rel (fun a b => Rabs (a - b) <= d) (log_masked x) (log_masked y).
Proof.
  unfold near_datum, valid, log_masked.
  destruct x as [| | |a]; destruct y as [| | |b]; cbn [rel]; auto;
    repeat match goal with |- context [Rlt_dec 0 ?r] => destruct (Rlt_dec 0 r) end; cbn [rel]; auto.
  intros U. now apply up_to_log.
Qed.

Lemma rel_log_le x y : below_datum x y -> rel Rle (log_masked x) (log_masked y).
Proof.
  unfold below_datum, valid, log_masked.
  destruct x as [| | |a]; destruct y as [| | |b]; cbn [rel]; auto;
    repeat match goal with |- context [Rlt_dec 0 ?r] => destruct (Rlt_dec 0 r) end; cbn [rel]; auto.
  intros [L| ->]; [left; now apply ln_increasing|now right].
Qed.

Section Rel.
  Variable Q : R -> R -> Prop.

  Lemma rel_unmasked l l' : Forall2 (rel Q) l l' -> Forall2 Q (unmasked l) (unmasked l').
  Proof.
    induction 1 as [|[a|] [b|] l l' H _ IH]; cbn in *; try contradiction; auto.
  Qed.

  Lemma rel_wunmasked l l' ws : Forall2 (rel Q) l l' ->
    Forall2 (fun p q => fst p = fst q /\ In (fst p) ws /\ Q (snd p) (snd q)) (wunmasked l ws) (wunmasked l' ws).
  Proof.
    intros F. revert ws. induction F as [|[a|] [b|] l l' H _ IH]; intros [|w ws]; cbn in *; try contradiction; auto.
    - constructor; [cbn; auto|]. specialize (IH ws). clear - IH. induction IH; constructor; intuition.
    - specialize (IH ws). clear - IH. induction IH; constructor; intuition.
  Qed.
End Rel.

Lemma F2_len {A B} (P : A -> B -> Prop) l l' : Forall2 P l l' -> length l = length l'.
Proof. induction 1; cbn; auto. Qed.

(** weighted sums *)
Lemma wsum_close d ws v v' : (forall w, In w ws -> 0 <= w) ->
  Forall2 (fun p q => fst p = fst q /\ In (fst p) ws /\ Rabs (snd p - snd q) <= d) v v' ->
  map fst v = map fst v' /\ 0 <= rsum (map fst v) /\
  Rabs (rsum (map (fun p => fst p * snd p) v) - rsum (map (fun p => fst p * snd p) v')) <= rsum (map fst v) * d.
Proof.
  intros W. induction 1 as [|(w, a) (w', b) v v' (E & I & H) _ (IH1 & IH2 & IH3)]; cbn [map fst snd] in *.
  - split; [reflexivity|]. split; [cbn; lra|]. cbn. rewrite Rminus_0_r, Rabs_R0. lra.
  - subst w'. specialize (W w I). rewrite !rsum_cons. split; [now rewrite IH1|]. split; [lra|].
    replace (w * a + rsum (map (fun p => fst p * snd p) v) - (w * b + rsum (map (fun p => fst p * snd p) v')))
      with (w * (a - b) + (rsum (map (fun p => fst p * snd p) v) - rsum (map (fun p => fst p * snd p) v'))) by ring.
    eapply Rle_trans; [apply Rabs_triang|]. rewrite Rabs_mult, (Rabs_pos_eq w W).
    assert (w * Rabs (a - b) <= w * d) by now apply Rmult_le_compat_l. lra.
Qed.

Lemma wsum_le ws v v' : (forall w, In w ws -> 0 <= w) ->
  Forall2 (fun p q => fst p = fst q /\ In (fst p) ws /\ snd p <= snd q) v v' ->
  map fst v = map fst v' /\ 0 <= rsum (map fst v) /\
  rsum (map (fun p => fst p * snd p) v) <= rsum (map (fun p => fst p * snd p) v').
Proof.
  intros W. induction 1 as [|(w, a) (w', b) v v' (E & I & H) _ (IH1 & IH2 & IH3)]; cbn [map fst snd] in *.
  - split; [reflexivity|]. split; cbn; lra.
  - subst w'. specialize (W w I). rewrite !rsum_cons. split; [now rewrite IH1|]. split; [lra|].
    assert (w * a <= w * b) by now apply Rmult_le_compat_l. lra.
Qed.

Lemma sum_le a b : Forall2 Rle a b -> rsum a <= rsum b.
Proof. induction 1; [lra|]. rewrite !rsum_cons. lra. Qed.

(** averages *)
Lemma average_close d l l' ws : weights_ok ws -> Forall2 (rel (fun a b => Rabs (a - b) <= d)) l l' ->
  rel (fun a b => Rabs (a - b) <= d) (average l ws) (average l' ws).
Proof.
  intros W F. unfold average. destruct ws as [ws|].
  - destruct (wsum_close d ws _ _ W (rel_wunmasked _ _ _ ws F)) as (E & P & S). cbn zeta. rewrite <- E.
    destruct (Req_EM_T (rsum (map fst (wunmasked l ws))) 0) as [Z|Z]; [exact I|]. cbn [rel].
    set (k := rsum (map fst (wunmasked l ws))) in *. assert (K : 0 < k) by (destruct P; [assumption|congruence]).
    unfold Rdiv. rewrite <- Rmult_minus_distr_r, Rabs_mult, (Rabs_pos_eq (/ k)) by (left; now apply Rinv_0_lt_compat).
    apply (Rmult_le_reg_r k); [exact K|]. rewrite Rmult_assoc, Rinv_l by lra. lra.
  - pose proof (rel_unmasked _ _ _ F) as U. pose proof (F2_len _ _ _ U) as L. cbn zeta.
    destruct (unmasked l) as [|a v] eqn:E; destruct (unmasked l') as [|b v'] eqn:E'; try discriminate; [exact I|].
    cbn [rel]. apply mean_close; [exact U|discriminate].
Qed.

Lemma average_le l l' ws : weights_ok ws -> Forall2 (rel Rle) l l' -> rel Rle (average l ws) (average l' ws).
Proof.
  intros W F. unfold average. destruct ws as [ws|].
  - destruct (wsum_le ws _ _ W (rel_wunmasked _ _ _ ws F)) as (E & P & S). cbn zeta. rewrite <- E.
    destruct (Req_EM_T (rsum (map fst (wunmasked l ws))) 0) as [Z|Z]; [exact I|]. cbn [rel].
    apply Rmult_le_compat_r; [|exact S]. left. apply Rinv_0_lt_compat. destruct P; [assumption|congruence].
  - pose proof (rel_unmasked _ _ _ F) as U. pose proof (F2_len _ _ _ U) as L. cbn zeta.
    destruct (unmasked l) as [|a v] eqn:E; destruct (unmasked l') as [|b v'] eqn:E'; try discriminate; [exact I|].
    cbn [rel]. rewrite L. apply Rmult_le_compat_r; [|now apply sum_le]. left. apply Rinv_0_lt_compat.
    apply lt_0_INR. cbn. lia.
Qed.

Lemma gmean_average rlm data ws robust fb : plain robust ws (length (valid_data data)) fb ->
  gmean rlm data ws robust fb = Ok (option_map exp (average (map log_masked data) ws)).
Proof.
  intros [-> | (-> & L)]; [reflexivity|]. destruct robust; [|reflexivity]. now rewrite gmean_robust_few.
Qed.

Lemma map_rel (Q : pyf -> pyf -> Prop) (P : R -> R -> Prop) l l' : (forall x y, Q x y -> rel P (log_masked x) (log_masked y)) ->
  Forall2 Q l l' -> Forall2 (rel P) (map log_masked l) (map log_masked l').
Proof. intros H. induction 1; constructor; auto. Qed.

Lemma valid_len (Q : pyf -> pyf -> Prop) l l' : (forall x y, Q x y -> (valid x = None <-> valid y = None)) ->
  Forall2 Q l l' -> length (valid_data l) = length (valid_data l').
Proof.
  intros H. induction 1 as [|x y l l' K _ IH]; [reflexivity|]. cbn [valid_data]. specialize (H _ _ K).
  destruct (valid x), (valid y); cbn [length]; auto; exfalso; intuition discriminate.
Qed.

Lemma near_valid d x y : near_datum d x y -> (valid x = None <-> valid y = None).
Proof. unfold near_datum. destruct (valid x), (valid y); intuition discriminate. Qed.
Lemma below_valid x y : below_datum x y -> (valid x = None <-> valid y = None).
Proof. unfold below_datum. destruct (valid x), (valid y); intuition discriminate. Qed.

Lemma mean_errors : forall rlm d data data' ws robust fb, weights_ok ws -> plain robust ws (length (valid_data data)) fb ->
  Forall2 (near_datum d) data data' ->
  exists m m', gmean rlm data ws robust fb = Ok m /\ gmean rlm data' ws robust fb = Ok m' /\
    both_means (fun a b => 0 < b /\ up_to d a b) m m'.
Proof.
  intros rlm d data data' ws robust fb W P F.
  assert (P' : plain robust ws (length (valid_data data')) fb) by now rewrite <- (valid_len _ _ _ (near_valid d) F).
  rewrite (gmean_average rlm data ws robust fb P), (gmean_average rlm data' ws robust fb P').
  eexists; eexists. split; [reflexivity|]. split; [reflexivity|].
  pose proof (average_close d _ _ ws W (map_rel _ _ _ _ (rel_log d) F)) as A. unfold rel in A.
  destruct (average (map log_masked data) ws), (average (map log_masked data') ws); cbn; try contradiction; auto.
  split; [apply exp_pos|now apply exp_up_to].
Qed.

Lemma mean_monotone : forall rlm data data' ws robust fb, weights_ok ws -> plain robust ws (length (valid_data data)) fb ->
  Forall2 below_datum data data' ->
  exists m m', gmean rlm data ws robust fb = Ok m /\ gmean rlm data' ws robust fb = Ok m' /\ both_means Rle m m'.
Proof.
  intros rlm data data' ws robust fb W P F.
  assert (P' : plain robust ws (length (valid_data data')) fb) by now rewrite <- (valid_len _ _ _ below_valid F).
  rewrite (gmean_average rlm data ws robust fb P), (gmean_average rlm data' ws robust fb P').
  eexists; eexists. split; [reflexivity|]. split; [reflexivity|].
  pose proof (average_le _ _ ws W (map_rel _ _ _ _ rel_log_le F)) as A. unfold rel in A.
  destruct (average (map log_masked data) ws), (average (map log_masked data') ws); cbn; try contradiction; auto.
  destruct A as [A| ->]; [left; now apply exp_increasing|now right].
Qed.

(** tables *)
Lemma nth_near d row row' j : Forall2 (near_datum d) row row' -> near_datum d (nth j row FNan) (nth j row' FNan).
Proof.
  intros F. revert j. induction F as [|x y l l' H _ IH]; intros [|j]; cbn; auto; exact I.
Qed.

Lemma valid_le data : (length (valid_data data) <= length data)%nat.
Proof. induction data as [|x l IH]; [cbn; lia|]. cbn [valid_data length]. destruct (valid x); cbn [length]; lia. Qed.

Lemma list_errors : forall rlm d rows rows' ncols ws robust fb, weights_ok ws -> plain robust ws (length rows) fb ->
  Forall2 (Forall2 (near_datum d)) rows rows' ->
  exists l l', gmeanlist rlm rows ncols ws robust fb = Ok l /\ gmeanlist rlm rows' ncols ws robust fb = Ok l' /\
    length l = ncols /\ Forall2 (both_means (fun a b => 0 < b /\ up_to d a b)) l l'.
Proof.
  intros rlm d rows rows' ncols ws robust fb W P F. unfold gmeanlist.
  assert (C : forall j, Forall2 (near_datum d) (column rows j) (column rows' j)).
  { intros j. unfold column. clear - F. induction F as [|r r' l l' H _ IH]; constructor; [now apply nth_near|exact IH]. }
  assert (G : forall k n, exists l l', mapM (fun j => gmean rlm (column rows j) ws robust fb) (seq k n) = Ok l /\
    mapM (fun j => gmean rlm (column rows' j) ws robust fb) (seq k n) = Ok l' /\ length l = n /\
    Forall2 (both_means (fun a b => 0 < b /\ up_to d a b)) l l').
  { intros k n. revert k. induction n as [|n IH]; intros k; cbn [seq mapM].
    - exists [], []. auto.
    - assert (PL : plain robust ws (length (valid_data (column rows k))) fb).
      { destruct P as [P|(P1 & P2)]; [now left|right]. split; [exact P1|]. pose proof (valid_le (column rows k)) as V.
        unfold column in V at 2. rewrite map_length in V. lia. }
      destruct (mean_errors rlm d _ _ ws robust fb W PL (C k)) as (m & m' & -> & -> & B). destruct (IH (Datatypes.S k)) as (l & l' & -> & -> & L & FF).
      cbn [bind]. exists (m :: l), (m' :: l'). cbn [length]. auto. }
  exact (G 0%nat ncols).
Qed.

(** the spread *)
Lemma spread_errors : forall rlm d data data' unbiased fb, 0 <= d -> Forall2 (near_datum d) data data' ->
  let n := length (valid_data data) in (2 <= n)%nat ->
  exists m s m' s', gstat rlm data None unbiased false fb = Ok (Some m, Some s) /\
    gstat rlm data' None unbiased false fb = Ok (Some m', Some s') /\
    Rabs (s - s') <= d * sqrt (INR n / INR (n - (if unbiased then 1 else 0))).
Proof.
  intros rlm d data data' unbiased fb D F n N. unfold gstat, weighted_stat, average. cbn zeta.
  pose proof (rel_unmasked _ _ _ (map_rel _ _ _ _ (rel_log d) F)) as U.
  assert (LN : length (unmasked (map log_masked data)) = n).
  { unfold n. clear. induction data as [|x l IH]; [reflexivity|]. cbn [map unmasked valid_data]. unfold log_masked, valid.
    destruct x as [| | |r]; try exact IH. destruct (Rlt_dec 0 r); cbn [length]; [now f_equal|exact IH]. }
  set (v := unmasked (map log_masked data)) in *. set (v' := unmasked (map log_masked data')) in *.
  pose proof (close_len d v v' U) as L.
  assert (NV : v <> []) by (intros Z; rewrite Z in LN; cbn in LN; lia).
  assert (NV' : v' <> []) by (intros Z; rewrite Z in L; destruct v; [congruence|discriminate]).
  destruct v as [|a w] eqn:V; [congruence|]. rewrite <- V in *. destruct v' as [|a' w'] eqn:V'; [congruence|]. rewrite <- V' in *.
  clear V V' a w a' w'.
  assert (L2 : (length v <? 2)%nat = false) by (apply Nat.ltb_ge; lia). rewrite L2.
  assert (L2' : (length v' <? 2)%nat = false) by (apply Nat.ltb_ge; lia). rewrite L2'.
  set (cnt := (n - (if unbiased then 1 else 0))%nat).
  assert (CN : (0 < cnt)%nat) by (unfold cnt; destruct unbiased; lia).
  rewrite <- L, LN. fold cnt. assert (C0 : (cnt <=? 0)%nat = false) by (apply Nat.leb_gt; lia). rewrite C0.
  do 4 eexists. split; [reflexivity|]. split; [reflexivity|].
  pose proof (lt_0_INR cnt CN) as CP. assert (NP : 0 < INR n) by (apply lt_0_INR; lia).
  assert (E : forall u, length u = n -> forall m, sqrt (rsum (map (fun x => (x - m) ^ 2) u) / INR cnt) =
     sqrt (mean_square (map (fun x => x - m) u)) * sqrt (INR n / INR cnt)).
  { intros u LU m. rewrite <- sqrt_mult_alt by apply ms_pos. f_equal. unfold mean_square. rewrite map_map, map_length, LU. field. lra. }
  rewrite !E by (try exact LN; lia). rewrite <- Rmult_minus_distr_r, Rabs_mult, (Rabs_pos_eq (sqrt (INR n / INR cnt))) by apply sqrt_pos.
  apply Rmult_le_compat_r; [apply sqrt_pos|].
  assert (K : forall a b, close d a b -> a <> [] -> sqrt (mean_square (map (fun t => t - rsum a / INR (length a)) a)) <=
        sqrt (mean_square (map (fun t => t - rsum b / INR (length b)) b)) + d).
  { intros a b CC NA. eapply Rle_trans; [apply sqrt_le_1_alt, (ms_min a (rsum b / INR (length b)) NA)|].
    apply (ms_close d); [exact D|now apply close_shift|destruct a; [congruence|discriminate]]. }
  pose proof (K _ _ U NV) as K1. pose proof (K _ _ (close_sym _ _ _ U) NV') as K2. rewrite <- ?L, LN in *.
  apply Rabs_le. lra.
Qed.
