(** C137: moments and errors of fits of spectra with errors. *)
From Coq Require Import String List Bool Reals Lra Lia Arith.
From Verif Require Import Base Pyf StatModel StatSpec StatProof PySort SortModel SourceModel SourceSpec SourceProof SourceProof2 SourceProof3 SourceProof4 NoiseSpec JitterSpec JitterProof.
Import ListNotations.
Open Scope string_scope.
Open Scope list_scope.
Open Scope R_scope.

Definition near_points (d : R) : list (R * R) -> list (R * R) -> Prop :=
  Forall2 (fun p q => fst p = fst q /\ 0 < snd p /\ 0 < snd q /\ Rabs (ln (snd p) - ln (snd q)) <= d).

Lemma near_sym d P Q : near_points d P Q -> near_points d Q P.
Proof.
  induction 1 as [|p q P Q (A & B & C & D) _ IH]; constructor; [|exact IH]. rewrite Rabs_minus_sym. auto.
Qed.

Lemma near_len d P Q : near_points d P Q -> length P = length Q.
Proof. induction 1; cbn; auto. Qed.

Lemma near_points_of d freq : forall omM omM', near_spectrum d omM omM' -> near_points d (points freq omM) (points freq omM').
Proof.
  induction freq as [|f freq IH]; intros omM omM' H; [constructor|]. inversion H as [|x y l l' X L]; subst; [constructor|].
  unfold points. cbn [combine flat_map fst snd].
  destruct x as [a|], y as [b|]; cbn in X; try contradiction; [|now apply IH].
  cbn [app]. constructor; [|now apply IH]. cbn. destruct X as [B U]. destruct (up_to_log _ _ _ B U) as [A L']. auto.
Qed.

Lemma near_below d fc freq : forall omM omM', near_spectrum d omM omM' ->
  Forall2 (fun x y => 0 < x /\ 0 < y /\ Rabs (ln x - ln y) <= d) (values_below fc freq omM) (values_below fc freq omM').
Proof.
  induction freq as [|f freq IH]; intros omM omM' H; [constructor|]. inversion H as [|x y l l' X L]; subst; [constructor|].
  cbn [values_below].
  destruct x as [a|], y as [b|]; cbn in X; try contradiction; [|now apply IH].
  destruct (Rlt_dec f fc); [|now apply IH]. constructor; [|now apply IH].
  destruct X as [B U]. destruct (up_to_log _ _ _ B U) as [A L']. auto.
Qed.

Lemma logs_close d l l' : Forall2 (fun x y => 0 < x /\ 0 < y /\ Rabs (ln x - ln y) <= d) l l' -> close d (map ln l) (map ln l').
Proof. induction 1 as [|x y l l' (_ & _ & H) _ IH]; constructor; auto. Qed.

Lemma below_pos (d : R) l l' : Forall2 (fun x y => 0 < x /\ 0 < y /\ Rabs (ln x - ln y) <= d) l l' ->
  (forall x, In x l -> 0 < x) /\ (forall x, In x l' -> 0 < x) /\ length l = length l'.
Proof.
  induction 1 as [|x y l l' (A & B & _) _ (I1 & I2 & I3)]; [cbn; firstorder|].
  split; [intros z [<-|I]; auto|]. split; [intros z [<-|I]; auto|]. cbn. auto.
Qed.

Lemma log_gmean l : (forall x, In x l -> 0 < x) -> ln (geometric_mean l) = rsum (map ln l) / INR (length l).
Proof.
  intros H. unfold geometric_mean, Rpower. rewrite ln_exp.
  assert (E : ln (prod l) = rsum (map ln l) /\ 0 < prod l).
  { induction l as [|x l IH]; [cbn; rewrite ln_1; lra|]. destruct IH as [E P]; [intros y I; apply H; now right|].
    assert (0 < x) by (apply H; now left). cbn [map]. rewrite rsum_cons, <- E.
    change (prod (x :: l)) with (x * prod l). split; [now apply ln_mult|now apply Rmult_lt_0_compat]. }
  rewrite (proj1 E). unfold Rdiv. ring.
Qed.

Lemma gmean_pos l : 0 < geometric_mean l.
Proof. apply exp_pos. Qed.

Section Fit.
  Variable rlm1 : list R -> R.
  Variable lin2 : bool -> list R -> list R -> R * R.
  Variable min1 : (R -> R) -> option (R * R) -> res R.
  Variable minN : (list R -> R) -> list R -> list (option (R * R)) -> res (list R).
  Notation fit_sds := (fit_sds rlm1 lin2 min1 minN).
  Notation fit_model := (fit_model rlm1 lin2 min1 minN).

  Lemma lstsq_y d P Q fc n g : near_points d P Q ->
    close d (map (fun p => ln (snd p) - ln (source_model (fst p) 1 fc n g)) P) (map (fun p => ln (snd p) - ln (source_model (fst p) 1 fc n g)) Q).
  Proof.
    induction 1 as [|p q P Q (A & _ & _ & D) _ IH]; constructor; [|exact IH]. rewrite A.
    match goal with |- Rabs ?x <= _ => replace x with (ln (snd p) - ln (snd q)) by ring end. exact D.
  Qed.

  Lemma lstsq_moment d P Q fc n g : near_points d P Q -> P <> [] ->
    up_to d (fst (lstsq rlm1 false P fc n g)) (fst (lstsq rlm1 false Q fc n g)).
  Proof.
    intros H N. unfold lstsq. cbn [fst]. apply exp_up_to. apply mean_close; [now apply lstsq_y|]. destruct P; [congruence|discriminate].
  Qed.

  Lemma lstsq_error d P Q fc n g : 0 <= d -> near_points d P Q -> P <> [] ->
    sqrt (snd (lstsq rlm1 false P fc n g)) <= sqrt (snd (lstsq rlm1 false Q fc n g)) + d.
  Proof.
    intros D H N. unfold lstsq. cbn [snd]. pose proof (lstsq_y d P Q fc n g H) as C.
    set (y := map _ P) in *. set (z := map _ Q) in *.
    assert (NY : y <> []) by (unfold y; destruct P; [congruence|discriminate]).
    eapply Rle_trans; [apply sqrt_le_1_alt, (ms_min y (rsum z / INR (length z)) NY)|].
    apply (ms_close d); [exact D|now apply close_shift|destruct y; [congruence|discriminate]].
  Qed.

  Lemma lstsqab_close d P Q fc a p : near_points d P Q ->
    close d (map (fun q => fst q - (fst p + snd p * snd q)) (combine (map (fun p => ln (snd p)) P) (map (fun p => ln (source_model_ab (fst p) 1 fc a 1)) P)))
      (map (fun q => fst q - (fst p + snd p * snd q)) (combine (map (fun p => ln (snd p)) Q) (map (fun p => ln (source_model_ab (fst p) 1 fc a 1)) Q))).
  Proof.
    induction 1 as [|u v P Q (A & _ & _ & D) _ IH]; constructor; [|exact IH]. cbn [fst snd]. rewrite A.
    match goal with |- Rabs ?x <= _ => replace x with (ln (snd u) - ln (snd v)) by ring end. exact D.
  Qed.

  Lemma lstsqab_error d P Q fc a : 0 <= d -> least_squares2 lin2 -> near_points d P Q -> P <> [] ->
    sqrt (snd (lstsqab lin2 false P fc a)) <= sqrt (snd (lstsqab lin2 false Q fc a)) + d.
  Proof.
    intros D LS H N. unfold lstsqab.
    pose proof (LS (map (fun p => ln (snd p)) P) (map (fun p => ln (source_model_ab (fst p) 1 fc a 1)) P)
      (lin2 false (map (fun p => ln (snd p)) Q) (map (fun p => ln (source_model_ab (fst p) 1 fc a 1)) Q))) as M.
    pose proof (lstsqab_close d P Q fc a (lin2 false (map (fun p => ln (snd p)) Q) (map (fun p => ln (source_model_ab (fst p) 1 fc a 1)) Q)) H) as C.
    set (yp := map (fun p => ln (snd p)) P) in *. set (xp := map (fun p => ln (source_model_ab (fst p) 1 fc a 1)) P) in *.
    set (yq := map (fun p => ln (snd p)) Q) in *. set (xq := map (fun p => ln (source_model_ab (fst p) 1 fc a 1)) Q) in *.
    destruct (lin2 false yp xp) as [p0 p1]. destruct (lin2 false yq xq) as [q0 q1]. cbn [fst snd] in *.
    assert (NE : combine yp xp <> []) by (unfold yp, xp; destruct P; [congruence|discriminate]).
    pose proof (len_pos _ NE) as LP.
    apply Rle_trans with (sqrt (mean_square (map (fun q => fst q - (q0 + q1 * snd q)) (combine yp xp)))).
    - apply sqrt_le_1_alt. unfold mean_square. rewrite !map_map, !map_length.
      apply Rmult_le_compat_r; [left; now apply Rinv_0_lt_compat|]. exact M.
    - apply (ms_close d); [exact D|exact C|]. destruct (combine yp xp); [congruence|discriminate].
  Qed.

  (** the bounds depend on the frequencies only *)
  Lemma near_freq d P Q : near_points d P Q -> map fst P = map fst Q.
  Proof. induction 1 as [|p q P Q (A & _) _ IH]; cbn; congruence. Qed.

  Lemma near_bounds_eq d P Q o u : near_points d P Q -> bounds P o u = bounds Q o u.
  Proof.
    intros H. apply near_freq in H. unfold bounds. destruct (String.eqb u "fc"); [|reflexivity].
    destruct (o_fc_lim o); [reflexivity|].
    assert (E1 : forall l : list (R * R), fst (hd (0, 0) l) = hd 0 (map fst l)) by (intros [|x l]; reflexivity).
    assert (E2 : forall l : list (R * R), fst (last l (0, 0)) = last (map fst l) 0).
    { induction l as [|x [|y l] IH]; try reflexivity. exact IH. }
    now rewrite !E1, !E2, H.
  Qed.

  (** one fit against the other *)
  Lemma outcome_error d P Q o f f' : 0 <= d -> exact1 min1 -> exactN minN -> stays1 min1 -> staysN minN -> least_squares2 lin2 ->
    near_points d P Q -> P <> [] ->
    outcome rlm1 lin2 min1 minN false P o f -> outcome rlm1 lin2 min1 minN false Q o f' ->
    exists e e', dget String.eqb f "fit_error" = Some (Some e) /\ dget String.eqb f' "fit_error" = Some (Some e') /\ e <= e' + d.
  Proof.
    intros D X1 XN S1 SN LS H N O O'.
    pose proof (fun fc n g => lstsq_error d P Q fc n g D H N) as K. pose proof (fun fc a => lstsqab_error d P Q fc a D LS H N) as KA.
    pose proof (fun u => near_bounds_eq d P Q o u H) as BQ.
    inversion O; subst; inversion O'; subst; try congruence; cbn [lstsq_dict dget fst snd String.eqb Ascii.eqb Bool.eqb];
      eexists; eexists; (split; [reflexivity|]); (split; [reflexivity|]).
    - apply K.
    - match goal with A : min1 ?f (bounds P o ?u) = Ok ?x, B : min1 _ (bounds Q o ?u) = Ok ?y |- _ =>
        assert (M : f x <= f y) by (apply (X1 f _ x A y); rewrite BQ; exact (S1 _ _ _ B)) end.
      cbv beta in M. eapply Rle_trans; [apply sqrt_le_1_alt, M|apply K].
    - match goal with A : min1 ?f (bounds P o ?u) = Ok ?x, B : min1 _ (bounds Q o ?u) = Ok ?y |- _ =>
        assert (M : f x <= f y) by (apply (X1 f _ x A y); rewrite BQ; exact (S1 _ _ _ B)) end.
      cbv beta in M. eapply Rle_trans; [apply sqrt_le_1_alt, M|apply K].
    - match goal with A : min1 ?f (bounds P o ?u) = Ok ?x, B : min1 _ (bounds Q o ?u) = Ok ?y |- _ =>
        assert (M : f x <= f y) by (apply (X1 f _ x A y); rewrite BQ; exact (S1 _ _ _ B)) end.
      cbv beta in M. eapply Rle_trans; [apply sqrt_le_1_alt, M|apply K].
    - match goal with A : minN ?f _ [bounds P o ?u; bounds P o ?v] = Ok ?x, B : minN _ _ [bounds Q o ?u; bounds Q o ?v] = Ok ?y |- _ =>
        assert (M : f x <= f y) by (apply (XN f _ _ x A y); rewrite !BQ; exact (SN _ _ _ _ B)) end.
      cbv beta in M. eapply Rle_trans; [apply sqrt_le_1_alt, M|apply K].
    - match goal with A : minN ?f _ [bounds P o ?u; bounds P o ?v] = Ok ?x, B : minN _ _ [bounds Q o ?u; bounds Q o ?v] = Ok ?y |- _ =>
        assert (M : f x <= f y) by (apply (XN f _ _ x A y); rewrite !BQ; exact (SN _ _ _ _ B)) end.
      cbv beta in M. eapply Rle_trans; [apply sqrt_le_1_alt, M|apply K].
    - match goal with A : min1 ?f (bounds P o ?u) = Ok ?x, B : min1 _ (bounds Q o ?u) = Ok ?y |- _ =>
        assert (M : f x <= f y) by (apply (X1 f _ x A y); rewrite BQ; exact (S1 _ _ _ B)) end.
      cbv beta in M. eapply Rle_trans; [apply sqrt_le_1_alt, M|apply KA].
    - match goal with A : minN ?f _ [bounds P o ?u; bounds P o ?v] = Ok ?x, B : minN _ _ [bounds Q o ?u; bounds Q o ?v] = Ok ?y |- _ =>
        assert (M : f x <= f y) by (apply (XN f _ _ x A y); rewrite !BQ; exact (SN _ _ _ _ B)) end.
      cbv beta in M. eapply Rle_trans; [apply sqrt_le_1_alt, M|apply KA].
  Qed.

  Lemma fit_error_close : forall d freq omM omM' o f f', 0 <= d ->
    exact1 min1 -> exactN minN -> stays1 min1 -> staysN minN -> least_squares2 lin2 ->
    near_spectrum d omM omM' ->
    fit_sds "fit" freq omM o = Ok (Some f) -> fit_sds "fit" freq omM' o = Ok (Some f') ->
    (nsearch o = 0 \/ nsearch o < length (points freq omM))%nat ->
    exists e e', dget String.eqb f "fit_error" = Some (Some e) /\ dget String.eqb f' "fit_error" = Some (Some e') /\ Rabs (e - e') <= d.
  Proof.
    intros d freq omM omM' o f f' D X1 XN S1 SN LS H F F' NS.
    pose proof (near_points_of d freq _ _ H) as NP.
    change (fit_model false (present freq omM) o = Ok (Some f)) in F. change (fit_model false (present freq omM') o = Ok (Some f')) in F'.
    rewrite present_points in F, F'.
    assert (NE : points freq omM <> []).
    { intros E. assert (Q : fit_model false (points freq omM) o = Ok None) by (apply fit_model_none; now left). congruence. }
    assert (NE' : points freq omM' <> []).
    { intros E. assert (Q : fit_model false (points freq omM') o = Ok None) by (apply fit_model_none; now left). congruence. }
    apply fit_model_outcome in F as [(-> & H1 & H2)|[_ F]]; [lia|].
    apply fit_model_outcome in F' as [(-> & H1 & H2)|[_ F']]; [rewrite <- (near_len _ _ _ NP) in H2; lia|].
    change (robust_used false (points freq omM) o) with false in F. change (robust_used false (points freq omM') o) with false in F'.
    destruct (outcome_error d _ _ o f f' D X1 XN S1 SN LS NP NE F F') as (e & e' & E1 & E2 & A).
    destruct (outcome_error d _ _ o f' f D X1 XN S1 SN LS (near_sym _ _ _ NP) NE' F' F) as (u & v & U1 & U2 & B).
    rewrite E1 in U2. rewrite E2 in U1. injection U1 as <-. injection U2 as <-.
    exists e, e'. split; [exact E1|]. split; [exact E2|]. apply Rabs_le. lra.
  Qed.

  (** method mean *)
  Lemma mean_values d freq omM omM' o : 0 <= d -> near_spectrum d omM omM' ->
    near_results d (fit_sds "mean" freq omM o) (fit_sds "mean" freq omM' o).
  Proof.
    intros D H. destruct (o_fc o) as [fc|] eqn:FC.
    - pose proof (near_below d fc freq _ _ H) as B. destruct (below_pos _ _ _ B) as (P1 & P2 & L).
      assert (T : too_few (o_num_points o) (length (values_below fc freq omM)) = true \/
                  too_few (o_num_points o) (length (values_below fc freq omM)) = false) by (destruct (too_few _ _); auto).
      destruct (values_below fc freq omM) as [|x l] eqn:V.
      + destruct (values_below fc freq omM') eqn:V'; [|discriminate].
        rewrite (fit_mean_none rlm1 lin2 min1 minN freq omM o fc FC (or_introl V)), (fit_mean_none rlm1 lin2 min1 minN freq omM' o fc FC (or_introl V')). exact I.
      + rewrite <- V in *. destruct T as [T|T].
        * unfold too_few in T. destruct (o_num_points o) as [np|] eqn:NP; [|discriminate]. apply Nat.ltb_lt in T.
          rewrite (fit_mean_none rlm1 lin2 min1 minN freq omM o fc FC); [|right; exists np; auto].
          rewrite (fit_mean_none rlm1 lin2 min1 minN freq omM' o fc FC); [exact I|]. right. exists np. rewrite <- L. auto.
        * assert (NPT : forall np, o_num_points o = Some np -> (np <= length (values_below fc freq omM))%nat).
          { intros np E. rewrite E in T. cbn in T. now apply Nat.ltb_ge. }
          assert (N1 : values_below fc freq omM <> []) by (rewrite V; discriminate).
          assert (N2 : values_below fc freq omM' <> []) by (intros Z; rewrite Z, V in L; discriminate).
          destruct (fit_mean_value rlm1 lin2 min1 minN freq omM o fc FC P1 N1 NPT) as (e1 & ->).
          rewrite L in NPT. destruct (fit_mean_value rlm1 lin2 min1 minN freq omM' o fc FC P2 N2 NPT) as (e2 & ->).
          cbn [near_results]. eexists; eexists. split; [reflexivity|]. split; [reflexivity|]. split; [apply gmean_pos|].
          apply up_to_of_log; try apply gmean_pos. rewrite !log_gmean by assumption.
          pose proof (mean_close d _ _ (logs_close _ _ _ B)) as M. rewrite !map_length in M. apply M.
          destruct (values_below fc freq omM); [congruence|discriminate].
    - rewrite (fit_mean_nofc rlm1 lin2 min1 minN freq omM o FC), (fit_mean_nofc rlm1 lin2 min1 minN freq omM' o FC). reflexivity.
  Qed.

  (** method fit with given parameters *)
  Lemma fit_values d freq omM omM' o : 0 <= d -> near_spectrum d omM omM' ->
    o_fc o <> None -> o_n o <> None -> o_gamma o <> None ->
    near_results d (fit_sds "fit" freq omM o) (fit_sds "fit" freq omM' o).
  Proof.
    intros D H N1 N2 N3. pose proof (near_points_of d freq _ _ H) as NP.
    change (near_results d (fit_model false (present freq omM) o) (fit_model false (present freq omM') o)).
    rewrite !present_points. set (P := points freq omM) in *. set (Q := points freq omM') in *.
    unfold SourceModel.fit_model. rewrite <- (near_len _ _ _ NP).
    destruct (_ || _)%bool eqn:E; [exact I|].
    assert (NE : P <> []) by (intros Z; rewrite Z in E; discriminate).
    assert (U : length (SourceModel.unknowns o) = 0%nat).
    { unfold SourceModel.unknowns. destruct (o_fc o); [|congruence]. destruct (o_n o); [|congruence]. destruct (o_gamma o); [reflexivity|congruence]. }
    rewrite U. cbn [Nat.eqb andb near_results]. eexists; eexists. split; [reflexivity|]. split; [reflexivity|]. split; [apply exp_pos|].
    now apply lstsq_moment.
  Qed.

  Lemma mean_error_close : forall d freq omM omM' o fc f f', 0 <= d -> near_spectrum d omM omM' -> o_fc o = Some fc ->
    (2 <= length (values_below fc freq omM))%nat ->
    fit_sds "mean" freq omM o = Ok (Some f) -> fit_sds "mean" freq omM' o = Ok (Some f') ->
    exists e e', dget String.eqb f "fit_error" = Some (Some e) /\ dget String.eqb f' "fit_error" = Some (Some e') /\ Rabs (e - e') <= d.
  Proof.
    intros d freq omM omM' o fc f f' D H FC L2 F F'.
    pose proof (near_below d fc freq _ _ H) as B. destruct (below_pos _ _ _ B) as (P1 & P2 & L).
    rewrite (fit_mean_error rlm1 lin2 min1 minN freq omM o fc f FC P1 L2 F).
    rewrite (fit_mean_error rlm1 lin2 min1 minN freq omM' o fc f' FC P2 ltac:(lia) F').
    eexists; eexists. split; [reflexivity|]. split; [reflexivity|].
    set (v := values_below fc freq omM) in *. set (w := values_below fc freq omM') in *.
    assert (E : forall l, (forall x, In x l -> 0 < x) -> log_misfit (map (fun x => (0, x)) l) (fun _ => geometric_mean l) =
        mean_square (map (fun t => t - rsum (map ln l) / INR (length (map ln l))) (map ln l))).
    { intros l P. unfold log_misfit, mean_square. rewrite !map_map, !map_length. cbn [fst snd]. now rewrite log_gmean. }
    rewrite !E by assumption. pose proof (logs_close _ _ _ B) as C.
    assert (NV : map ln v <> []) by (destruct v; [cbn in L2; lia|discriminate]).
    assert (NW : map ln w <> []) by (destruct w; [cbn in L; lia|discriminate]).
    assert (K : forall a b, close d a b -> a <> [] -> sqrt (mean_square (map (fun t => t - rsum a / INR (length a)) a)) <=
        sqrt (mean_square (map (fun t => t - rsum b / INR (length b)) b)) + d).
    { intros a b CC NA. eapply Rle_trans; [apply sqrt_le_1_alt, (ms_min a (rsum b / INR (length b)) NA)|].
      apply (ms_close d); [exact D|now apply close_shift|destruct a; [congruence|discriminate]]. }
    pose proof (K _ _ C NV). pose proof (K _ _ (close_sym _ _ _ C) NW). apply Rabs_le. lra.
  Qed.
End Fit.
