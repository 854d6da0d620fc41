From Coq Require Import String List Bool Reals Lra Lia FunctionalExtensionality.
From Coquelicot Require Import Coquelicot.
From Verif Require Import Base Pyf StatModel StatSpec StatProof SourceModel SourceSpec SourceProof.
Import ListNotations.
Open Scope string_scope.
Open Scope list_scope.
Open Scope R_scope.

(** ** present data *)
Lemma present_length freq omM : length freq = length omM -> length (present freq omM) = count_present omM.
Proof.
  revert omM. induction freq as [|f fs IH]; intros [|[o|] os] H; cbn in *; try discriminate; auto;
  injection H as H; now rewrite IH.
Qed.

Lemma values_below_present fc freq omM :
  map snd (filter (fun p => rltb (fst p) fc) (present freq omM)) = values_below fc freq omM.
Proof.
  revert omM. induction freq as [|f fs IH]; intros [|[o|] os]; cbn; auto.
  unfold rltb. destruct (Rlt_dec f fc); cbn; now rewrite IH.
Qed.

Lemma valid_data_FNum l : (forall x, In x l -> 0 < x) -> valid_data (map FNum l) = l.
Proof.
  induction l as [|x l IH]; intros H; cbn; [reflexivity|].
  assert (0 < x) by (apply H; now left).
  destruct (Rlt_dec 0 x); [|lra]. rewrite IH; [reflexivity|]. intros; apply H; now right.
Qed.

Lemma gstat_mean rlm l ub fb : (forall x, In x l -> 0 < x) -> l <> [] ->
  exists err, gstat rlm (map FNum l) None ub false fb = Ok (Some (ln (geometric_mean l)), err) /\
    ((2 <= length l)%nat -> ub = false ->
     err = Some (sqrt (log_misfit (map (fun x => (0, x)) l) (fun _ => geometric_mean l)))).
Proof.
  intros Hp Hl.
  assert (G := gmean_plain rlm (map FNum l) fb).
  rewrite valid_data_FNum in G by assumption.
  assert (Em : average (map log_masked (map FNum l)) None = Some (ln (geometric_mean l))).
  { unfold gmean, gstat, weighted_stat in G. cbn [bind fst] in G.
    destruct (average _ None) as [m|] eqn:E.
    - destruct l as [|x l']; [congruence|]. cbn [option_map] in G. injection G as G.
      f_equal. rewrite <- G. symmetry. apply ln_exp.
    - destruct l; [congruence|discriminate]. }
  unfold gstat, weighted_stat. rewrite Em.
  eexists. split; [reflexivity|]. intros H2 ->.
  rewrite unmasked_log, valid_data_FNum by assumption.
  rewrite map_length.
  assert ((length l <? 2)%nat = false) as -> by now apply Nat.ltb_ge.
  rewrite Nat.sub_0_r. assert ((length l <=? 0)%nat = false) as -> by (apply Nat.leb_gt; lia).
  do 2 f_equal. unfold log_misfit. rewrite !map_map, map_length. cbn [fst snd].
  unfold rsum. reflexivity.
Qed.

Lemma Ok_Some_inj {A} (a b : A) : Ok (Some a) = Ok (Some b) -> a = b.
Proof. congruence. Qed.

Section Fit.
  Variable rlm1 : list R -> R.
  Variable lin2 : bool -> list R -> list R -> R * R.
  Variable min1 : (R -> R) -> option (R * R) -> res R.
  Variable minN : (list R -> R) -> list R -> list (option (R * R)) -> res (list R).
  Notation translation_equivariant := (translation_equivariant rlm1).
  Notation least_squares2 := (least_squares2 lin2).
  Notation exact1 := (exact1 min1).
  Notation exactN := (exactN minN).
  Notation fit_sds := (fit_sds rlm1 lin2 min1 minN).
  Notation fit_model := (fit_model rlm1 lin2 min1 minN).
  Notation lstsq := (lstsq rlm1).
  Notation lstsqab := (lstsqab lin2).
  Notation wrapper := (wrapper rlm1 lin2).

  (** *** method mean *)
  Lemma fit_mean_value freq omM o fc :
    o_fc o = Some fc ->
    (forall x, In x (values_below fc freq omM) -> 0 < x) ->
    values_below fc freq omM <> [] ->
    (forall np, o_num_points o = Some np -> (np <= length (values_below fc freq omM))%nat) ->
    exists err, fit_sds "mean" freq omM o =
      Ok (Some [("M0", Some (geometric_mean (values_below fc freq omM))); ("fit_error", err)]).
  Proof.
    intros Hfc Hp Hne Hnp. unfold SourceModel.fit_sds. cbn [String.eqb].
    change (("mean" =? "mean")%string) with true. cbv iota.
    unfold fit_mean. rewrite Hfc, values_below_present.
    set (v := values_below fc freq omM) in *.
    assert (too_few (o_num_points o) (length v) = false) as ->.
    { unfold too_few. destruct (o_num_points o); [|reflexivity]. apply Nat.ltb_ge. now apply Hnp. }
    assert ((0 <? length v)%nat = true) as ->.
    { apply Nat.ltb_lt. destruct v; [congruence|cbn; lia]. }
    destruct (gstat_mean (fun _ => (0, 0)) v false 5 Hp Hne) as (err & -> & _). cbn [bind fst snd option_map].
    exists err. rewrite exp_ln; [reflexivity|]. apply exp_pos.
  Qed.

  Lemma fit_mean_error freq omM o fc d :
    o_fc o = Some fc ->
    (forall x, In x (values_below fc freq omM) -> 0 < x) ->
    (2 <= length (values_below fc freq omM))%nat ->
    fit_sds "mean" freq omM o = Ok (Some d) ->
    dget String.eqb d "fit_error" =
      Some (Some (sqrt (log_misfit (map (fun x => (0, x)) (values_below fc freq omM))
                                   (fun _ => geometric_mean (values_below fc freq omM))))).
  Proof.
    intros Hfc Hp H2. unfold SourceModel.fit_sds.
    change (("mean" =? "mean")%string) with true. cbv iota.
    unfold fit_mean. rewrite Hfc, values_below_present.
    set (v := values_below fc freq omM) in *.
    destruct (too_few _ _); [discriminate|].
    destruct (0 <? length v)%nat; [|discriminate].
    destruct (gstat_mean (fun _ => (0, 0)) v false 5 Hp) as (err & -> & He).
    { intros E. rewrite E in H2. cbn in H2. lia. }
    cbn [bind fst snd]. intros [= <-]. cbn. now rewrite He.
  Qed.

  Lemma fit_mean_none freq omM o fc :
    o_fc o = Some fc ->
    (values_below fc freq omM = [] \/
     exists np, o_num_points o = Some np /\ (length (values_below fc freq omM) < np)%nat) ->
    fit_sds "mean" freq omM o = Ok None.
  Proof.
    intros Hfc H. unfold SourceModel.fit_sds.
    change (("mean" =? "mean")%string) with true. cbv iota.
    unfold fit_mean. rewrite Hfc, values_below_present.
    destruct (too_few _ _) eqn:T; [reflexivity|].
    destruct H as [->|(np & E & H)]; [reflexivity|].
    unfold too_few in T. rewrite E in T. apply Nat.ltb_ge in T. lia.
  Qed.

  Lemma fit_mean_local freq omM freq' omM' o fc :
    o_fc o = Some fc -> values_below fc freq omM = values_below fc freq' omM' ->
    fit_sds "mean" freq omM o = fit_sds "mean" freq' omM' o.
  Proof.
    intros Hfc H. unfold SourceModel.fit_sds.
    change (("mean" =? "mean")%string) with true. cbv iota.
    unfold fit_mean. now rewrite Hfc, !values_below_present, H.
  Qed.

  Lemma fit_mean_nofc freq omM o : o_fc o = None -> fit_sds "mean" freq omM o = Err ValueError.
  Proof.
    intros H. unfold SourceModel.fit_sds.
    change (("mean" =? "mean")%string) with true. cbv iota. unfold fit_mean. now rewrite H.
  Qed.

  (** *** misfit of one trial *)
  Lemma ln_abercrombie M0 fc n g f : 0 < M0 ->
    ln (abercrombie M0 fc n g f) = ln M0 + ln (source_model f 1 fc n g).
  Proof.
    intros H. rewrite source_model_spec. unfold abercrombie, Rdiv at 1.
    assert (P : 0 < Rpower (1 + Rpower (f / fc) (g * n)) (1 / g)) by apply exp_pos.
    rewrite ln_mult; [|assumption|now apply Rinv_0_lt_compat].
    unfold Rdiv at 3. now rewrite Rmult_1_l.
  Qed.

  Lemma mean_square_misfit data M0 fc n g m : 0 < M0 -> m = ln M0 ->
    mean_square (map (fun v => v - m)
      (map (fun p => ln (snd p) - ln (source_model (fst p) 1 fc n g)) data)) =
    log_misfit data (abercrombie M0 fc n g).
  Proof.
    intros H ->. unfold mean_square, log_misfit. rewrite !map_map, !map_length. f_equal.
    apply rsum_ext. intros p _. rewrite ln_abercrombie by assumption. f_equal. ring.
  Qed.

  Lemma lstsq_err robust data fc n g :
    snd (lstsq robust data fc n g) =
    log_misfit data (abercrombie (fst (lstsq robust data fc n g)) fc n g).
  Proof.
    unfold SourceModel.lstsq. cbn [fst snd]. apply mean_square_misfit; [apply exp_pos|]. now rewrite ln_exp.
  Qed.

  Lemma lstsq_pos robust data fc n g : 0 < fst (lstsq robust data fc n g).
  Proof. apply exp_pos. Qed.

  (** arithmetic mean minimises the sum of squares *)
  Lemma mean_min (y : list R) c : y <> [] ->
    let m := rsum y / INR (length y) in
    rsum (map (fun v => (v - c) ^ 2) y) =
    rsum (map (fun v => (v - m) ^ 2) y) + INR (length y) * (c - m) ^ 2.
  Proof.
    intros Hy m.
    assert (HN : INR (length y) <> 0) by (apply not_0_INR; destruct y; [congruence|cbn; lia]).
    assert (E : forall c, rsum (map (fun v => (v - c) ^ 2) y) =
              rsum (map (fun v => v ^ 2) y) - 2 * c * rsum y + INR (length y) * c ^ 2).
    { clear. intros c. induction y as [|x y IH]; [cbn; ring|].
      cbn [map length]. rewrite !rsum_cons, S_INR, IH. ring. }
    rewrite (E c), (E m). unfold m. field. assumption.
  Qed.

  Lemma lstsq_min data fc n g M0' : data <> [] -> 0 < M0' ->
    log_misfit data (abercrombie (fst (lstsq false data fc n g)) fc n g)
      <= log_misfit data (abercrombie M0' fc n g) /\
    (log_misfit data (abercrombie M0' fc n g) =
     log_misfit data (abercrombie (fst (lstsq false data fc n g)) fc n g) ->
     M0' = fst (lstsq false data fc n g)).
  Proof.
    intros Hd HM.
    set (y := map (fun p => ln (snd p) - ln (source_model (fst p) 1 fc n g)) data).
    assert (Hy : y <> []) by (unfold y; destruct data; [congruence|discriminate]).
    rewrite <- lstsq_err.
    rewrite <- (mean_square_misfit data M0' fc n g (ln M0')) by auto.
    unfold SourceModel.lstsq. cbn [fst snd]. fold y.
    unfold mean_square. rewrite !map_map, !map_length.
    rewrite (mean_min y (ln M0') Hy). cbn zeta. set (m := rsum y / INR (length y)).
    assert (HN : 0 < INR (length y)) by (apply lt_0_INR; destruct y; [congruence|cbn; lia]).
    assert (0 < / INR (length y)) by now apply Rinv_0_lt_compat.
    split.
    - apply Rmult_le_compat_r; [lra|]. assert (0 <= (ln M0' - m) ^ 2) by apply pow2_ge_0. nra.
    - intros E. apply (Rmult_eq_reg_r (/ INR (length y))) in E; [|lra].
      assert (E2 : INR (length y) * (ln M0' - m) ^ 2 = 0) by lra.
      apply Rmult_integral in E2 as [E2|E2]; [lra|].
      assert (E3 : ln M0' - m = 0) by nra.
      rewrite <- (exp_ln M0') by assumption. f_equal. lra.
  Qed.

  Lemma log_misfit_exact data curve :
    (forall p, In p data -> snd p = curve (fst p)) -> log_misfit data curve = 0.
  Proof.
    intros H. unfold log_misfit.
    change (rsum (map (fun p => (ln (snd p) - ln (curve (fst p))) ^ 2) data) / INR (length data) = 0).
    rewrite (rsum_ext _ (fun _ => 0)).
    - rewrite rsum_const. unfold Rdiv. ring.
    - intros p Hp. rewrite (H p Hp). ring.
  Qed.

  Lemma log_misfit_zero data curve :
    data <> [] -> (forall p, In p data -> 0 < snd p) -> (forall p, In p data -> 0 < curve (fst p)) ->
    log_misfit data curve = 0 -> forall p, In p data -> snd p = curve (fst p).
  Proof.
    intros Hd Hp Hc H.
    assert (HN : 0 < INR (length data)) by (apply lt_0_INR; destruct data; [congruence|cbn; lia]).
    assert (S : rsum (map (fun p => (ln (snd p) - ln (curve (fst p))) ^ 2) data) = 0).
    { unfold log_misfit in H. unfold rsum. apply Rmult_integral in H as [H|H]; [assumption|].
      assert (0 < / INR (length data)) by now apply Rinv_0_lt_compat. lra. }
    clear H HN Hd. induction data as [|q data IH]; [intros p []|].
    cbn [map] in S. rewrite rsum_cons in S.
    assert (H1 : 0 <= (ln (snd q) - ln (curve (fst q))) ^ 2) by apply pow2_ge_0.
    assert (H2 : 0 <= rsum (map (fun p => (ln (snd p) - ln (curve (fst p))) ^ 2) data))
      by (apply rsum_nonneg; intros; apply pow2_ge_0).
    intros p [<-|Hin].
    - assert (E : ln (snd q) = ln (curve (fst q))) by nra.
      apply ln_inv; auto; [apply Hp|apply Hc]; now left.
    - apply IH; auto; try (intros; try apply Hp; try apply Hc; now right). lra.
  Qed.

  (** *** the fixed parameter fit *)
  Lemma fit_fixed freq omM o fc n g :
    o_fc o = Some fc -> o_n o = Some n -> o_gamma o = Some g ->
    present freq omM <> [] ->
    (forall np, o_num_points o = Some np -> (np <= length (present freq omM))%nat) ->
    fit_sds "fit" freq omM o = Ok (Some (lstsq_dict (lstsq false (present freq omM) fc n g))).
  Proof.
    intros E1 E2 E3 Hd Hnp. unfold SourceModel.fit_sds.
    change (("fit" =? "mean")%string) with false. change (("fit" =? "fit")%string) with true. cbv iota.
    unfold SourceModel.fit_model. set (data := present freq omM) in *.
    assert ((length data =? 0)%nat = false) as ->.
    { apply Nat.eqb_neq. destruct data; [congruence|cbn; lia]. }
    assert (too_few (o_num_points o) (length data) = false) as ->.
    { unfold too_few. destruct (o_num_points o); [|reflexivity]. apply Nat.ltb_ge. now apply Hnp. }
    cbn [orb andb]. unfold unknowns. rewrite E1, E2, E3. cbn [isNone andb app length]. reflexivity.
  Qed.

  Lemma fit_fixed_optimal freq omM o fc n g :
    o_fc o = Some fc -> o_n o = Some n -> o_gamma o = Some g ->
    present freq omM <> [] ->
    (forall np, o_num_points o = Some np -> (np <= length (present freq omM))%nat) ->
    exists M0 e, fit_sds "fit" freq omM o = Ok (Some [("M0", Some M0); ("fit_error", Some e)]) /\
      0 < M0 /\ e = sqrt (log_misfit (present freq omM) (abercrombie M0 fc n g)) /\
      forall M0', 0 < M0' ->
        log_misfit (present freq omM) (abercrombie M0 fc n g)
          <= log_misfit (present freq omM) (abercrombie M0' fc n g) /\
        (log_misfit (present freq omM) (abercrombie M0' fc n g) =
         log_misfit (present freq omM) (abercrombie M0 fc n g) -> M0' = M0).
  Proof.
    intros E1 E2 E3 Hd Hnp. rewrite (fit_fixed freq omM o fc n g) by assumption.
    set (r := lstsq false (present freq omM) fc n g).
    exists (fst r), (sqrt (snd r)). split; [reflexivity|]. split; [apply lstsq_pos|].
    split; [f_equal; apply lstsq_err|]. intros M0' HM. now apply lstsq_min.
  Qed.

  Lemma log_misfit_nonneg data curve : 0 <= log_misfit data curve.
  Proof.
    unfold log_misfit. destruct data as [|p data].
    - cbn. unfold Rdiv. rewrite Rmult_0_l. lra.
    - apply Rmult_le_pos; [apply (rsum_nonneg (fun p => (ln (snd p) - ln (curve (fst p))) ^ 2)); intros; apply pow2_ge_0|].
      left. apply Rinv_0_lt_compat. apply lt_0_INR. cbn. lia.
  Qed.

  Lemma fit_fixed_recovery freq omM o fc n g Mt :
    o_fc o = Some fc -> o_n o = Some n -> o_gamma o = Some g ->
    present freq omM <> [] ->
    (forall np, o_num_points o = Some np -> (np <= length (present freq omM))%nat) ->
    0 < Mt -> (forall p, In p (present freq omM) -> snd p = abercrombie Mt fc n g (fst p)) ->
    fit_sds "fit" freq omM o = Ok (Some [("M0", Some Mt); ("fit_error", Some 0)]).
  Proof.
    intros E1 E2 E3 Hd Hnp HM Hex.
    destruct (fit_fixed_optimal freq omM o fc n g E1 E2 E3 Hd Hnp) as (M0 & e & -> & Hpos & He & Hmin).
    destruct (Hmin Mt HM) as [H1 H2].
    rewrite (log_misfit_exact _ _ Hex) in H1, H2.
    assert (Hz : log_misfit (present freq omM) (abercrombie M0 fc n g) = 0).
    { apply Rle_antisym; [assumption|apply log_misfit_nonneg]. }
    rewrite Hz in *. rewrite sqrt_0 in He. subst e. now rewrite (H2 eq_refl).
  Qed.


  Lemma reported_given o d k x : o = Some x -> reported o d k x.
  Proof. intros ->. reflexivity. Qed.

  Lemma lstsqab_err robust data fc a b M0 e : b <> 0 ->
    lstsqab robust data fc a = (M0, b, e) ->
    0 < M0 /\ e = log_misfit data (abercrombie M0 fc (a * b) (1 / b)).
  Proof.
    intros Hb. unfold SourceModel.lstsqab.
    destruct (lin2 robust _ _) as [p0 p1]. intros H. injection H as E1 E2 E3.
    subst p1. split; [rewrite <- E1; apply exp_pos|].
    rewrite <- E3. unfold mean_square, log_misfit.
    assert (Ec : combine (map (fun p => ln (snd p)) data)
              (map (fun p => ln (source_model_ab (fst p) 1 fc a 1)) data) =
            map (fun p => (ln (snd p), ln (source_model_ab (fst p) 1 fc a 1))) data).
    { clear. induction data as [|p data IH]; cbn; [reflexivity|now rewrite IH]. }
    rewrite Ec, !map_map, map_length. f_equal. apply rsum_ext. intros p _. cbn [fst snd].
    rewrite ln_abercrombie by (rewrite <- E1; apply exp_pos). rewrite (ab_reparam (fst p) 1 fc a b Hb).
    rewrite <- E1, ln_exp. unfold source_model_ab.
    rewrite !Rmult_1_l. unfold Rpower at 1 3. rewrite !ln_exp. f_equal. ring.
  Qed.


  (** outcome of a fit for each set of unknown parameters *)
  Inductive outcome (rb : bool) (data : list (R * R)) (o : fopts) : fitdict -> Prop :=
  | out_none : o_fc o <> None -> o_n o <> None -> o_gamma o <> None ->
      outcome rb data o (lstsq_dict (lstsq rb data (given (o_fc o)) (given (o_n o)) (given (o_gamma o))))
  | out_fc x : o_fc o = None -> o_n o <> None -> o_gamma o <> None ->
      min1 (fun x => snd (lstsq rb data x (given (o_n o)) (given (o_gamma o)))) (bounds data o "fc") = Ok x ->
      outcome rb data o (("fc", Some x) :: lstsq_dict (lstsq rb data x (given (o_n o)) (given (o_gamma o))))
  | out_n x : o_fc o <> None -> o_n o = None -> o_gamma o <> None ->
      min1 (fun x => snd (lstsq rb data (given (o_fc o)) x (given (o_gamma o)))) (bounds data o "n") = Ok x ->
      outcome rb data o (("n", Some x) :: lstsq_dict (lstsq rb data (given (o_fc o)) x (given (o_gamma o))))
  | out_gamma x : o_fc o <> None -> o_n o <> None -> o_gamma o = None ->
      min1 (fun x => snd (lstsq rb data (given (o_fc o)) (given (o_n o)) x)) (bounds data o "gamma") = Ok x ->
      outcome rb data o (("gamma", Some x) :: lstsq_dict (lstsq rb data (given (o_fc o)) (given (o_n o)) x))
  | out_fcn x : o_fc o = None -> o_n o = None -> o_gamma o <> None ->
      minN (fun x => snd (lstsq rb data (nth 0 x 0) (nth 1 x 0) (given (o_gamma o))))
        [o_fc0 o; o_n0 o] [bounds data o "fc"; bounds data o "n"] = Ok x ->
      outcome rb data o (("fc", Some (nth 0 x 0)) :: ("n", Some (nth 1 x 0)) ::
        lstsq_dict (lstsq rb data (nth 0 x 0) (nth 1 x 0) (given (o_gamma o))))
  | out_fcgamma x : o_fc o = None -> o_n o <> None -> o_gamma o = None ->
      minN (fun x => snd (lstsq rb data (nth 0 x 0) (given (o_n o)) (nth 1 x 0)))
        [o_fc0 o; o_gamma0 o] [bounds data o "fc"; bounds data o "gamma"] = Ok x ->
      outcome rb data o (("fc", Some (nth 0 x 0)) :: ("gamma", Some (nth 1 x 0)) ::
        lstsq_dict (lstsq rb data (nth 0 x 0) (given (o_n o)) (nth 1 x 0)))
  | out_a x : o_fc o <> None -> o_n o = None -> o_gamma o = None ->
      min1 (fun x => snd (lstsqab rb data (given (o_fc o)) x)) (bounds data o "a") = Ok x ->
      let r := lstsqab rb data (given (o_fc o)) x in
      outcome rb data o [("M0", Some (fst (fst r))); ("fit_error", Some (sqrt (snd r)));
        ("gamma", Some (1 / snd (fst r))); ("n", Some (x * snd (fst r)))]
  | out_fca x : o_fc o = None -> o_n o = None -> o_gamma o = None ->
      minN (fun x => snd (lstsqab rb data (nth 0 x 0) (nth 1 x 0)))
        [o_fc0 o; o_gamma0 o * o_n0 o] [bounds data o "fc"; bounds data o "a"] = Ok x ->
      let r := lstsqab rb data (nth 0 x 0) (nth 1 x 0) in
      outcome rb data o [("fc", Some (nth 0 x 0)); ("M0", Some (fst (fst r)));
        ("fit_error", Some (sqrt (snd r)));
        ("gamma", Some (1 / snd (fst r))); ("n", Some (nth 1 x 0 * snd (fst r)))].



  Lemma fit_model_outcome robust_fit data o d :
    fit_model robust_fit data o = Ok (Some d) ->
    (d = [] /\ (0 < nsearch o)%nat /\ (length data <= nsearch o)%nat) \/
    ((nsearch o = 0 \/ nsearch o < length data)%nat /\ outcome (robust_used robust_fit data o) data o d).
  Proof.
    unfold SourceModel.fit_model.
    destruct (_ || _)%bool; [discriminate|].
    fold (robust_used robust_fit data o).
    set (rb := robust_used robust_fit data o). clearbody rb.
    destruct (o_fc o) as [fc|] eqn:Efc, (o_n o) as [n|] eqn:En, (o_gamma o) as [g|] eqn:Eg;
      unfold nsearch, unknowns; rewrite ?Efc, ?En, ?Eg;
      cbn [isNone orb andb app length Nat.eqb Nat.add Nat.leb];
      unfold SourceModel.wrapper; rewrite ?Efc, ?En, ?Eg; cbn [given hd String.concat String.append]; streq; cbv iota;
      rewrite ?andb_true_r, ?andb_false_r;
      try (match goal with |- context [Nat.ltb 1 (length data)] => destruct (Nat.ltb_spec 1 (length data)) as [L|L] end);
      try (match goal with |- context [Nat.ltb 2 (length data)] => destruct (Nat.ltb_spec 2 (length data)) as [L2|L2] end);
      try (intros [= <-]; left; split; [reflexivity|lia]).
    all: try (destruct (min1 _ _) as [x|] eqn:Ex; cbn [bind]; [|discriminate]).
    all: try (destruct (minN _ _ _) as [x|] eqn:Ex; cbn [bind]; [|discriminate]).
    all: intros Hd; apply Ok_Some_inj in Hd; subst d; right; (split; [lia|]).
    - assert (H := out_none rb data o). rewrite Efc, En, Eg in H. apply H; discriminate.
    - assert (H := out_gamma rb data o x). rewrite Efc, En, Eg in H. apply H; [discriminate|discriminate|reflexivity|exact Ex].
    - assert (H := out_n rb data o x). rewrite Efc, En, Eg in H. apply H; [discriminate|reflexivity|discriminate|exact Ex].
    - assert (H := out_a rb data o x). rewrite Efc, En, Eg in H. apply H; [discriminate|reflexivity|reflexivity|exact Ex].
    - assert (H := out_fc rb data o x). rewrite Efc, En, Eg in H. apply H; [reflexivity|discriminate|discriminate|exact Ex].
    - assert (H := out_fcgamma rb data o x). rewrite Efc, En, Eg in H. apply H; [reflexivity|discriminate|reflexivity|exact Ex].
    - assert (H := out_fcn rb data o x). rewrite Efc, En, Eg in H. apply H; [reflexivity|reflexivity|discriminate|exact Ex].
    - assert (H := out_fca rb data o x). rewrite Efc, En, Eg in H. apply H; [reflexivity|reflexivity|reflexivity|exact Ex].
  Qed.

  Lemma fit_model_none robust_fit data o :
    fit_model robust_fit data o = Ok None <->
    data = [] \/ exists np, o_num_points o = Some np /\ (length data < np)%nat.
  Proof.
    unfold SourceModel.fit_model. split.
    - destruct (_ || _)%bool eqn:E.
      + intros _. apply orb_true_iff in E as [E|E].
        * left. destruct data; [reflexivity|discriminate].
        * right. unfold too_few in E. destruct (o_num_points o); [|discriminate].
          eexists. split; [reflexivity|]. now apply Nat.ltb_lt.
      + clear E. generalize (robust_fit && (o_fall_back o <=? length data)%nat)%bool as rb. intros rb.
        destruct (length (unknowns o) =? 0)%nat; [discriminate|].
        destruct ((length (unknowns o) =? 1)%nat && (1 <? length data)%nat)%bool.
        * destruct (wrapper _ _ _ _) as [[? ?]|]; [|discriminate].
          destruct (min1 _ _); cbn [bind]; discriminate.
        * destruct ((length (unknowns o) <? length data)%nat && (2 <=? length (unknowns o))%nat)%bool; [|discriminate].
          destruct (wrapper _ _ _ _) as [[? ?]|]; [|discriminate].
          destruct (minN _ _ _); cbn [bind]; discriminate.
    - intros H. assert (((length data =? 0)%nat || too_few (o_num_points o) (length data))%bool = true) as ->;
        [|reflexivity].
      apply orb_true_iff. destruct H as [->|(np & E & H)]; [now left|right].
      unfold too_few. rewrite E. now apply Nat.ltb_lt.
  Qed.

  Ltac nn H := match type of H with ?x <> None => destruct x eqn:?; [|now elim H] end.

  Lemma outcome_consistent rb data o d :
    outcome rb data o d ->
    (forall g, reported (o_gamma o) d "gamma" g -> g <> 0) ->
    exists M0 fc n g e,
      dget String.eqb d "M0" = Some (Some M0) /\ 0 < M0 /\
      reported (o_fc o) d "fc" fc /\ reported (o_n o) d "n" n /\ reported (o_gamma o) d "gamma" g /\
      dget String.eqb d "fit_error" = Some (Some e) /\
      e = sqrt (log_misfit data (abercrombie M0 fc n g)).
  Proof.
    intros [F N G|x F N G E|x F N G E|x F N G E|x F N G E|x F N G E|x F N G E r|x F N G E r] Hg;
      unfold reported in *; rewrite ?F, ?N, ?G in *;
      try nn F; try nn N; try nn G; cbn [given] in *.
    1-6: match goal with |- context [lstsq_dict ?r] =>
        set (q := r); exists (fst q); do 3 eexists; exists (sqrt (snd q));
        repeat split; try reflexivity; [apply lstsq_pos|f_equal; apply lstsq_err] end.
    all: assert (Hb : snd (fst r) <> 0) by
      (intros Z; apply (Hg (1 / snd (fst r))); [reflexivity|rewrite Z; unfold Rdiv; rewrite Rinv_0; ring]).
    all: destruct r as [[M0 b] e] eqn:Er; cbn [fst snd] in *.
    all: apply lstsqab_err in Er as [HM He]; [|assumption].
    all: exists M0; do 3 eexists; exists (sqrt e); repeat split; try reflexivity; try assumption; f_equal; exact He.
  Qed.


  Lemma outcome_keys rb data o d : outcome rb data o d -> same_keys d (determined o).
  Proof.
    intros [F N G|x F N G E|x F N G E|x F N G E|x F N G E|x F N G E|x F N G E r|x F N G E r] k;
      unfold determined; rewrite ?F, ?N, ?G;
      try nn F; try nn N; try nn G; cbn; tauto.
  Qed.


  Lemma present_scale k freq omM : present freq (scale_spec k omM) = scale_data k (present freq omM).
  Proof.
    revert omM. induction freq as [|f fs IH]; intros [|[o|] os]; cbn; auto; [f_equal|]; apply IH.
  Qed.

  Lemma rsum_shift c (y : list R) : rsum (map (fun v => v + c) y) = rsum y + INR (length y) * c.
  Proof.
    induction y as [|x y IH]; [cbn; ring|]. cbn [map length]. rewrite !rsum_cons, IH, S_INR. ring.
  Qed.


  Lemma lstsq_scale rb k data fc n g :
    (rb = true -> translation_equivariant) ->
    0 < k -> data <> [] -> (forall p, In p data -> 0 < snd p) ->
    lstsq rb (scale_data k data) fc n g =
      (k * fst (lstsq rb data fc n g), snd (lstsq rb data fc n g)).
  Proof.
    intros Hr Hk Hd Hp. unfold SourceModel.lstsq. cbn [fst snd].
    set (y := map (fun p => ln (snd p) - ln (source_model (fst p) 1 fc n g)) data).
    assert (Ey : map (fun p => ln (snd p) - ln (source_model (fst p) 1 fc n g)) (scale_data k data) =
                 map (fun v => v + ln k) y).
    { unfold y, scale_data. rewrite !map_map. apply map_ext_in. intros p Hin. cbn [fst snd].
      rewrite ln_mult by auto. ring. }
    rewrite Ey.
    assert (Hy : y <> []) by (unfold y; destruct data; [congruence|discriminate]).
    assert (HN : INR (length y) <> 0) by (apply not_0_INR; destruct y; [congruence|cbn; lia]).
    set (m := if rb then rlm1 y else rsum y / INR (length y)).
    assert (Em : (if rb then rlm1 (map (fun v => v + ln k) y)
                  else rsum (map (fun v => v + ln k) y) / INR (length (map (fun v => v + ln k) y))) = m + ln k).
    { unfold m. destruct rb; [now apply Hr|]. rewrite rsum_shift, map_length. field. assumption. }
    rewrite Em. f_equal.
    - rewrite exp_plus, exp_ln by assumption. ring.
    - unfold mean_square. rewrite !map_map, !map_length. f_equal. apply rsum_ext. intros v _. f_equal. ring.
  Qed.


  Lemma lstsq_dict_scale k r : lstsq_dict (k * fst r, snd r) = scale_M0 k (lstsq_dict r).
  Proof. reflexivity. Qed.

  Lemma bounds_scale k data o u : bounds (scale_data k data) o u = bounds data o u.
  Proof.
    unfold bounds. destruct (String.eqb u "fc"); [|reflexivity].
    destruct (o_fc_lim o); [reflexivity|]. f_equal. f_equal.
    - destruct data; reflexivity.
    - unfold scale_data. assert (E : forall d, fst (last (map (fun p : R * R => (fst p, k * snd p)) data) d) =
        fst (last data d)).
      { intros d. induction data as [|p [|q l] IH]; cbn in *; auto. }
      apply E.
  Qed.

  Lemma fit_model_scale robust_fit k data o :
    (robust_used robust_fit data o = true -> translation_equivariant) ->
    (o_n o <> None \/ o_gamma o <> None) ->
    0 < k -> (forall p, In p data -> 0 < snd p) ->
    fit_model robust_fit (scale_data k data) o =
    match fit_model robust_fit data o with
    | Ok d => Ok (option_map (scale_M0 k) d)
    | Err e => Err e
    end.
  Proof.
    intros Hr Hng Hk Hp. unfold SourceModel.fit_model.
    assert (EL : length (scale_data k data) = length data) by (unfold scale_data; now rewrite map_length).
    rewrite EL.
    destruct (_ || _)%bool eqn:E0; [reflexivity|].
    assert (Hd : data <> []) by (intros ->; discriminate).
    fold (robust_used robust_fit data o). set (rb := robust_used robust_fit data o) in *.
    assert (EQ : forall fc n g, lstsq rb (scale_data k data) fc n g =
      (k * fst (lstsq rb data fc n g), snd (lstsq rb data fc n g)))
      by (intros; now apply lstsq_scale).
    clearbody rb.
    assert (EB : bounds (scale_data k data) o = bounds data o)
      by (apply functional_extensionality; apply bounds_scale).
    assert (OB : forall (h : R -> R * R * R), (fun x => snd (let '(a, b, c) := h x in lstsq rb (scale_data k data) a b c)) =
                          (fun x => snd (let '(a, b, c) := h x in lstsq rb data a b c))).
    { intros h. apply functional_extensionality. intros x. destruct (h x) as [[a b] c]. now rewrite EQ. }
    assert (OBN : forall (h : list R -> R * R * R), (fun x => snd (let '(a, b, c) := h x in lstsq rb (scale_data k data) a b c)) =
                          (fun x => snd (let '(a, b, c) := h x in lstsq rb data a b c))).
    { intros h. apply functional_extensionality. intros x. destruct (h x) as [[a b] c]. now rewrite EQ. }
    destruct (o_fc o) as [fc|] eqn:Efc, (o_n o) as [n|] eqn:En, (o_gamma o) as [g|] eqn:Eg;
      try (destruct Hng; congruence);
      unfold unknowns; rewrite ?Efc, ?En, ?Eg;
      cbn [isNone orb andb app length Nat.eqb Nat.add Nat.leb];
      unfold SourceModel.wrapper; rewrite ?Efc, ?En, ?Eg, ?EB; cbn [given hd String.concat String.append]; streq; cbv iota;
      rewrite ?andb_true_r, ?andb_false_r;
      try (match goal with |- context [Nat.ltb 1 (length data)] => destruct (Nat.ltb_spec 1 (length data)) as [L|L] end);
      try (match goal with |- context [Nat.ltb 2 (length data)] => destruct (Nat.ltb_spec 2 (length data)) as [L2|L2] end);
      try reflexivity.
    - now rewrite EQ.
    - rewrite (OB (fun x => (fc, n, nth 0 [x] 0))). cbv beta iota.
      destruct (min1 _ _) as [x|]; cbn [bind]; [|reflexivity]. rewrite EQ. reflexivity.
    - rewrite (OB (fun x => (fc, nth 0 [x] 0, g))). cbv beta iota.
      destruct (min1 _ _) as [x|]; cbn [bind]; [|reflexivity]. rewrite EQ. reflexivity.
    - rewrite (OB (fun x => (nth 0 [x] 0, n, g))). cbv beta iota.
      destruct (min1 _ _) as [x|]; cbn [bind]; [|reflexivity]. rewrite EQ. reflexivity.
    - rewrite (OBN (fun x => (nth 0 x 0, n, nth 1 x 0))). cbv beta iota.
      destruct (minN _ _ _) as [x|]; cbn [bind]; [|reflexivity]. rewrite EQ. reflexivity.
    - rewrite (OBN (fun x => (nth 0 x 0, nth 1 x 0, g))). cbv beta iota.
      destruct (minN _ _ _) as [x|]; cbn [bind]; [|reflexivity]. rewrite EQ. reflexivity.
  Qed.



  Lemma sse2_shift y x c p : sse2 (map (fun v => v + c) y) x p = sse2 y x (fst p - c, snd p).
  Proof.
    unfold sse2. revert x. induction y as [|v y IH]; intros [|u x]; cbn [map combine]; try reflexivity.
    rewrite !rsum_cons, IH. cbn [fst snd]. f_equal. ring.
  Qed.

  Lemma lstsqab_scale k data fc a :
    least_squares2 -> 0 < k -> (forall p, In p data -> 0 < snd p) ->
    snd (lstsqab false (scale_data k data) fc a) = snd (lstsqab false data fc a).
  Proof.
    intros LS Hk Hp. unfold SourceModel.lstsqab.
    set (y := map (fun p => ln (snd p)) data).
    assert (Ey : map (fun p => ln (snd p)) (scale_data k data) = map (fun v => v + ln k) y).
    { unfold y, scale_data. rewrite !map_map. apply map_ext_in. intros p Hin. cbn [fst snd].
      rewrite ln_mult by auto. ring. }
    assert (Ex : map (fun p => ln (source_model_ab (fst p) 1 fc a 1)) (scale_data k data) =
                 map (fun p => ln (source_model_ab (fst p) 1 fc a 1)) data).
    { unfold scale_data. rewrite map_map. reflexivity. }
    rewrite Ey, Ex. set (x := map (fun p => ln (source_model_ab (fst p) 1 fc a 1)) data).
    set (y' := map (fun v => v + ln k) y).
    assert (L1 := LS y x). assert (L2 := LS y' x).
    destruct (lin2 false y x) as [p0 p1]. destruct (lin2 false y' x) as [q0 q1]. cbn [snd].
    unfold mean_square. rewrite !map_map, !map_length.
    assert (El : length (combine y' x) = length (combine y x)).
    { rewrite !combine_length. unfold y'. now rewrite map_length. }
    rewrite El. f_equal.
    change (sse2 y' x (q0, q1) = sse2 y x (p0, p1)).
    apply Rle_antisym.
    - eapply Rle_trans; [apply (L2 (p0 + ln k, p1))|]. unfold y'. rewrite sse2_shift. cbn [fst snd].
      replace (p0 + ln k - ln k) with p0 by ring. lra.
    - unfold y'. rewrite sse2_shift. apply L1.
  Qed.


  Lemma lstsq_le data fc n g M0 : data <> [] -> 0 < M0 ->
    snd (lstsq false data fc n g) <= log_misfit data (abercrombie M0 fc n g).
  Proof. intros. rewrite lstsq_err. now apply lstsq_min. Qed.

  Lemma lstsqab_le data fc a b M0 : least_squares2 -> b <> 0 -> 0 < M0 ->
    snd (lstsqab false data fc a) <= log_misfit data (abercrombie M0 fc (a * b) (1 / b)).
  Proof.
    intros LS Hb HM. unfold SourceModel.lstsqab.
    set (y := map (fun p => ln (snd p)) data).
    set (x := map (fun p => ln (source_model_ab (fst p) 1 fc a 1)) data).
    assert (L := LS y x (ln M0, b)). destruct (lin2 false y x) as [p0 p1]. cbn [snd].
    unfold mean_square, log_misfit. rewrite map_map, map_length.
    assert (El : length (combine y x) = length data).
    { rewrite combine_length. unfold y, x. rewrite !map_length. lia. }
    rewrite El. apply Rmult_le_compat_r.
    { destruct data; [cbn; rewrite Rinv_0; lra|]. left. apply Rinv_0_lt_compat, lt_0_INR. cbn. lia. }
    change (fold_right Rplus 0) with rsum.
    eapply Rle_trans; [exact L|]. right. unfold sse2. cbn [fst snd].
    assert (Ec : combine y x = map (fun p => (ln (snd p), ln (source_model_ab (fst p) 1 fc a 1))) data).
    { unfold x, y. clear. induction data as [|p data IH]; cbn; [reflexivity|now rewrite IH]. }
    rewrite Ec, map_map. apply rsum_ext. intros p _. cbn [fst snd].
    rewrite ln_abercrombie by assumption. rewrite (ab_reparam (fst p) 1 fc a b Hb).
    unfold source_model_ab.
    rewrite !Rmult_1_l. unfold Rpower at 1 3. rewrite !ln_exp. f_equal. ring.
  Qed.



  Lemma outcome_recovers data o d Mt fct nt gt :
    exact1 -> exactN -> least_squares2 ->
    data <> [] -> 0 < Mt -> gt <> 0 ->
    allowed (o_fc o) (bounds data o "fc") fct ->
    (o_n o <> None \/ o_gamma o <> None ->
     allowed (o_n o) (o_n_lim o) nt /\ allowed (o_gamma o) (o_gamma_lim o) gt) ->
    ab_limits o nt gt ->
    (forall p, In p data -> snd p = abercrombie Mt fct nt gt (fst p)) ->
    outcome false data o d ->
    dget String.eqb d "fit_error" = Some (Some 0).
  Proof.
    intros X1 XN LS Hd HM Hgt Afc Ang Aab Hex Ho.
    assert (Z : log_misfit data (abercrombie Mt fct nt gt) = 0) by now apply log_misfit_exact.
    assert (P1 : forall fc n g, snd (lstsq false data fc n g) <= 0 -> sqrt (snd (lstsq false data fc n g)) = 0).
    { intros fc n g H. replace (snd (lstsq false data fc n g)) with 0; [apply sqrt_0|].
      apply Rle_antisym; [rewrite lstsq_err; apply log_misfit_nonneg|assumption]. }
    assert (P0 : 0 <= log_misfit data (abercrombie Mt fct nt gt)) by apply log_misfit_nonneg.
    assert (T : snd (lstsq false data fct nt gt) <= 0) by (rewrite <- Z; now apply lstsq_le).
    assert (Pab : forall fc a, 0 <= snd (lstsqab false data fc a)).
    { intros fc a. unfold SourceModel.lstsqab. destruct (lin2 _ _ _) as [p0 p1]. cbn [snd].
      unfold mean_square. match goal with |- 0 <= rsum (map ?f ?l) / INR ?n => destruct l eqn:El; [cbn; unfold Rdiv; rewrite Rmult_0_l; lra|] end.
      apply Rmult_le_pos; [apply rsum_nonneg; intros; apply pow2_ge_0|].
      left. apply Rinv_0_lt_compat, lt_0_INR. cbn. lia. }
    assert (Tab : snd (lstsqab false data fct (nt * gt)) <= 0).
    { rewrite <- Z. replace (abercrombie Mt fct nt gt) with
        (abercrombie Mt fct (nt * gt * (1 / gt)) (1 / (1 / gt))).
      - apply lstsqab_le; auto. unfold Rdiv. rewrite Rmult_1_l. now apply Rinv_neq_0_compat.
      - f_equal; field; assumption. }
    destruct Ho as [F N G|x F N G E|x F N G E|x F N G E|x F N G E|x F N G E|x F N G E r|x F N G E r];
      unfold ab_limits, allowed in *; rewrite ?F, ?N, ?G in *;
      try nn F; try nn N; try nn G; cbn [given] in *;
      try (destruct Ang as [An Ag]; [first [left; discriminate | right; discriminate]|]);
      subst; cbn -[sqrt]; do 2 f_equal.
    - now apply P1.
    - apply P1. eapply Rle_trans; [apply (X1 _ _ _ E fct); assumption|]. assumption.
    - apply P1. eapply Rle_trans; [apply (X1 _ _ _ E nt); exact An|]. assumption.
    - apply P1. eapply Rle_trans; [apply (X1 _ _ _ E gt); exact Ag|]. assumption.
    - apply P1. eapply Rle_trans; [apply (XN _ _ _ _ E [fct; nt]); repeat constructor; assumption|]. assumption.
    - apply P1. eapply Rle_trans; [apply (XN _ _ _ _ E [fct; gt]); repeat constructor; assumption|]. assumption.
    - unfold r. replace (snd (lstsqab false data r0 x)) with 0; [apply sqrt_0|].
      apply Rle_antisym; [apply Pab|]. eapply Rle_trans; [apply (X1 _ _ _ E (nt * gt))|exact Tab].
      specialize (Aab eq_refl eq_refl). unfold within1, bounds. cbn.
      destruct (o_n_lim o), (o_gamma_lim o); auto.
    - unfold r. replace (snd (lstsqab false data (nth 0 x 0) (nth 1 x 0))) with 0; [apply sqrt_0|].
      apply Rle_antisym; [apply Pab|]. eapply Rle_trans; [apply (XN _ _ _ _ E [fct; nt * gt])|exact Tab].
      specialize (Aab eq_refl eq_refl). constructor; [assumption|]. constructor; [|constructor].
      unfold within1, bounds. cbn.
      destruct (o_n_lim o), (o_gamma_lim o); auto.
  Qed.
End Fit.
