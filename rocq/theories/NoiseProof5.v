(** C136: energies with errors and given site responses. *)
From Coq Require Import String List Bool Reals Lra Lia ZArith Arith Permutation.
From Verif Require Import Base Pyf PyfOps StatModel StatProof FbModel FbProof3 SiteProof LsqfbModel LsqfbSpec LsqfbProof LsqfbProof2 LsqfbProof3 LsqfbProof4 LsqfbProof5 GainSpec GainProof GainProof2 GainProof3 ShuffleSpec ShuffleProof ShuffleProof2 ShuffleProof3 ShuffleProof4 NoiseSpec NoiseProof NoiseProof2 NoiseProof3 NoiseProof4.
Import ListNotations.
Open Scope string_scope.
Open Scope list_scope.
Open Scope R_scope.

Lemma src_list st c : List.length c = Ne st -> map exp c = map (src_at st c) (eventids st).
Proof.
  intros LC. apply (nth_ext _ _ 0 0); [now rewrite !map_length|]. intros k KL. rewrite map_length, LC in KL. unfold Ne in KL.
  destruct (nth_error (eventids st) k) as [e|] eqn:E; [|apply nth_error_None in E; lia].
  rewrite (nth_error_nth _ _ 0 (map_nth_error (src_at st c) _ _ E)).
  pose proof (index_of_nodup _ (proj1 (fromkeys_spec (map fst (pairs st)))) _ _ E) as IX.
  unfold src_at, eventids. rewrite IX.
  rewrite (nth_indep _ 0 (exp 0)) by (rewrite map_length, LC; exact KL). apply map_nth.
Qed.

Lemma zip_less (K L : sample -> R) eps ss : forall b z,
  Forall2 (fun s y => Rabs (y - (K s + L s)) <= eps) ss b ->
  zip_op fsub (map FNum b) (map (fun s => FNum (L s)) ss) = Ok z ->
  exists b', z = map FNum b' /\ Forall2 (fun s y => Rabs (y - K s) <= eps) ss b'.
Proof.
  induction ss as [|s ss IH]; intros b z F H; inversion F as [|? y ? b' Q F']; subst; cbn [map zip_op] in H.
  - injection H as <-. exists []. split; [reflexivity|constructor].
  - destruct (zip_op fsub _ _) as [r|] eqn:E; [|discriminate]. cbn [bind] in H. injection H as <-.
    destruct (IH b' r F' E) as (b2 & -> & F2). exists (y - L s :: b2). split; [reflexivity|]. constructor; [|exact F2].
    now replace (y - L s - K s) with (y - (K s + L s)) by ring.
Qed.

Section R.
  Variables (eps : R) (o : lopts) (st : wstate) (dof : nat -> nat -> R) (site source : string -> R) (bt : R) (params : list (string * pyf)).
  Hypothesis E0 : 0 <= eps.
  Hypothesis AL : aligned st.
  Hypothesis LS : least_squares_full (l_wls o) dof.
  Hypothesis WP : good_weights o st.
  Hypothesis CN : l_coda_norm o = false.
  Hypothesis SITE : positive_on (map snd (pairs st)) site.
  Hypothesis SOURCE : positive_on (map fst (pairs st)) source.
  Hypothesis FS : l_fix_sites o = Some params.
  Hypothesis FX : l_fix o = true.
  Hypothesis PA : forall x, In x (map snd (pairs st)) -> dget String.eqb params x = Some (FNum (site x)).
  Let d := eps * sqrt (total_weight o st).

  (** command source *)
  Lemma near_source v0 r s g : l_fix_params o = Some (Some g, Some (FNum bt)) ->
    noisy_band eps o st g site source bt -> invert_band o st v0 = Ok (Some r, s) ->
    (exists W, fb_W r = Some W /\ near_table d (map fst (pairs st)) source W) /\
    (0 < dof (List.length (samples st)) (distinct (map fst (pairs st))) ->
     exists x, fb_error r = FNum x /\ 0 <= x <= eps * sqrt (total_weight o st / dof (List.length (samples st)) (distinct (map fst (pairs st))))).
  Proof.
    intros FP NB H.
    destruct (result_of o st site source SITE SOURCE v0 r s H) as (a & bs & rs & f & s0 & BU & ER & [(_ & g' & b' & FP' & L)|(FX' & _)]); [|congruence].
    rewrite FP in FP'. injection FP' as <- <-. rewrite FS in L.
    pose proof (lstsq_fit _ _ _ _ _ _ _ _ _ _ _ L) as S.
    unfold solve_at in S. destruct (rhs o st g (Some (FNum bt)) true bs) as [z|] eqn:RH; [|discriminate]. cbn [bind] in S.
    destruct (rhs_known o st eps g site source bt AL SITE SOURCE NB (Some (FNum bt)) true bs z eq_refl RH) as (gc & gb & b & GR & LG & TN & FB & EZ).
    pose proof (ecoda_nonempty o st g gc gb AL GR) as NEM.
    assert (PA' : forall x, In x (map snd (pairs st)) -> exists v, 0 < v /\ dget String.eqb params x = Some (FNum v)).
    { intros x I. exists (site x). split; [now apply SITE|now apply PA]. }
    destruct (src_build o st params AL FS FX PA' a bs rs BU) as (rows & EA & EB & G). destruct (src_lengths st rows G) as [LR LL].
    assert (EB' : bs = map (fun s : sample => FNum (ln (site (snd (fst s))))) (samples st)).
    { rewrite EB. apply map_ext_in. intros s1 I. apply sample_pair in I. apply (in_map snd) in I.
      unfold site_of. now rewrite (PA _ I). }
    rewrite EB' in EZ.
    destruct (zip_less (fun s => ln (source (fst (fst s)))) (fun s => ln (site (snd (fst s)))) eps (samples st) b z) as (b2 & -> & F2).
    { refine (Forall2_impl_in _ _ _ _ _ FB). intros s1 y _ _ Q. cbv beta in Q. now rewrite Rminus_0_r in Q. }
    { exact EZ. }
    assert (LB : List.length b2 = List.length (samples st)) by (symmetry; exact (Forall2_len _ _ _ F2)).
    destruct (l_wls o (map FNum b2) a _) as [[c' mse]|] eqn:W; [|discriminate]. cbn [bind] in S. rewrite EA in W.
    destruct (LS (Ne st) rows b2 _ c' mse LR ltac:(congruence) (src_determined st AL rows NEM G) W) as (c & -> & LC & M & EM).
    cbv zeta in M, EM. rewrite LL in M, EM.
    fold (wlist o st (List.length (samples st)) (map FNum b2)) in M, EM.
    destruct (wlist_spec o st AL gc gb (map FNum b2) eps g site source bt WP GR NB LG ltac:(now rewrite map_length)) as (W1 & W2 & W3).
    set (w := wlist o st (List.length (samples st)) (map FNum b2)) in *.
    pose proof (src_exact st c rows LC G) as EX. pose proof (src_truth_exact st source rows G) as EY.
    rewrite samples_split in EX, EY.
    destruct (near_targets (fun s => ln (src_at st c (fst (fst s)))) (fun s => ln (source (fst (fst s)))) rows b2 w c (src_truth st source) (Ne st) eps _ _ E0 W1 LC
      (map_length _ _) EX EY) as [SB NT]; [rewrite <- samples_split; exact F2|exact W2|exact M|].
    rewrite W3 in SB, NT. fold d in NT. pose proof (sse_nonneg rows b2 w c W1) as S0.
    rewrite FX, CN in S. cbn [bind decode] in S. injection S as S.
    assert (FW : forall e, In e (map fst (pairs st)) -> up_to d (src_at st c e) (source e)).
    { intros e I. pose proof I as I0. apply in_map_iff in I. destruct I as ((e' & sta) & Q & I). cbn in Q. subst e'.
      destruct (pair_has_sample (no_bulk st) (no_bulk_aligned st AL) (e, sta) NEM I) as (te & IS).
      apply log_up_to; [|now apply SOURCE|exact (NT _ IS)].
      unfold src_at. destruct (index_of _ _); [apply exp_pos|lra]. }
    rewrite ER. unfold arrange. rewrite <- S. cbn [fb_W fb_error f_W f_err]. rewrite CN. cbn [negb].
    assert (EW : map fexp (map FNum c) = map (fun e => FNum (src_at st c e)) (eventids st)).
    { rewrite map_map. cbn [fexp]. rewrite <- (map_map (src_at st c) FNum), <- (src_list st c LC), map_map. reflexivity. }
    rewrite EW. split.
    - eexists; split; [reflexivity|]; exact (table_near _ _ _ _ _ (table_combine _ _ (src_at st c) (fromkeys_spec _)) FW).
    - intros DOF. rewrite EM. rewrite <- distinct_fromkeys in *. change (List.length (fromkeys (map fst (pairs st)))) with (Ne st) in *.
      now apply error_bound.
  Qed.
End R.
