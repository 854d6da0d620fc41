(** C132: the two orders with given site responses. *)
From Coq Require Import String List Bool Reals Lra Lia ZArith Arith Permutation.
From Verif Require Import Base Pyf PyfOps StatModel StatProof FbModel FbProof3 SiteProof LsqfbModel LsqfbSpec LsqfbProof LsqfbProof2 LsqfbProof3 LsqfbProof4 LsqfbProof5 LsqfbProof6 GainSpec GainProof GainProof2 GainProof3 GainProof4 ShuffleSpec ShuffleProof ShuffleProof2 ShuffleProof3.
Import ListNotations.
Open Scope string_scope.
Open Scope list_scope.
Open Scope R_scope.

Definition src_at (st : wstate) (c : list R) (e : string) : R :=
  match index_of (eventids st) e with Ok i => exp (nth i c 0) | Err _ => 1 end.
Definition site_of (params : list (string * pyf)) (s : string) : R :=
  match dget String.eqb params s with Some (FNum v) => v | _ => 1 end.
(** right hand side with given site responses *)
Definition yr (params : list (string * pyf)) (bf : option pyf) (d : datum) : R :=
  yv bf d - ln (site_of params (snd (fst (d_s d)))).
Definition misfit_src (params : list (string * pyf)) (bf : option pyf) (T : list datum) (source : string -> R) : R :=
  tsum (fun d => d_w d * (ln (source (fst (fst (d_s d)))) - yr params bf d) * (ln (source (fst (fst (d_s d)))) - yr params bf d)) T.

Lemma sse_src params bf source c : forall T rows,
  Forall2 (fun r s => dotr r c = ln (source (fst (fst s)))) rows (map d_s T) ->
  sse rows (map (yr params bf) T) (map d_w T) c = misfit_src params bf T source.
Proof.
  induction T as [|d T IH]; intros rows F; inversion F as [|r ? rows' ? E F']; subst; [reflexivity|].
  cbn [map sse]. rewrite (IH _ F'), E. reflexivity.
Qed.

Lemma rhs_split o st g bf bs : rhs o st g bf true bs = bind (rhs o st g bf false bs) (fun b => zip_op fsub b bs).
Proof.
  unfold rhs. destruct (greens _ _ _ _ _ _) as [[gc gb]|]; [|reflexivity]. cbn [bind].
  destruct (zip_op fsub _ _); [|reflexivity]. cbn [bind].
  match goal with |- bind ?x _ = _ => destruct x; reflexivity end.
Qed.

Section One.
  Variables (o : lopts) (st : wstate) (l : list observed) (dof : nat -> nat -> R) (x bt : R) (params : list (string * pyf)).
  Hypothesis AR : arranged (l_bulk o) l st.
  Hypothesis AL : aligned st.
  Hypothesis NU : numeric st.
  Hypothesis LS : least_squares_full (l_wls o) dof.
  Hypothesis CN : l_coda_norm o = false.
  Hypothesis PG : positive_greens o st.
  Hypothesis GL : greens_lengths o st.
  Hypothesis FS : l_fix_sites o = Some params.
  Hypothesis FX : l_fix o = true.
  Hypothesis PA : forall x, In x (map snd (pairs st)) -> exists v, 0 < v /\ dget String.eqb params x = Some (FNum v).
  Hypothesis X : 0 < x.
  Let bf := Some (FNum bt).
  Let T := data o st x l.

  Definition src_rows (rows : list (list R)) : Prop :=
    Forall2 (fun row s => List.length row = Ne st /\
      exists idx, index_of (eventids st) (fst (fst s)) = Ok idx /\
      forall c, List.length c = Ne st -> dotr row c = nth idx c 0) rows (samples st).

  Lemma src_build a bs rs : build o st = Ok (a, bs, rs) -> exists rows, a = map (map FNum) rows /\
    bs = map (fun s => FNum (ln (site_of params (snd (fst s))))) (samples st) /\ src_rows rows.
  Proof.
    intros BU. destruct (build_sites o st AL params a bs rs FS FX BU) as (xs & F & EA & EB & _).
    assert (G : Forall2 (fun x s => flog (snd x) = FNum (ln (site_of params (snd (fst s)))) /\
                exists row, fst x = map FNum row /\ List.length row = Ne st /\
                exists idx, index_of (eventids st) (fst (fst s)) = Ok idx /\
                forall c, List.length c = Ne st -> dotr row c = nth idx c 0) xs (samples st)).
    { refine (Forall2_impl_in _ _ _ _ _ F). intros u s _ IS RO. pose proof (sample_pair st s IS) as IP.
      destruct (event_index st _ IP) as [idx I].
      destruct (row_sites_spec st params _ _ _ I RO) as (row & E1 & L & V & D).
      destruct (PA (snd (fst s)) (in_map snd _ _ IP)) as (v & VP & Q). unfold site_of. rewrite Q in *. injection V as V.
      split; [rewrite <- V; now apply flog_num|]. eauto 8. }
    rewrite EA, EB. unfold src_rows. clear - G. revert G. generalize (samples st).
    induction xs as [|u xs IH]; intros ss G; inversion G as [|? s ? ss' H G']; subst.
    - exists []. split; [reflexivity|]. split; [reflexivity|constructor].
    - destruct (IH _ G') as (rows & E2 & E3 & F). destruct H as (E4 & row & E1 & H). exists (row :: rows).
      cbn [map]. rewrite E1, E2, E3, E4. split; [reflexivity|]. split; [reflexivity|]. constructor; assumption.
  Qed.

  Lemma src_exact c rows : List.length c = Ne st -> src_rows rows ->
    Forall2 (fun r s => dotr r c = ln (src_at st c (fst (fst s)))) rows (samples st).
  Proof.
    intros LC G. refine (Forall2_impl_in _ _ _ _ _ G). intros row s _ _ (_ & i & I & D). rewrite (D c LC).
    unfold src_at. now rewrite I, ln_exp.
  Qed.

  Definition src_truth (source : string -> R) : list R := map (fun e => ln (source e)) (eventids st).
  Lemma src_truth_exact source rows : src_rows rows ->
    Forall2 (fun r s => dotr r (src_truth source) = ln (source (fst (fst s)))) rows (samples st).
  Proof.
    intros G. refine (Forall2_impl_in _ _ _ _ _ G). intros row s _ _ (_ & i & I & D). rewrite D by apply map_length.
    apply index_of_spec in I. exact (nth_error_nth _ _ _ (map_nth_error (fun e => ln (source e)) _ _ I)).
  Qed.

  (** equal products, equal vectors *)
  Lemma src_same c v rows : Forall (fun e => e <> []) (w_ecoda st) -> src_rows rows -> List.length c = Ne st -> List.length v = Ne st ->
    Forall (fun r => dotr r v = dotr r c) rows -> v = c.
  Proof.
    intros NEM G LC LV SAME. apply (nth_ext _ _ 0 0); [congruence|]. intros k KL. rewrite LV in KL. unfold Ne in KL.
    destruct (nth_error (eventids st) k) as [e|] eqn:EE; [|apply nth_error_None in EE; lia].
    pose proof (index_of_nodup _ (proj1 (fromkeys_spec (map fst (pairs st)))) _ _ EE) as IX.
    assert (IE : exists s, In (e, s) (pairs st)).
    { apply nth_error_In in EE. apply (proj2 (fromkeys_spec (map fst (pairs st))) e) in EE.
      apply in_map_iff in EE. destruct EE as ([ev s] & <- & IE). eauto. }
    destruct IE as (sta & IE). destruct (pair_has_sample st AL _ NEM IE) as (te & IS).
    assert (Q : exists row, (exists idx, index_of (eventids st) e = Ok idx /\
            forall c, List.length c = Ne st -> dotr row c = nth idx c 0) /\ dotr row v = dotr row c).
    { clear - G SAME IS. unfold src_rows in G. revert rows G SAME IS. generalize (samples st). intros ss.
      induction ss as [|s0 ss IH]; intros rows G EX IS; [destruct IS|].
      inversion G as [|row ? rows' ? G1 G2]; subst. inversion EX as [|? ? E1 E2]; subst.
      destruct IS as [->|IS]; [|exact (IH _ G2 E2 IS)].
      exists row. split; [exact (proj2 G1)|exact E1]. }
    destruct Q as (row & (idx & IX' & D) & E). unfold eventids in IX'. rewrite IX in IX'. injection IX' as <-.
    now rewrite !D in E by assumption.
  Qed.

  Lemma src_lengths rows : src_rows rows -> Forall (fun row => List.length row = Ne st) rows /\ List.length rows = List.length (samples st).
  Proof.
    unfold src_rows. generalize (samples st). induction rows as [|r rows IH]; intros ss G; inversion G as [|? s ? ss' H G']; subst.
    - split; [constructor|reflexivity].
    - destruct (IH _ G'). split; [constructor; tauto|cbn; lia].
  Qed.

  Lemma src_determined rows : Forall (fun e => e <> []) (w_ecoda st) -> src_rows rows -> independent (Ne st) rows.
  Proof.
    intros NEM G c LC Z.
    assert (E : c = repeat 0 (Ne st)).
    { apply (src_same (repeat 0 (Ne st)) c rows NEM G (repeat_length _ _) LC).
      refine (Forall_impl _ _ Z). intros r ->. clear. generalize (Ne st). induction r as [|y r IH]; intros [|n]; cbn; try lra.
      rewrite <- IH. lra. }
    rewrite E. apply Forall_forall. intros y I. now apply repeat_spec in I.
  Qed.

  Lemma analyse_src a bs rs f : build o st = Ok (a, bs, rs) -> solve_at o st a bs rs (FNum x) bf true = Ok f ->
    exists c rows, List.length c = Ne st /\ src_rows rows /\ map d_s T = samples st /\
      Forall (fun e => e <> []) (w_ecoda st) /\ List.length rows = List.length T /\
      (forall v, List.length v = Ne st -> sse rows (map (yr params bf) T) (map d_w T) c <= sse rows (map (yr params bf) T) (map d_w T) v) /\
      f_g0 f = FNum x /\ f_W f = map (fun y => FNum (exp y)) c /\ f_b f = FNum bt /\
      f_err f = fsqrt (FNum (misfit_src params bf T (src_at st c) / dof (List.length T) (Ne st))).
  Proof.
    intros BU H. destruct (solve_at_rhs _ _ _ _ _ _ _ _ _ H) as (z & RH).
    pose proof RH as RH1. rewrite rhs_split in RH1. destruct (rhs o st (FNum x) bf false bs) as [z0|] eqn:RH0; [|discriminate]. cbn [bind] in RH1.
    assert (NB : if l_fix o then exists y, bf = Some (FNum y) else bf = None) by (rewrite FX; exists bt; reflexivity).
    pose proof (rhs_full o st l x bf AR AL GL X bs z0 RH0) as FU. pose proof (data_s o st x l FU) as DS. rewrite <- (arranged_samples _ _ _ AR) in DS. fold T in DS.
    pose proof (rhs_data o st l x bf AR AL NU PG GL ltac:(congruence) X NB bs z0 RH0) as EZ0. fold T in EZ0.
    destruct (src_build a bs rs BU) as (rows & EA & EB & G). destruct (src_lengths rows G) as [LR LL].
    assert (EZ : z = map FNum (map (yr params bf) T)).
    { rewrite EZ0, EB, <- DS, !map_map in RH1. rewrite map_map. refine (zip_map fsub _ _ _ _ _ RH1 _).
      intros d _. reflexivity. }
    assert (NEM : Forall (fun e => e <> []) (w_ecoda st)).
    { destruct (rhs_lengths o st (FNum x) AL _ _ _ _ RH) as (gc & gb & GR & _). exact (ecoda_nonempty o st _ gc gb AL GR). }
    assert (LT : List.length rows = List.length T) by (rewrite LL, <- DS; apply map_length).
    unfold solve_at in H. rewrite RH in H. cbn [bind] in H.
    destruct (l_wls o z a (weights o st z)) as [[c' mse]|] eqn:W; [|discriminate]. cbn [bind] in H.
    rewrite EA, EZ in W.
    destruct (LS (Ne st) rows (map (yr params bf) T) _ c' mse LR ltac:(rewrite map_length; congruence) (src_determined rows NEM G) W) as (c & -> & LC & M & EM).
    assert (WE : weights o st (map FNum (map (yr params bf) T)) = weights o st (map FNum (map (yv bf) T))) by (unfold weights; now rewrite !map_length).
    cbv zeta in M, EM. rewrite WE in M, EM. pose proof (weights_data o st l x bf AR rows LT) as WD. fold T in WD. rewrite WD in M, EM.
    pose proof (src_exact c rows LC G) as EX. rewrite <- DS in EX.
    rewrite (sse_src params bf _ c T rows EX), LT in EM. subst mse.
    exists c, rows. split; [exact LC|]. split; [exact G|]. split; [exact DS|]. split; [exact NEM|]. split; [exact LT|].
    split; [exact M|]. rewrite FX, CN in H. unfold bf in H at 1. cbn [bind decode] in H. injection H as <-.
    cbn [f_g0 f_W f_b f_err]. split; [reflexivity|]. split; [rewrite map_map; reflexivity|]. split; reflexivity.
  Qed.
End One.

Section Two.
  Variables (o : lopts) (st st2 : wstate) (dof : nat -> nat -> R) (params : list (string * pyf)).
  Hypothesis RE : reordered (l_bulk o) st st2.
  Hypothesis AL : aligned st.
  Hypothesis NU : numeric st.
  Hypothesis LS : least_squares_full (l_wls o) dof.
  Hypothesis WP : good_weights o st.
  Hypothesis CN : l_coda_norm o = false.
  Hypothesis PG : positive_greens o st.
  Hypothesis GL : greens_lengths o st.
  Hypothesis FS : l_fix_sites o = Some params.
  Hypothesis FX : l_fix o = true.
  Hypothesis PA : forall x, In x (map snd (pairs st)) -> exists v, 0 < v /\ dget String.eqb params x = Some (FNum v).
  Let AL2 : aligned st2 := re_aligned o st st2 RE AL.

  Lemma src_at_pos s c e : 0 < src_at s c e.
  Proof. unfold src_at. destruct (index_of _ _); [apply exp_pos|lra]. Qed.

  Lemma src_values s c : List.length c = Ne s -> map (fun y => FNum (exp y)) c = map (fun e => FNum (src_at s c e)) (eventids s).
  Proof.
    intros LC. apply (nth_ext _ _ (FNum 0) (FNum 0)); [rewrite !map_length; exact LC|]. intros k KL. rewrite map_length, LC in KL. unfold Ne in KL.
    destruct (nth_error (eventids s) k) as [e|] eqn:E; [|apply nth_error_None in E; lia].
    rewrite (nth_error_nth _ _ _ (map_nth_error (fun e => FNum (src_at s c e)) _ _ E)).
    assert (NV : nth_error c k = Some (nth k c 0)) by (apply nth_error_nth'; unfold Ne in LC; lia).
    rewrite (nth_error_nth _ _ _ (map_nth_error (fun x => FNum (exp x)) _ _ NV)). f_equal. unfold src_at.
    pose proof (index_of_nodup _ (proj1 (fromkeys_spec (map fst (pairs s)))) _ _ E) as IX. unfold eventids. now rewrite IX.
  Qed.

  Lemma fit_src a bs rs a2 bs2 rs2 x bt f f2 : build o st = Ok (a, bs, rs) -> build o st2 = Ok (a2, bs2, rs2) -> 0 < x ->
    solve_at o st a bs rs (FNum x) (Some (FNum bt)) true = Ok f -> solve_at o st2 a2 bs2 rs2 (FNum x) (Some (FNum bt)) true = Ok f2 ->
    f_err f2 = f_err f /\ f_g0 f2 = f_g0 f /\ f_b f2 = f_b f /\
    exists source, (forall e, 0 < source e) /\ f_W f = map (fun e => FNum (source e)) (eventids st) /\
      f_W f2 = map (fun e => FNum (source e)) (eventids st2).
  Proof.
    intros BU BU2 X H H2. pose proof RE as ((l & l2 & P & A & A2) & _).
    assert (PA2 : forall x, In x (map snd (pairs st2)) -> exists v, 0 < v /\ dget String.eqb params x = Some (FNum v)).
    { intros s I. apply PA. apply (Permutation_in _ (Permutation_map snd (Permutation_sym (re_pairs o st st2 RE))) I). }
    destruct (analyse_src o st l dof x bt params A AL NU LS CN PG GL FS FX PA X a bs rs f BU H)
      as (c & rows & LC & G & DS & NEM & LT & M & E1 & E2 & E3 & E4).
    destruct (analyse_src o st2 l2 dof x bt params A2 AL2 (re_numeric o st st2 RE NU) LS CN (re_positive o st st2 RE PG) (re_lengths o st st2 RE GL) FS FX PA2 X a2 bs2 rs2 f2 BU2 H2)
      as (c2 & rows2 & LC2 & G2 & DS2 & NEM2 & LT2 & M2 & F1 & F2 & F3 & F4).
    rewrite (re_data o st st2 RE) in DS2, LT2, M2, F4.
    set (bf := Some (FNum bt)) in *. set (T := data o st x l) in *. set (T2 := data o st x l2) in *.
    assert (PT : Permutation T T2) by now apply data_perm.
    assert (MP : forall u, misfit_src params bf T2 u = misfit_src params bf T u) by (intros; symmetry; now apply tsum_perm).
    assert (EN : Ne st2 = Ne st) by (unfold Ne; symmetry; apply Permutation_length, (re_events o st st2 RE)).
    set (source := src_at st c) in *. set (source2 := src_at st2 c2) in *.
    assert (EC : sse rows (map (yr params bf) T) (map d_w T) c = misfit_src params bf T source).
    { apply sse_src. rewrite DS. exact (src_exact st c rows LC G). }
    assert (EC2 : sse rows2 (map (yr params bf) T2) (map d_w T2) c2 = misfit_src params bf T source2).
    { rewrite <- MP. apply sse_src. rewrite DS2. exact (src_exact st2 c2 rows2 LC2 G2). }
    set (v := src_truth st source2). set (v2 := src_truth st2 source).
    assert (LV : List.length v = Ne st) by apply map_length. assert (LV2 : List.length v2 = Ne st2) by apply map_length.
    assert (EV : sse rows (map (yr params bf) T) (map d_w T) v = misfit_src params bf T source2).
    { apply sse_src. rewrite DS. exact (src_truth_exact st source2 rows G). }
    assert (EV2 : sse rows2 (map (yr params bf) T2) (map d_w T2) v2 = misfit_src params bf T source).
    { rewrite <- MP. apply sse_src. rewrite DS2. exact (src_truth_exact st2 source rows2 G2). }
    pose proof (M v LV) as Q1. pose proof (M2 v2 LV2) as Q2. rewrite EC, EV in Q1. rewrite EC2, EV2 in Q2.
    assert (EQ : misfit_src params bf T source2 = misfit_src params bf T source) by lra.
    destruct (min_unique rows (map (yr params bf) T) (map d_w T) c v (Ne st)) as [SAME _]; auto.
    { pose proof (weights_positive_data o st l x A WP) as PD. fold T in PD. clear - PD. induction PD; constructor; auto. }
    { rewrite map_length. congruence. }
    { rewrite map_length. congruence. }
    { intros w LW. rewrite EV, EQ, <- EC. now apply M. }
    pose proof (src_same st AL c v rows NEM G LC LV SAME) as EVC.
    split; [rewrite F4, E4, MP, EQ, EN, (Permutation_length PT); reflexivity|]. split; [congruence|]. split; [congruence|].
    exists source2. split; [intros e; apply src_at_pos|]. split.
    - rewrite E2, <- EVC. unfold v, src_truth. rewrite map_map. apply map_ext. intros e. rewrite exp_ln; [reflexivity|apply src_at_pos].
    - rewrite F2. exact (src_values st2 c2 LC2).
  Qed.

  Lemma shuffled_source u bt v0 y y' s s' : l_fix_params o = Some (Some (FNum u), Some (FNum bt)) -> 0 < u ->
    invert_band o st v0 = Ok (y, s) -> invert_band o st2 v0 = Ok (y', s') -> both (same_sources st) y y'.
  Proof.
    intros FP U R1 R2. pose proof R1 as N1. pose proof R2 as N2. revert R1 R2.
    rewrite (band_unfold o st v0 AL), (band_unfold o st2 v0 AL2).
    unfold choose.
    destruct (build o st) as [[[a bs] rs]|] eqn:BU; [|discriminate].
    destruct (build o st2) as [[[a2 bs2] rs2]|] eqn:BU2; [|discriminate]. cbn [bind]. rewrite FX, FP, FS. unfold lstsq.
    destruct (solve_at o st _ _ _ _ _ _) as [f|] eqn:S; [|discriminate].
    destruct (solve_at o st2 _ _ _ _ _ _) as [f'|] eqn:S'; [|discriminate]. cbn [bind snd].
    destruct (fit_src a bs rs a2 bs2 rs2 u bt f f' BU BU2 U S S') as (E1 & E2 & E3 & source & P & W & W').
    rewrite E2, E3. destruct (_ && _)%bool; [|discriminate]. cbn [bind]. rewrite E2, E3.
    destruct (_ || _)%bool; intros [= K1 _] [= K2 _]; subst y y'; [exact I|]. cbn [both].
    assert (LO : lists_once (stations st) (map snd (pairs st))) by apply fromkeys_spec.
    assert (LO2 : lists_once (stations st2) (map snd (pairs st2))) by apply fromkeys_spec.
    assert (C : l_fix_sites o <> None /\ l_fix o = true \/ l_coda_norm o = true) by (left; split; congruence).
    pose proof (nstations o st AL v0 _ _ _ C N1 LO) as NS1. pose proof (nstations o st2 AL2 v0 _ _ _ C N2 LO2) as NS2.
    unfold same_sources. split; [exact E1|]. split; [rewrite NS1, NS2; symmetry; apply Permutation_length, (re_stations o st st2 RE)|].
    unfold arrange. cbn [fb_g0 fb_b fb_error fb_nstations fb_v0 fb_W fb_R]. rewrite CN, FS. do 3 (split; [reflexivity|]).
    rewrite W, W'. exists source. do 2 eexists. split; [intros e _; apply P|].
    split; [reflexivity|]. split; [apply (table_combine _ _ source), fromkeys_spec|].
    split; [reflexivity|]. apply (table_perm _ _ _ _ (Permutation_map fst (re_pairs o st st2 RE))), (table_combine _ _ source), fromkeys_spec.
  Qed.
End Two.
