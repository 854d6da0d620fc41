(** C136: the results of energies with errors. *)
From Coq Require Import String List Bool Reals Lra Lia ZArith Arith Permutation.
From Verif Require Import Base Pyf PyfOps StatModel StatProof FbModel FbProof3 SiteProof LsqfbModel LsqfbSpec LsqfbProof LsqfbProof2 LsqfbProof3 LsqfbProof4 LsqfbProof5 GainSpec GainProof GainProof2 GainProof3 ShuffleSpec ShuffleProof ShuffleProof2 ShuffleProof3 ShuffleProof4 NoiseSpec NoiseProof NoiseProof2 NoiseProof3.
Import ListNotations.
Open Scope string_scope.
Open Scope list_scope.
Open Scope R_scope.

Lemma within_connected ps n s1 s2 : within ps n s1 s2 -> connected ps s1 s2.
Proof. induction 1; [constructor|econstructor; eauto]. Qed.

Lemma network_one n st : network_within n st -> one_network st.
Proof. intros N s1 s2 I1 I2. exact (within_connected _ _ _ _ (N s1 s2 I1 I2)). Qed.

Lemma distinct_fromkeys l : List.length (fromkeys l) = distinct l.
Proof.
  unfold distinct. apply Permutation_length. destruct (fromkeys_spec l) as [ND IN].
  apply NoDup_Permutation; [exact ND|apply NoDup_nodup|]. intros x. rewrite nodup_In. apply IN.
Qed.

Lemma unknowns_width o st : width o st = unknowns o st.
Proof.
  unfold width, unknowns, fix01, Ns, Ne, stations, eventids. now rewrite !distinct_fromkeys.
Qed.

(** chains of stations *)
Lemma chain ps dl (x y : string -> R) : 0 <= dl -> (forall ev s, In (ev, s) ps -> Rabs (y ev + x s) <= dl) ->
  forall n s1 s2, within ps n s1 s2 -> Rabs (x s1 - x s2) <= 2 * INR n * dl.
Proof.
  intros D0 H n s1 s2 W. induction W as [n s|n ev s1 s2 s3 W IH I1 I2].
  - rewrite Rminus_diag_eq, Rabs_R0 by reflexivity. pose proof (pos_INR n). nra.
  - rewrite S_INR. pose proof (abs_both _ _ (H _ _ I1)). pose proof (abs_both _ _ (H _ _ I2)). pose proof (abs_both _ _ IH).
    apply Rabs_le. lra.
Qed.

Lemma mean_zero (f : string -> R) B x : forall l, l <> [] -> fold_right Rplus 0 (map f l) = 0 ->
  (forall s, In s l -> Rabs (x - f s) <= B) -> Rabs x <= B.
Proof.
  intros l NE Z H.
  assert (Q : forall l, (forall s, In s l -> Rabs (x - f s) <= B) ->
    Rabs (INR (List.length l) * x - fold_right Rplus 0 (map f l)) <= INR (List.length l) * B).
  { clear. induction l as [|s l IH]; intros H; [cbn; rewrite Rabs_pos_eq; lra|].
    cbn [List.length map fold_right]. rewrite S_INR. specialize (IH (fun s I => H s (or_intror I))).
    pose proof (abs_both _ _ IH). pose proof (abs_both _ _ (H s (or_introl eq_refl))). apply Rabs_le. lra. }
  specialize (Q l H). rewrite Z, Rminus_0_r, Rabs_mult in Q. rewrite (Rabs_pos_eq (INR _)) in Q by apply pos_INR.
  assert (0 < INR (List.length l)) by (apply lt_0_INR; destruct l; [contradiction|cbn; lia]).
  apply (Rmult_le_reg_l (INR (List.length l))); [assumption|exact Q].
Qed.

Lemma table_near d keys f f' dic : table keys f' dic -> (forall k, In k keys -> up_to d (f' k) (f k)) -> near_table d keys f dic.
Proof.
  intros [LO T] H. split; [exact LO|]. intros k v I. exists (f' k). split; [now apply T|]. apply H.
  apply LO. now apply (in_map fst) in I.
Qed.

Lemma error_bound eps tw m k : 0 <= eps -> 0 < k -> 0 <= m <= eps * eps * tw ->
  exists x, fsqrt (FNum (m / k)) = FNum x /\ 0 <= x <= eps * sqrt (tw / k).
Proof.
  intros E0 K [M0 M1]. assert (Q : 0 <= m / k) by (apply Rmult_le_pos; [exact M0|left; now apply Rinv_0_lt_compat]).
  exists (sqrt (m / k)). split; [cbn; destruct (Rlt_dec (m / k) 0); [lra|reflexivity]|]. split; [apply sqrt_pos|].
  destruct (Req_dec eps 0) as [Z|Z].
  - rewrite Z in *. assert (m = 0) by lra. subst m. replace (0 / k) with 0 by (field; lra). rewrite sqrt_0. lra.
  - assert (TP : 0 <= tw) by (apply (Rmult_le_reg_l (eps * eps)); [nra|lra]).
    assert (TK : 0 <= tw / k) by (apply Rmult_le_pos; [exact TP|left; now apply Rinv_0_lt_compat]).
    rewrite <- (sqrt_square eps) by exact E0. rewrite <- sqrt_mult by nra. apply sqrt_le_1_alt.
    replace (eps * eps * (tw / k)) with (eps * eps * tw / k) by (field; lra).
    apply Rmult_le_compat_r; [left; now apply Rinv_0_lt_compat|exact M1].
Qed.

Section R.
  Variables (eps : R) (n : nat) (o : lopts) (st : wstate) (dof : nat -> nat -> R) (site source : string -> R) (bt : R).
  Hypothesis E0 : 0 <= eps.
  Hypothesis AL : aligned st.
  Hypothesis LS : least_squares_full (l_wls o) dof.
  Hypothesis WP : good_weights o st.
  Hypothesis CN : l_coda_norm o = false.
  Hypothesis SITE : positive_on (map snd (pairs st)) site.
  Hypothesis SOURCE : positive_on (map fst (pairs st)) source.
  Let d := eps * sqrt (total_weight o st).

  Lemma d_nonneg : 0 <= d.
  Proof. unfold d. apply Rmult_le_pos; [exact E0|apply sqrt_pos]. Qed.

  Section Sites.
  Hypothesis FS : l_fix_sites o = None.
  Hypothesis R0 : 0 < l_R0 o.
  Hypothesis MS : mean_site st site (l_R0 o).
  Hypothesis NW : network_within n st.
  Hypothesis TT : l_fix o = false -> two_times st.

  (** closeness of the products gives closeness of the factors *)
  Lemma factors_near c rows dl : Forall (fun e => e <> []) (w_ecoda st) -> List.length c = width o st -> good_rows o st rows -> 0 <= dl ->
    (forall ev s, In (ev, s) (pairs st) ->
       Rabs (ln (source_at o st c ev) - ln (source ev) + (ln (site_at o st c s) - ln (site s))) <= dl) ->
    (forall s, In s (map snd (pairs st)) -> up_to (2 * INR n * dl) (site_at o st c s) (site s)) /\
    (forall e, In e (map fst (pairs st)) -> up_to ((2 * INR n + 1) * dl) (source_at o st c e) (source e)).
  Proof.
    intros NEM LC G D0 H.
    set (x := fun s => ln (site_at o st c s) - ln (site s)). set (y := fun e => ln (source_at o st c e) - ln (source e)).
    assert (SX : fold_right Rplus 0 (map x (stations st)) = 0).
    { destruct (decoded o st AL R0 (network_one n st NW) TT rows c NEM LC G) as [_ DR].
      pose proof (R_of_mean o st AL c R0 LC) as GM. rewrite DR, map_map in GM.
      pose proof (site_mean o st AL _ GM) as M1. pose proof (site_mean o st AL _ (MS _ (fromkeys_spec _))) as M2.
      change (fromkeys (map snd (pairs st))) with (stations st) in M2.
      assert (SP : forall l, fold_right Rplus 0 (map x l) = fold_right Rplus 0 (map (fun s => ln (site_at o st c s)) l) - fold_right Rplus 0 (map (fun s => ln (site s)) l)).
      { unfold x. clear. induction l as [|s l IH]; cbn [map fold_right]; [lra|]. rewrite IH. ring. }
      rewrite SP, M1, M2. ring. }
    assert (NE : stations st <> []).
    { pose proof (Ns_pos st AL) as P. unfold Ns in P. intros Q. rewrite Q in P. cbn in P. lia. }
    assert (XB : forall s, In s (map snd (pairs st)) -> Rabs (x s) <= 2 * INR n * dl).
    { intros s I. apply (mean_zero x _ _ (stations st) NE SX). intros s' I'.
      apply (chain (pairs st) dl x y D0 H). apply NW; [exact I|].
      apply (proj2 (fromkeys_spec (map snd (pairs st)))). exact I'. }
    split.
    - intros s I. apply log_up_to; [now apply site_at_pos|now apply SITE|exact (XB s I)].
    - intros e I. apply log_up_to; [now apply source_at_pos|now apply SOURCE|].
      apply in_map_iff in I. destruct I as ((e' & s) & E & I). cbn in E. subst e'.
      pose proof (abs_both _ _ (H e s I)) as Q. fold (x s) (y e) in Q.
      pose proof (abs_both _ _ (XB s ltac:(now apply (in_map snd) in I))). fold (y e). apply Rabs_le. lra.
  Qed.

  (** command fixed *)
  Lemma near_fixed v0 r s g : l_fix o = true -> l_fix_params o = Some (Some g, Some (FNum bt)) ->
    noisy_band eps o st g site source bt -> invert_band o st v0 = Ok (Some r, s) ->
    (exists W, fb_W r = Some W /\ near_table ((2 * INR n + 1) * d) (map fst (pairs st)) source W) /\
    (exists Rs, fb_R r = Some Rs /\ near_table (2 * INR n * d) (map snd (pairs st)) site Rs) /\
    (0 < dof (List.length (samples st)) (unknowns o st) ->
     exists x, fb_error r = FNum x /\ 0 <= x <= eps * sqrt (total_weight o st / dof (List.length (samples st)) (unknowns o st))).
  Proof.
    intros FX FP NB H.
    destruct (result_of o st site source SITE SOURCE v0 r s H) as (a & bs & rs & f & s0 & BU & ER & [(_ & g' & b' & FP' & L)|(FX' & _)]); [|congruence].
    rewrite FP in FP'. injection FP' as <- <-. rewrite FS in L.
    pose proof (lstsq_fit _ _ _ _ _ _ _ _ _ _ _ L) as S.
    assert (BF : if l_fix o then Some (FNum bt) = Some (FNum bt) else Some (FNum bt) = None) by now rewrite FX.
    destruct (fit_near o st dof eps g site source bt E0 AL LS WP CN SITE SOURCE NB FS R0 (network_one n st NW) TT a bs rs _ f BF BU S)
      as (NEM & c & mse & LC & EW & ERS & _ & EE & MB & NT).
    destruct (solve_at_rhs _ _ _ _ _ _ _ _ _ S) as (z & RH).
    destruct (rhs_known o st eps g site source bt AL SITE SOURCE NB (Some (FNum bt)) false bs z eq_refl RH) as (_ & _ & _ & _ & _ & TN & _).
    destruct (rows_of o st AL a bs rs CN FS TN BU) as (rows & _ & G). change (good_rows o st rows) in G.
    destruct (factors_near c rows d NEM LC G d_nonneg) as [FR FW].
    { intros ev sta I. destruct (pair_has_sample (no_bulk st) (no_bulk_aligned st AL) (ev, sta) NEM I) as (te & IS).
      specialize (NT _ IS). unfold target in NT. rewrite FX in NT. cbn [fst snd] in NT. fold d in NT.
      replace (ln (source_at o st c ev) - ln (source ev) + (ln (site_at o st c sta) - ln (site sta)))
        with (ln (source_at o st c ev) + ln (site_at o st c sta) - 0 - (ln (source ev) + ln (site sta) - 0)) by ring.
      exact NT. }
    rewrite ER. unfold arrange. cbn. rewrite FS, CN. cbn [negb]. rewrite EW, ERS.
    split; [eexists; split; [reflexivity|]; exact (table_near _ _ _ _ _ (table_combine _ _ (source_at o st c) (fromkeys_spec _)) FW)|].
    split; [eexists; split; [reflexivity|]; exact (table_near _ _ _ _ _ (table_combine _ _ (site_at o st c) (fromkeys_spec _)) FR)|].
    intros DP. rewrite (EE (or_introl FX)), unknowns_width. now apply error_bound.
  Qed.

  (** command go *)
  Lemma near_go D T v0 r s g : l_fix o = false -> 0 < D -> coda_span st D T ->
    invert_band o st v0 = Ok (Some r, s) -> fb_g0 r = Some g -> noisy_band eps o st g site source bt ->
    (exists b, fb_b r = Some (FNum b) /\ Rabs (b - bt) <= 2 * d / D) /\
    (exists W, fb_W r = Some W /\ near_table ((2 * INR n + 1) * (d * (1 + 2 * T / D))) (map fst (pairs st)) source W) /\
    (exists Rs, fb_R r = Some Rs /\ near_table (2 * INR n * (d * (1 + 2 * T / D))) (map snd (pairs st)) site Rs) /\
    (positive_bounds (l_b_bounds o) -> positive_bounds (l_g0_bounds o) -> 0 < dof (List.length (samples st)) (unknowns o st) ->
     exists x, fb_error r = FNum x /\ 0 <= x <= eps * sqrt (total_weight o st / dof (List.length (samples st)) (unknowns o st))).
  Proof.
    intros FX DP [(tw & t1 & t2 & IT & I1 & I2 & DT) TB] H HG NB. pose proof (accepted_inside o st v0 r s H) as (IB & IG & _).
    destruct (result_of o st site source SITE SOURCE v0 r s H) as (a & bs & rs & f & s0 & BU & ER & [(FX' & _)|(_ & g' & L)]); [congruence|].
    pose proof (lstsq_fit _ _ _ _ _ _ _ _ _ _ _ L) as S. pose proof (solve_at_g0 o st _ _ _ _ _ _ _ S) as G0.
    assert (EG : g' = g). { rewrite ER in HG. unfold arrange in HG. cbn in HG. rewrite FX in HG. congruence. }
    rewrite EG in S, G0.
    assert (BF : if l_fix o then None = Some (FNum bt) else @None pyf = None) by now rewrite FX.
    destruct (fit_near o st dof eps g site source bt E0 AL LS WP CN SITE SOURCE NB FS R0 (network_one n st NW) TT a bs rs _ f BF BU S)
      as (NEM & c & mse & LC & EW & ERS & EB & EE & MB & NT). specialize (EB FX). fold d in NT.
    destruct (solve_at_rhs _ _ _ _ _ _ _ _ _ S) as (z & RH).
    destruct (rhs_known o st eps g site source bt AL SITE SOURCE NB None false bs z I RH) as (_ & _ & _ & _ & _ & TN & _).
    destruct (rows_of o st AL a bs rs CN FS TN BU) as (rows & _ & G). change (good_rows o st rows) in G.
    unfold target in NT. rewrite FX in NT.
    assert (BB : Rabs (last c 0 - bt) <= 2 * d / D).
    { destruct (coda_pair st AL tw IT) as (p & P). destruct (P t1 I1) as (e1 & S1). destruct (P t2 I2) as (e2 & S2).
      pose proof (abs_both _ _ (NT _ S1)) as Q1. pose proof (abs_both _ _ (NT _ S2)) as Q2. cbn [fst snd tof stime] in Q1, Q2.
      unfold tof, stime in Q1, Q2. cbn [fst snd] in Q1, Q2. subst t2.
      assert (Q : - (2 * d) <= (last c 0 - bt) * D <= 2 * d) by lra.
      apply Rabs_le. split; apply (Rmult_le_reg_r D); try exact DP.
      - replace (- (2 * d / D) * D) with (- (2 * d)) by (field; lra). apply Q.
      - replace (2 * d / D * D) with (2 * d) by (field; lra). apply Q. }
    assert (T0 : 0 <= T) by (pose proof (TB _ _ IT I1); pose proof (Rabs_pos t1); lra).
    assert (DL : 0 <= d * (1 + 2 * T / D)).
    { apply Rmult_le_pos; [apply d_nonneg|]. assert (0 <= 2 * T / D); [|lra]. apply Rmult_le_pos; [lra|left; now apply Rinv_0_lt_compat]. }
    destruct (factors_near c rows (d * (1 + 2 * T / D)) NEM LC G DL) as [FR FW].
    { intros ev sta I. destruct (pair_has_sample (no_bulk st) (no_bulk_aligned st AL) (ev, sta) NEM I) as (te & IS).
      pose proof (NT _ IS) as Q. cbn [fst snd] in Q. destruct (csample_time st _ IS) as (t & J1 & J2).
      pose proof (TB _ _ J1 J2) as TT'. set (tt := tof (ev, sta, te)) in *.
      assert (BT : Rabs ((last c 0 - bt) * tt) <= 2 * d / D * T).
      { rewrite Rabs_mult. apply Rmult_le_compat; try apply Rabs_pos; assumption. }
      pose proof (abs_both _ _ Q). pose proof (abs_both _ _ BT).
      replace (d * (1 + 2 * T / D)) with (d + 2 * d / D * T) by (field; lra). apply Rabs_le. lra. }
    rewrite ER in IB, IG |- *. unfold arrange in *. cbn in *. rewrite FX, FS, CN in *. cbn [negb] in *.
    rewrite EB in IB |- *. rewrite EW, ERS.
    split; [exists (last c 0); split; [reflexivity|exact BB]|].
    split; [eexists; split; [reflexivity|]; exact (table_near _ _ _ _ _ (table_combine _ _ (source_at o st c) (fromkeys_spec _)) FW)|].
    split; [eexists; split; [reflexivity|]; exact (table_near _ _ _ _ _ (table_combine _ _ (site_at o st c) (fromkeys_spec _)) FR)|].
    intros P1 P2 DOF. rewrite EE.
    - rewrite unknowns_width. now apply error_bound.
    - right. rewrite EB. split.
      + intros lo hi B. destruct (IB _ eq_refl lo hi B) as (x & X & Q). specialize (P1 lo hi B). exists x. split; [exact X|lra].
      + intros lo hi B. destruct (IG _ eq_refl lo hi B) as (x & X & Q). specialize (P2 lo hi B).
        rewrite G0 in X. exists x. split; [exact X|lra].
  Qed.
  End Sites.
End R.
