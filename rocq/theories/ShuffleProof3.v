(** C132: the results of the two orders. *)
From Coq Require Import String List Bool Reals Lra Lia ZArith Arith Permutation.
From Verif Require Import Base Pyf PyfOps StatModel StatProof FbModel FbProof3 SiteProof LsqfbModel LsqfbSpec LsqfbProof LsqfbProof2 LsqfbProof3 LsqfbProof4 LsqfbProof5 GainSpec GainProof GainProof2 GainProof3 GainProof4 ShuffleSpec ShuffleProof ShuffleProof2.
Import ListNotations.
Open Scope string_scope.
Open Scope list_scope.
Open Scope R_scope.

Section Two.
  Variables (o : lopts) (st st2 : wstate) (dof : nat -> nat -> R).
  Hypothesis RE : reordered (l_bulk o) st st2.
  Hypothesis AL : aligned st.
  Hypothesis NU : numeric st.
  Hypothesis LS : least_squares_full (l_wls o) dof.
  Hypothesis WP : good_weights o st.
  Hypothesis CN : l_coda_norm o = false.
  Hypothesis PG : positive_greens o st.
  Hypothesis GL : greens_lengths o st.
  Hypothesis FS : l_fix_sites o = None.
  Hypothesis R0 : 0 < l_R0 o.
  Hypothesis NET : one_network st.

  Record alike (f f2 : fit) : Prop := {
    ak_err : f_err f2 = f_err f; ak_g0 : f_g0 f2 = f_g0 f; ak_b : f_b f2 = f_b f;
    ak_vals : exists source site, (forall e, 0 < source e) /\ (forall s, 0 < site s) /\
      f_W f = map (fun e => FNum (source e)) (eventids st) /\
      f_R f = map (fun s => FNum (site s)) (stations st) /\
      f_W f2 = map (fun e => FNum (source e)) (eventids st2) /\
      f_R f2 = map (fun s => FNum (site s)) (stations st2) }.

  Let AL2 : aligned st2 := re_aligned o st st2 RE AL.

  Lemma sum_perm (f : string -> R) l l2 : Permutation l l2 -> fold_right Rplus 0 (map f l) = fold_right Rplus 0 (map f l2).
  Proof. induction 1; cbn in *; lra. Qed.

  Section Fit.
  Hypothesis TT : l_fix o = false -> two_times st.

  Lemma fit_alike a bs rs a2 bs2 rs2 x bf f f2 : build o st = Ok (a, bs, rs) -> build o st2 = Ok (a2, bs2, rs2) -> 0 < x ->
    (if l_fix o then exists y, bf = Some (FNum y) else bf = None) ->
    solve_at o st a bs rs (FNum x) bf false = Ok f -> solve_at o st2 a2 bs2 rs2 (FNum x) bf false = Ok f2 -> alike f f2.
  Proof.
    intros BU BU2 X NB H H2. destruct RE as ((l & l2 & P & A & A2) & DW).
    assert (TT2 : l_fix o = false -> two_times st2) by (intros FX; exact (re_times o st st2 RE (TT FX))).
    pose proof (re_network o st st2 RE NET) as NET2.
    destruct (analyse o st l dof x bf A AL NU LS CN PG GL FS R0 NET TT X NB a bs rs f BU H)
      as (c & rows & LC & G & DS & NEM & LT & M & E1 & E2 & E3 & E4 & E5).
    destruct (analyse o st2 l2 dof x bf A2 AL2 (re_numeric o st st2 RE NU) LS CN (re_positive o st st2 RE PG) (re_lengths o st st2 RE GL) FS R0 NET2 TT2 X NB a2 bs2 rs2 f2 BU2 H2)
      as (c2 & rows2 & LC2 & G2 & DS2 & NEM2 & LT2 & M2 & F1 & F2 & F3 & F4 & F5).
    rewrite (re_data o st st2 RE) in DS2, LT2, M2, F5. 
    set (T := data o st x l) in *. set (T2 := data o st x l2) in *.
    assert (PT : Permutation T T2) by now apply data_perm.
    assert (MP : forall u v b, misfit o bf T2 u v b = misfit o bf T u v b) by (intros; symmetry; now apply tsum_perm).
    (* the sums of squares *)
    set (site := site_at o st c) in *. set (source := source_at o st c) in *.
    set (site2 := site_at o st2 c2) in *. set (source2 := source_at o st2 c2) in *.
    pose proof (fun s => site_at_pos o st R0 c s : 0 < site s) as SP. pose proof (fun s => source_at_pos o st R0 c s : 0 < source s) as WP1.
    pose proof (fun s => site_at_pos o st2 R0 c2 s : 0 < site2 s) as SP2. pose proof (fun s => source_at_pos o st2 R0 c2 s : 0 < source2 s) as WP2.
    assert (EC : sse rows (map (yv bf) T) (map d_w T) c = misfit o bf T site source (last c 0)).
    { apply sse_misfit. rewrite DS. exact (at_exact o st R0 TT rows c LC G). }
    assert (EC2 : sse rows2 (map (yv bf) T2) (map d_w T2) c2 = misfit o bf T site2 source2 (last c2 0)).
    { rewrite <- MP. apply sse_misfit. rewrite DS2. exact (at_exact o st2 R0 TT2 rows2 c2 LC2 G2). }
    set (v := truth o st site2 source2 (last c2 0)).
    assert (LV : List.length v = width o st) by (apply truth_length; auto).
    pose proof (truth_exact o st AL site2 source2 (last c2 0) (fun e _ => WP2 e) rows G) as VX. fold v in VX.
    assert (EV : sse rows (map (yv bf) T) (map d_w T) v = misfit o bf T site2 source2 (last c2 0)).
    { apply sse_misfit. rewrite DS. exact VX. }
    set (v2 := truth o st2 site source (last c 0)).
    assert (LV2 : List.length v2 = width o st2) by (apply truth_length; auto).
    assert (EV2 : sse rows2 (map (yv bf) T2) (map d_w T2) v2 = misfit o bf T site source (last c 0)).
    { rewrite <- MP. apply sse_misfit. rewrite DS2. exact (truth_exact o st2 AL2 site source (last c 0) (fun e _ => WP1 e) rows2 G2). }
    pose proof (M v LV) as Q1. pose proof (M2 v2 LV2) as Q2. rewrite EC, EV in Q1. rewrite EC2, EV2 in Q2.
    assert (EQ : misfit o bf T site2 source2 (last c2 0) = misfit o bf T site source (last c 0)) by lra.
    destruct (min_unique rows (map (yv bf) T) (map d_w T) c v (width o st)) as [SAME _]; auto.
    { pose proof (weights_positive_data o st l x A WP) as PD. fold T in PD. clear - PD. induction PD; constructor; auto. }
    { rewrite map_length. congruence. }
    { rewrite map_length. congruence. }
    { intros w LW. rewrite EV, EQ, <- EC. now apply M. }
    assert (CX : exact_rows o st site2 source2 (last c2 0) c rows).
    { unfold exact_rows in *. clear - VX SAME. revert VX. generalize (map (target o site2 source2 (last c2 0)) (samples st)).
      induction rows as [|r rows IH]; intros m VX; inversion VX as [|? y ? m' E VX']; subst; constructor; inversion SAME; subst; auto. }
    destruct (identify o st AL site2 source2 (last c2 0) (fun e _ => WP2 e) (network_stations st NET) TT NEM c rows G LC CX) as (B & HS & HE).
    destruct (decoded o st2 AL2 R0 NET2 TT2 rows2 c2 NEM2 LC2 G2) as [DW2 DR2]. fold source2 in DW2. fold site2 in DR2.
    assert (GM : geometric_mean (map (fun s => FNum (site2 s)) (stations st)) (l_R0 o)).
    { pose proof (R_of_mean o st2 AL2 c2 R0 LC2) as GM2. rewrite DR2, map_map in GM2.
      pose proof (site_mean o st2 AL2 _ GM2) as S2. pose proof (re_stations o st st2 RE) as PS.
      exists (map site2 (stations st)). split; [now rewrite map_map|].
      split; [intros y I; apply in_map_iff in I; destruct I as (s & <- & _); apply SP2|]. split; [exact R0|].
      rewrite map_map, map_length, (sum_perm (fun s => ln (site2 s)) _ _ PS), (Permutation_length PS).
      rewrite S2. fold (Ns st2). field. apply not_0_INR. pose proof (Ns_pos st2 AL2). lia. }
    destruct (decoded_truth o st AL site2 source2 (fun s _ => SP2 s) (fun e _ => WP2 e) R0 GM c LC HS HE) as [DW1 DR1].
    constructor.
    - rewrite F5, E5, MP, EQ, (re_width o st st2 RE), (Permutation_length PT).
      destruct (l_fix o) eqn:FX; [reflexivity|]. now rewrite (B eq_refl).
    - congruence.
    - rewrite F4, E4. destruct (l_fix o) eqn:FX; [reflexivity|]. now rewrite (B eq_refl).
    - exists source2, site2. split; [exact WP2|]. split; [exact SP2|].
      rewrite E2, E3, F2, F3, DW1, DR1, DW2, DR2, !map_map. auto.
  Qed.
  End Fit.

  Lemma table_perm keys keys2 f d : Permutation keys keys2 -> table keys2 f d -> table keys f d.
  Proof.
    intros P ((ND & IN) & V). split; [|exact V]. split; [exact ND|]. intros s. rewrite IN.
    split; apply Permutation_in; [now apply Permutation_sym|exact P].
  Qed.

  Lemma alike_result f f2 v0 : alike f f2 -> same_result st (arrange o st f v0) (arrange o st2 f2 v0).
  Proof.
    intros [E1 E2 E3 (source & site & P1 & P2 & W & Rr & W' & Rr')].
    unfold same_result, arrange. cbn [fb_g0 fb_b fb_error fb_nstations fb_v0 fb_W fb_R].
    rewrite E1, E2, E3, CN, FS. cbn [negb]. split; [reflexivity|]. split; [reflexivity|]. split; [reflexivity|].
    split; [rewrite Rr, Rr', !nan_count; symmetry; apply Permutation_length, (re_stations o st st2 RE)|]. split; [reflexivity|].
    rewrite W, Rr, W', Rr'. exists source, site. do 4 eexists.
    split; [intros e _; apply P1|]. split; [intros e _; apply P2|].
    split; [reflexivity|]. split; [apply (table_combine _ _ source), fromkeys_spec|].
    split; [reflexivity|]. split; [apply (table_perm _ _ _ _ (Permutation_map fst (re_pairs o st st2 RE))), (table_combine _ _ source), fromkeys_spec|].
    split; [reflexivity|]. split; [apply (table_combine _ _ site), fromkeys_spec|].
    split; [reflexivity|]. apply (table_perm _ _ _ _ (Permutation_map snd (re_pairs o st st2 RE))), (table_combine _ _ site), fromkeys_spec.
  Qed.

  Section Go.
  Hypothesis FX : l_fix o = false.
  Hypothesis TT : two_times st.
  Variables lo hi : R.
  Hypothesis BG : l_g0_bounds o = Some (lo, hi).
  Hypothesis LO : 0 < lo.

  Lemma alike_go a bs rs a2 bs2 rs2 u f f2 : build o st = Ok (a, bs, rs) -> build o st2 = Ok (a2, bs2, rs2) -> 0 < u ->
    solve_at o st a bs rs (FNum u) None false = Ok f -> solve_at o st2 a2 bs2 rs2 (FNum u) None false = Ok f2 -> alike f f2.
  Proof.
    intros BU BU2 U. apply (fit_alike (fun _ => TT) a bs rs a2 bs2 rs2 u None f f2 BU BU2 U). now rewrite FX.
  Qed.

  Lemma minimize_alike a bs rs a2 bs2 rs2 : build o st = Ok (a, bs, rs) -> build o st2 = Ok (a2, bs2, rs2) -> forall p s0 s0' s g s' g',
    minimize o st a bs rs p s0 = Ok (s, g) -> minimize o st2 a2 bs2 rs2 p s0' = Ok (s', g') -> g' = g.
  Proof.
    intros BU BU2. induction p as [x k IH|x|e]; intros s0 s0' s g s' g' H H'; cbn [minimize] in H, H'.
    - unfold lstsq_opt in H, H'. destruct (g0_outside o x) eqn:GO; cbn [bind] in H, H'; [now apply (IH _ _ _ _ _ _ _ H H')|].
      destruct (inside_pos o lo hi BG LO x GO) as (u & -> & U).
      destruct (solve_at o st a bs rs (FNum u) None false) as [f|] eqn:S; [|discriminate].
      destruct (solve_at o st2 a2 bs2 rs2 (FNum u) None false) as [f'|] eqn:S'; [|discriminate]. cbn [bind] in H, H'.
      rewrite (ak_err _ _ (alike_go a bs rs a2 bs2 rs2 u f f' BU BU2 U S S')) in H'. exact (IH _ _ _ _ _ _ _ H H').
    - injection H as _ <-. injection H' as _ <-. reflexivity.
    - discriminate.
  Qed.

  Lemma chosen_alike y y' : choose o st = Ok y -> choose o st2 = Ok y' ->
    exists a bs rs a2 bs2 rs2 g s f s' f', build o st = Ok (a, bs, rs) /\ build o st2 = Ok (a2, bs2, rs2) /\
      y = Some (s, f) /\ y' = Some (s', f') /\
      solve_at o st a bs rs g None false = Ok f /\ solve_at o st2 a2 bs2 rs2 g None false = Ok f'.
  Proof.
    unfold choose.
    destruct (build o st) as [[[a bs] rs]|] eqn:BU; [|discriminate].
    destruct (build o st2) as [[[a2 bs2] rs2]|] eqn:BU2; [|discriminate]. cbn [bind]. rewrite FX.
    assert (K : forall s0 s0' g z z', 
      bind (lstsq o st a bs rs s0 g None false) (fun y => Ok (Some y)) = Ok z ->
      bind (lstsq o st2 a2 bs2 rs2 s0' g None false) (fun y => Ok (Some y)) = Ok z' ->
      exists s f s' f', z = Some (s, f) /\ z' = Some (s', f') /\
      solve_at o st a bs rs g None false = Ok f /\ solve_at o st2 a2 bs2 rs2 g None false = Ok f').
    { intros s0 s0' g z z'. unfold lstsq. destruct (solve_at o st _ _ _ _ _ _) as [f|]; [|discriminate].
      destruct (solve_at o st2 _ _ _ _ _ _) as [f'|]; [|discriminate]. cbn [bind]. intros [= <-] [= <-]. eauto 8. }
    destruct (negb (l_optimize o)).
    - rewrite BG. intros H H'. destruct (K _ _ _ _ _ H H') as (s & f & s' & f' & Q). exists a, bs, rs, a2, bs2, rs2. eauto 12.
    - destruct (minimize o st a bs rs (l_optim o) _) as [[s1 g]|] eqn:M; [|discriminate].
      destruct (minimize o st2 a2 bs2 rs2 (l_optim o) _) as [[s1' g']|] eqn:M'; [|discriminate]. cbn [bind].
      rewrite (minimize_alike a bs rs a2 bs2 rs2 BU BU2 _ _ _ _ _ _ _ M M'). intros H H'.
      destruct (K _ _ _ _ _ H H') as (s & f & s' & f' & Q). exists a, bs, rs, a2, bs2, rs2. eauto 12.
  Qed.

  Lemma shuffled_go v0 y y' s s' : invert_band o st v0 = Ok (y, s) -> invert_band o st2 v0 = Ok (y', s') ->
    both (same_result st) y y'.
  Proof.
    rewrite (band_unfold o st v0 AL), (band_unfold o st2 v0 AL2).
    destruct (choose o st) as [z|] eqn:C; [|discriminate]. destruct (choose o st2) as [z'|] eqn:C'; [|discriminate].
    cbn [bind]. destruct (chosen_alike z z' C C') as (a & bs & rs & a2 & bs2 & rs2 & g & s1 & f & s1' & f' & BU & BU2 & -> & -> & S & S').
    pose proof (solve_at_g0 o st _ _ _ _ _ _ _ S) as G. pose proof (solve_at_g0 o st2 _ _ _ _ _ _ _ S') as G'.
    rewrite G, G'. destruct (near_bounds (l_g0_bounds o) g) eqn:N.
    - rewrite !orb_true_r. intros [= <- _] [= <- _]. exact I.
    - destruct (near_outside o lo hi BG LO g N) as (u & -> & U). pose proof (alike_go a bs rs a2 bs2 rs2 u f f' BU BU2 U S S') as P.
      rewrite (ak_b _ _ P). rewrite !orb_false_r.
      destruct (near_bounds (l_b_bounds o) (f_b f)); intros [= <- _] [= <- _]; [exact I|].
      cbn [both]. now apply alike_result.
  Qed.
  End Go.

  (** command fixed *)
  Lemma shuffled_fixed u bt v0 y y' s s' : l_fix o = true -> l_fix_params o = Some (Some (FNum u), Some (FNum bt)) -> 0 < u ->
    invert_band o st v0 = Ok (y, s) -> invert_band o st2 v0 = Ok (y', s') ->
    both (same_result st) y y'.
  Proof.
    intros FX FP U. rewrite (band_unfold o st v0 AL), (band_unfold o st2 v0 AL2).
    unfold choose.
    destruct (build o st) as [[[a bs] rs]|] eqn:BU; [|discriminate].
    destruct (build o st2) as [[[a2 bs2] rs2]|] eqn:BU2; [|discriminate]. cbn [bind]. rewrite FX, FP, FS. unfold lstsq.
    destruct (solve_at o st _ _ _ _ _ _) as [f|] eqn:S; [|discriminate].
    destruct (solve_at o st2 _ _ _ _ _ _) as [f'|] eqn:S'; [|discriminate]. cbn [bind snd].
    assert (P : alike f f').
    { apply (fit_alike ltac:(congruence) a bs rs a2 bs2 rs2 u (Some (FNum bt)) f f' BU BU2 U); auto.
      rewrite FX. eauto. }
    rewrite (ak_g0 _ _ P), (ak_b _ _ P). destruct (_ && _)%bool; [|discriminate]. cbn [bind].
    rewrite (ak_g0 _ _ P), (ak_b _ _ P).
    destruct (_ || _)%bool; intros [= <- _] [= <- _]; [exact I|]. cbn [both]. now apply alike_result.
  Qed.
End Two.
