(** C131: the results of the multiplied energies. *)
From Coq Require Import String List Bool Reals Lra Lia ZArith Arith.
From Verif Require Import Base Pyf PyfOps StatModel StatProof FbModel FbProof3 SiteProof LsqfbModel LsqfbSpec LsqfbProof LsqfbProof2 LsqfbProof3 LsqfbProof4 LsqfbProof5 GainSpec GainProof GainProof2 GainProof3.
Import ListNotations.
Open Scope string_scope.
Open Scope list_scope.
Open Scope R_scope.

Lemma nan_count (A : Type) (f : A -> R) l :
  List.length (filter (fun x => negb (fisnan x)) (map (fun s => FNum (f s)) l)) = List.length l.
Proof. induction l; cbn; congruence. Qed.

Lemma band_unfold o st v0 : aligned st -> invert_band o st v0 =
  bind (choose o st) (fun y => match y with
    | None => Ok (None, {| r_record := []; r_g0 := [] |})
    | Some (rs, f) =>
        if (near_bounds (l_b_bounds o) (f_b f) || near_bounds (l_g0_bounds o) (f_g0 f))%bool
        then Ok (None, rs) else Ok (Some (arrange o st f v0), rs)
    end).
Proof. intros (NE & _). unfold invert_band. destruct (pairs st); [contradiction|reflexivity]. Qed.

Section T.
  Variables (lam mu : string -> R) (m : R) (o : lopts) (st : wstate) (dof : list (list R) -> option (list R) -> R).
  Let st' := gained lam mu st.
  Hypothesis AL : aligned st.
  Hypothesis NU : numeric st.
  Hypothesis LS : least_squares_dof (l_wls o) dof.
  Hypothesis WP : good_weights o st.
  Hypothesis CN : l_coda_norm o = false.
  Hypothesis PG : positive_greens o st.
  Hypothesis PL : positive_on (map fst (pairs st)) lam.
  Hypothesis PM : positive_on (map snd (pairs st)) mu.

  Section Sites.
  Hypothesis FS : l_fix_sites o = None.
  Hypothesis R0 : 0 < l_R0 o.
  Hypothesis MS : mean_site st mu m.
  Hypothesis NET : one_network st.

  Lemma paired_result f f' v0 : paired lam mu m st f f' ->
    scaled_result st (fun e => lam e * m) (fun s => mu s / m) (arrange o st f v0) (arrange o st' f' v0).
  Proof.
    intros [E1 E2 E3 (source & site & P1 & P2 & W & Rr & W' & Rr')].
    unfold scaled_result, arrange. cbn [fb_g0 fb_b fb_error fb_nstations fb_v0 fb_W fb_R].
    rewrite E1, E2, E3, CN, FS. cbn [negb]. split; [reflexivity|]. split; [reflexivity|]. split; [reflexivity|].
    split; [now rewrite Rr, Rr', !nan_count|]. split; [reflexivity|].
    change (eventids st') with (eventids st). change (stations st') with (stations st).
    rewrite W, Rr, W', Rr'. exists source, site. do 4 eexists.
    split; [intros e _; apply P1|]. split; [intros e _; apply P2|].
    split; [reflexivity|]. split; [apply (table_combine _ _ source), fromkeys_spec|].
    split; [reflexivity|]. split; [apply (table_combine _ _ (fun e => source e * (lam e * m))), fromkeys_spec|].
    split; [reflexivity|]. split; [apply (table_combine _ _ site), fromkeys_spec|].
    split; [reflexivity|]. apply (table_combine _ _ (fun s => site s * (mu s / m))), fromkeys_spec.
  Qed.

  Section Go.
  Hypothesis FX : l_fix o = false.
  Hypothesis TT : two_times st.
  Variables lo hi : R.
  Hypothesis BG : l_g0_bounds o = Some (lo, hi).
  Hypothesis LO : 0 < lo.

  Lemma inside_pos x : g0_outside o x = false -> exists u, x = FNum u /\ 0 < u.
  Proof.
    intros G. apply g0_outside_spec in G. destruct (G lo hi BG) as (u & -> & Q). exists u. split; [reflexivity|lra].
  Qed.

  Lemma pair_go a bs rs u f f' : build o st = Ok (a, bs, rs) -> 0 < u ->
    solve_at o st a bs rs (FNum u) None false = Ok f -> solve_at o st' a bs rs (FNum u) None false = Ok f' ->
    paired lam mu m st f f'.
  Proof.
    intros BU U. apply (solve_gained lam mu m o st dof AL NU LS WP CN PG PL PM FS R0 MS NET (fun _ => TT) a bs rs u None f f' BU U).
    now rewrite FX.
  Qed.

  Lemma minimize_gained a bs rs : build o st = Ok (a, bs, rs) -> forall p s0 s0' s g s' g',
    minimize o st a bs rs p s0 = Ok (s, g) -> minimize o st' a bs rs p s0' = Ok (s', g') -> g' = g.
  Proof.
    intros BU. induction p as [x k IH|x|e]; intros s0 s0' s g s' g' H H'; cbn [minimize] in H, H'.
    - unfold lstsq_opt in H, H'. destruct (g0_outside o x) eqn:GO; cbn [bind] in H, H'; [now apply (IH _ _ _ _ _ _ _ H H')|].
      destruct (inside_pos x GO) as (u & -> & U).
      destruct (solve_at o st a bs rs (FNum u) None false) as [f|] eqn:S; [|discriminate].
      destruct (solve_at o st' a bs rs (FNum u) None false) as [f'|] eqn:S'; [|discriminate]. cbn [bind] in H, H'.
      rewrite (pr_err _ _ _ _ _ _ (pair_go a bs rs u f f' BU U S S')) in H'. exact (IH _ _ _ _ _ _ _ H H').
    - injection H as _ <-. injection H' as _ <-. reflexivity.
    - discriminate.
  Qed.

  Lemma chosen_same y y' : choose o st = Ok y -> choose o st' = Ok y' ->
    exists a bs rs g s f s' f', build o st = Ok (a, bs, rs) /\ y = Some (s, f) /\ y' = Some (s', f') /\
      solve_at o st a bs rs g None false = Ok f /\ solve_at o st' a bs rs g None false = Ok f'.
  Proof.
    unfold choose. assert (BE : build o st' = build o st) by exact (gained_build lam mu o st AL). rewrite BE.
    destruct (build o st) as [[[a bs] rs]|] eqn:BU; [|discriminate]. cbn [bind]. rewrite FX.
    assert (K : forall s0 s0' g z z', 
      bind (lstsq o st a bs rs s0 g None false) (fun y => Ok (Some y)) = Ok z ->
      bind (lstsq o st' a bs rs s0' g None false) (fun y => Ok (Some y)) = Ok z' ->
      exists s f s' f', z = Some (s, f) /\ z' = Some (s', f') /\
      solve_at o st a bs rs g None false = Ok f /\ solve_at o st' a bs rs g None false = Ok f').
    { intros s0 s0' g z z'. unfold lstsq. destruct (solve_at o st _ _ _ _ _ _) as [f|]; [|discriminate].
      destruct (solve_at o st' _ _ _ _ _ _) as [f'|]; [|discriminate]. cbn [bind]. intros [= <-] [= <-]. eauto 8. }
    destruct (negb (l_optimize o)).
    - rewrite BG. intros H H'. destruct (K _ _ _ _ _ H H') as (s & f & s' & f' & Q). exists a, bs, rs. eauto 8.
    - destruct (minimize o st a bs rs (l_optim o) _) as [[s1 g]|] eqn:M; [|discriminate].
      destruct (minimize o st' a bs rs (l_optim o) _) as [[s1' g']|] eqn:M'; [|discriminate]. cbn [bind].
      rewrite (minimize_gained a bs rs BU _ _ _ _ _ _ _ M M'). intros H H'.
      destruct (K _ _ _ _ _ H H') as (s & f & s' & f' & Q). exists a, bs, rs. eauto 8.
  Qed.

  Lemma near_outside g : near_bounds (l_g0_bounds o) g = false -> exists u, g = FNum u /\ 0 < u.
  Proof.
    intros N. apply near_bounds_spec in N. destruct (N lo hi BG) as (u & -> & Q). exists u. split; [reflexivity|lra].
  Qed.

  Lemma gained_go v0 y y' s s' : invert_band o st v0 = Ok (y, s) -> invert_band o st' v0 = Ok (y', s') ->
    both (scaled_result st (fun e => lam e * m) (fun s => mu s / m)) y y'.
  Proof.
    rewrite (band_unfold o st v0 AL), (band_unfold o st' v0 (gained_aligned lam mu st AL)).
    destruct (choose o st) as [z|] eqn:C; [|discriminate]. destruct (choose o st') as [z'|] eqn:C'; [|discriminate].
    cbn [bind]. destruct (chosen_same z z' C C') as (a & bs & rs & g & s1 & f & s1' & f' & BU & -> & -> & S & S').
    pose proof (solve_at_g0 o st _ _ _ _ _ _ _ S) as G. pose proof (solve_at_g0 o st' _ _ _ _ _ _ _ S') as G'.
    rewrite G, G'. destruct (near_bounds (l_g0_bounds o) g) eqn:N.
    - rewrite !orb_true_r. intros [= <- _] [= <- _]. exact I.
    - destruct (near_outside g N) as (u & -> & U). pose proof (pair_go a bs rs u f f' BU U S S') as P.
      rewrite (pr_b _ _ _ _ _ _ P). rewrite !orb_false_r.
      destruct (near_bounds (l_b_bounds o) (f_b f)); intros [= <- _] [= <- _]; [exact I|].
      cbn [both]. now apply paired_result.
  Qed.
  End Go.

  (** command fixed *)
  Lemma gained_fixed u bt v0 y y' s s' : l_fix o = true -> l_fix_params o = Some (Some (FNum u), Some (FNum bt)) -> 0 < u ->
    invert_band o st v0 = Ok (y, s) -> invert_band o st' v0 = Ok (y', s') ->
    both (scaled_result st (fun e => lam e * m) (fun s => mu s / m)) y y'.
  Proof.
    intros FX FP U. rewrite (band_unfold o st v0 AL), (band_unfold o st' v0 (gained_aligned lam mu st AL)).
    unfold choose. assert (BE : build o st' = build o st) by exact (gained_build lam mu o st AL). rewrite BE.
    destruct (build o st) as [[[a bs] rs]|] eqn:BU; [|discriminate]. cbn [bind]. rewrite FX, FP, FS. unfold lstsq.
    destruct (solve_at o st _ _ _ _ _ _) as [f|] eqn:S; [|discriminate].
    destruct (solve_at o st' _ _ _ _ _ _) as [f'|] eqn:S'; [|discriminate]. cbn [bind snd].
    assert (P : paired lam mu m st f f').
    { apply (solve_gained lam mu m o st dof AL NU LS WP CN PG PL PM FS R0 MS NET ltac:(congruence) a bs rs u (Some (FNum bt)) f f' BU U); auto.
      rewrite FX. eauto. }
    rewrite (pr_g0 _ _ _ _ _ _ P), (pr_b _ _ _ _ _ _ P). destruct (_ && _)%bool; [|discriminate]. cbn [bind].
    rewrite (pr_g0 _ _ _ _ _ _ P), (pr_b _ _ _ _ _ _ P).
    destruct (_ || _)%bool; intros [= <- _] [= <- _]; [exact I|]. cbn [both]. now apply paired_result.
  Qed.
  End Sites.
End T.

Section F.
  Variables (lam : string -> R) (o : lopts) (st : wstate) (dof : list (list R) -> option (list R) -> R).
  Let one := fun _ : string => 1.
  Let st' := gained lam one st.
  Hypothesis AL : aligned st.
  Hypothesis NU : numeric st.
  Hypothesis LS : least_squares_dof (l_wls o) dof.
  Hypothesis WP : good_weights o st.
  Hypothesis CN : l_coda_norm o = false.
  Hypothesis PG : positive_greens o st.
  Hypothesis PL : positive_on (map fst (pairs st)) lam.
  Variable params : list (string * pyf).
  Hypothesis FS : l_fix_sites o = Some params.
  Hypothesis FX : l_fix o = true.
  Hypothesis PA : forall x, In x (map snd (pairs st)) -> exists v, 0 < v /\ dget String.eqb params x = Some (FNum v).

  Lemma source_rows a bs rs : build o st = Ok (a, bs, rs) -> exists rows mm, a = map (map FNum) rows /\ bs = map FNum mm /\
    Forall2 (fun row s => List.length row = Ne st /\
      exists idx, index_of (eventids st) (fst (fst s)) = Ok idx /\
      forall c, List.length c = Ne st -> dotr row c = nth idx c 0) rows (samples st).
  Proof.
    intros BU. destruct (build_sites o st AL params a bs rs FS FX BU) as (xs & F & EA & EB & _).
    assert (G : Forall2 (fun x s => exists row b, fst x = map FNum row /\ flog (snd x) = FNum b /\ List.length row = Ne st /\
                exists idx, index_of (eventids st) (fst (fst s)) = Ok idx /\
                forall c, List.length c = Ne st -> dotr row c = nth idx c 0) xs (samples st)).
    { refine (Forall2_impl_in _ _ _ _ _ F). intros x s _ IS RO. pose proof (sample_pair st s IS) as IP.
      destruct (event_index st _ IP) as [idx I].
      destruct (row_sites_spec st params _ _ _ I RO) as (row & E1 & L & V & D).
      destruct (PA (snd (fst s)) (in_map snd _ _ IP)) as (v & VP & Q). rewrite Q in V. injection V as V.
      exists row, (ln v). split; [exact E1|]. split; [rewrite <- V; now apply flog_num|]. eauto. }
    rewrite EA, EB. clear - G. revert G. generalize (samples st).
    induction xs as [|x xs IH]; intros ss G; inversion G as [|? s ? ss' H G']; subst.
    - exists [], []. split; [reflexivity|]. split; [reflexivity|constructor].
    - destruct (IH _ G') as (rows & mm & E2 & E3 & F). destruct H as (row & b & E1 & E4 & H). exists (row :: rows), (b :: mm).
      cbn [map]. rewrite E1, E2, E3, E4. split; [reflexivity|]. split; [reflexivity|]. constructor; assumption.
  Qed.

  Lemma solve_source a bs rs x bt f f' : build o st = Ok (a, bs, rs) -> 0 < x ->
    solve_at o st a bs rs (FNum x) (Some (FNum bt)) true = Ok f ->
    solve_at o st' a bs rs (FNum x) (Some (FNum bt)) true = Ok f' ->
    f_err f' = f_err f /\ f_g0 f' = f_g0 f /\ f_b f' = f_b f /\ f_R f' = f_R f /\
    exists source, (forall e, 0 < source e) /\ f_W f = map (fun e => FNum (source e)) (eventids st) /\
      f_W f' = map (fun e => FNum (source e * lam e)) (eventids st).
  Proof.
    intros BU X H H'.
    assert (P1 : positive_on (map snd (pairs st)) one) by (intros s _; unfold one; lra).
    destruct (source_rows a bs rs BU) as (rows & mm & EA & EBS & G).
    destruct (solve_at_rhs _ _ _ _ _ _ _ _ _ H) as (z & RH). destruct (solve_at_rhs _ _ _ _ _ _ _ _ _ H') as (z' & RH').
    destruct (rhs_gained lam one o st AL NU PL P1 PG x (Some (FNum bt)) true bs z z' X (ex_intro _ bt eq_refl) (fun _ => ex_intro _ mm EBS) RH RH') as (b & EZ & LB & EZ').
    assert (NEM : Forall (fun e => e <> []) (w_ecoda st)).
    { destruct (rhs_lengths o st (FNum x) AL _ _ _ _ RH) as (gc & gb & GR & _). exact (ecoda_nonempty o st _ gc gb AL GR). }
    assert (LL : List.length rows = List.length (samples st)) by exact (Forall2_len _ _ _ G).
    assert (LR : Forall (fun row => List.length row = Ne st) rows).
    { clear - G. revert G. generalize (samples st).
      induction rows as [|r rows IH]; intros l G; inversion G; subst; constructor; [tauto|eauto]. }
    set (d := map (fun e => ln (lam e)) (eventids st)).
    assert (LD : List.length d = Ne st) by (unfold d; now rewrite map_length).
    assert (ND : forall idx e, index_of (eventids st) e = Ok idx -> nth idx d 0 = ln (lam e)).
    { intros idx e I. apply index_of_spec in I. apply (map_nth_error (fun e => ln (lam e))) in I.
      exact (nth_error_nth _ _ _ I). }
    assert (GL : map (gain_log lam one) (samples st) = map (fun r => dotr r d) rows).
    { clear - G LD ND. revert G. generalize (samples st). induction rows as [|r rows IH]; intros ss G; inversion G as [|? s ? ss' (L & idx & I & D) G']; subst; [reflexivity|].
      cbn [map]. f_equal; [|auto]. rewrite (D d LD), (ND _ _ I). unfold gain_log, one. rewrite ln_1. ring. }
    rewrite GL in EZ'.
    unfold solve_at in H, H'. rewrite RH in H. rewrite RH' in H'. cbn [bind] in H, H'.
    assert (EW : weights o st' z' = weights o st z).
    { unfold weights. change (w_weights st') with (w_weights st).
      assert (Q : List.length z' = List.length z).
      { rewrite EZ, EZ', !map_length. rewrite (vlin_length _ _ _ _ (List.length b) eq_refl); [reflexivity|]. rewrite map_length. congruence. }
      now rewrite Q. }
    rewrite EW in H'.
    assert (WO : match weights o st z with None => True | Some w => Forall (fun w => 0 < w) w /\ List.length w = List.length rows end).
    { rewrite LL. apply weights_ok; [rewrite EZ, map_length; exact LB|exact (bulk_le o st AL WP)]. }
    destruct (l_wls o z a (weights o st z)) as [[c mse]|] eqn:W; [|discriminate].
    destruct (l_wls o z' a (weights o st z)) as [[c' mse']|] eqn:W'; [|discriminate]. cbn [bind] in H, H'.
    rewrite EA, EZ in W. rewrite EA, EZ' in W'. rewrite EZ in W'.
    destruct (lsq_shift (l_wls o) dof (Ne st) rows b d (weights o st (map FNum b)) c mse c' mse' LS LR
      ltac:(congruence) ltac:(rewrite <- EZ; exact WO) LD W W') as (y & y' & -> & -> & LY & LY' & SH & ->).
    rewrite FX, CN in H, H'. cbn [bind decode] in H, H'. injection H as <-. injection H' as <-.
    cbn [f_err f_g0 f_b f_W f_R]. split; [reflexivity|]. split; [reflexivity|]. split; [reflexivity|]. split; [reflexivity|].
    set (src := fun e => match index_of (eventids st) e with Ok i => exp (nth i y 0) | Err _ => 1 end).
    assert (NDE : NoDup (eventids st)) by apply fromkeys_spec.
    exists src. split; [intros e; unfold src; destruct (index_of _ _); [apply exp_pos|lra]|].
    assert (NTH : forall k e, nth_error (eventids st) k = Some e -> nth k y' 0 = nth k y 0 + ln (lam e)).
    { intros k e EE. pose proof (index_of_nodup _ NDE _ _ EE) as IX.
      assert (IE : exists s, In (e, s) (pairs st)).
      { apply nth_error_In in EE. apply (proj2 (fromkeys_spec (map fst (pairs st))) e) in EE.
        apply in_map_iff in EE. destruct EE as ([ev s] & <- & IE). eauto. }
      destruct IE as (sta & IE). destruct (pair_has_sample st AL _ NEM IE) as (te & IS).
      assert (Q : exists row, (exists idx, index_of (eventids st) e = Ok idx /\
              forall c, List.length c = Ne st -> dotr row c = nth idx c 0) /\ dotr row y' = dotr row y + dotr row d).
      { clear - G SH IS. revert rows G SH IS. generalize (samples st).
        induction l as [|s0 l IH]; intros rows G EX IS; [destruct IS|].
        inversion G as [|row ? rows' ? G1 G2]; subst. inversion EX as [|? ? E1 E2]; subst.
        destruct IS as [->|IS]; [|exact (IH _ G2 E2 IS)].
        exists row. split; [exact (proj2 G1)|exact E1]. }
      destruct Q as (row & (idx' & IX' & D) & T). rewrite IX in IX'. injection IX' as <-.
      rewrite !D in T by assumption. now rewrite (ND _ _ IX) in T. }
    assert (GEN : forall v (h : string -> R), List.length v = Ne st ->
      (forall k e, nth_error (eventids st) k = Some e -> exp (nth k v 0) = h e) ->
      map fexp (map FNum v) = map (fun e => FNum (h e)) (eventids st)).
    { intros v h LV HV. rewrite map_map. apply (nth_ext _ _ (FNum 0) (FNum 0)); [now rewrite !map_length|].
      intros k KL. rewrite map_length, LV in KL. unfold Ne in KL.
      destruct (nth_error (eventids st) k) as [e|] eqn:E; [|apply nth_error_None in E; lia].
      rewrite (nth_error_nth _ _ _ (map_nth_error (fun e => FNum (h e)) _ _ E)).
      assert (NV : nth_error v k = Some (nth k v 0)) by (apply nth_error_nth'; unfold Ne in LV; lia).
      rewrite (nth_error_nth _ _ _ (map_nth_error (fun x => fexp (FNum x)) _ _ NV)). cbn [fexp]. f_equal. now apply HV. }
    split.
    - apply GEN; [exact LY|]. intros k e E. unfold src. now rewrite (index_of_nodup _ NDE _ _ E).
    - apply (GEN y' (fun e => src e * lam e)); [exact LY'|]. intros k e E. rewrite (NTH k e E). unfold src. rewrite (index_of_nodup _ NDE _ _ E).
      rewrite exp_plus, exp_ln; [reflexivity|]. apply (source_pos st lam PL). now apply nth_error_In in E.
  Qed.

  Lemma gained_source u bt v0 y y' s s' : l_fix_params o = Some (Some (FNum u), Some (FNum bt)) -> 0 < u ->
    invert_band o st v0 = Ok (y, s) -> invert_band o st' v0 = Ok (y', s') ->
    both (scaled_sources st lam) y y'.
  Proof.
    intros FP U. rewrite (band_unfold o st v0 AL), (band_unfold o st' v0 (gained_aligned lam one st AL)).
    unfold choose. assert (BE : build o st' = build o st) by exact (gained_build lam one o st AL). rewrite BE.
    destruct (build o st) as [[[a bs] rs]|] eqn:BU; [|discriminate]. cbn [bind]. rewrite FX, FP, FS. unfold lstsq.
    destruct (solve_at o st _ _ _ _ _ _) as [f|] eqn:S; [|discriminate].
    destruct (solve_at o st' _ _ _ _ _ _) as [f'|] eqn:S'; [|discriminate]. cbn [bind snd].
    destruct (solve_source a bs rs u bt f f' BU U S S') as (E1 & E2 & E3 & E4 & source & P & W & W').
    rewrite E2, E3. destruct (_ && _)%bool; [|discriminate]. cbn [bind]. rewrite E2, E3.
    destruct (_ || _)%bool; intros [= <- _] [= <- _]; [exact I|]. cbn [both].
    unfold scaled_sources, arrange. cbn [fb_g0 fb_b fb_error fb_nstations fb_v0 fb_W fb_R].
    rewrite E1, E4, CN, FS. do 5 (split; [reflexivity|]).
    change (eventids st') with (eventids st). rewrite W, W'. exists source. do 2 eexists.
    split; [intros e _; apply P|].
    split; [reflexivity|]. split; [apply (table_combine _ _ source), fromkeys_spec|].
    split; [reflexivity|]. apply (table_combine _ _ (fun e => source e * lam e)), fromkeys_spec.
  Qed.
End F.
