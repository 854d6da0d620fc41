(** C133: the results of the damped energies. *)
From Coq Require Import String List Bool Reals Lra Lia ZArith Arith.
From Verif Require Import Base Pyf PyfOps StatModel StatProof FbModel FbProof3 SiteProof LsqfbModel LsqfbSpec LsqfbProof LsqfbProof2 LsqfbProof3 LsqfbProof4 LsqfbProof5 GainSpec GainProof GainProof2 GainProof3 GainProof4 DampSpec DampProof.
Import ListNotations.
Open Scope string_scope.
Open Scope list_scope.
Open Scope R_scope.

Section T.
  Variables (d : R) (o : lopts) (st : wstate) (dof : list (list R) -> option (list R) -> R).
  Let st' := damped d st.
  Let one := fun _ : string => 1.
  Hypothesis AL : aligned st.
  Hypothesis NU : numeric st.
  Hypothesis PG : positive_greens o st.

  Section Go.
  Hypothesis LS : least_squares_dof (l_wls o) dof.
  Hypothesis WP : good_weights o st.
  Hypothesis CN : l_coda_norm o = false.
  Hypothesis FS : l_fix_sites o = None.
  Hypothesis R0 : 0 < l_R0 o.
  Hypothesis NET : one_network st.
  Hypothesis FX : l_fix o = false.
  Hypothesis TT : two_times st.
  Hypothesis BB : l_b_bounds o = None.
  Variables lo hi : R.
  Hypothesis BG : l_g0_bounds o = Some (lo, hi).
  Hypothesis LO : 0 < lo.

  Lemma shifted rows c c' : Forall (fun e => e <> []) (w_ecoda st) ->
    List.length c = width o st -> List.length c' = width o st -> good_rows o st rows ->
    Forall (fun r => dotr r c' = dotr r c + dotr r (truth o st one one d)) rows ->
    last c' 0 = last c 0 + d /\ W_of o st c' = W_of o st c /\ R_of o st c' = R_of o st c.
  Proof.
    intros NEM LC LC' G SH.
    assert (EX : exact_rows o st (site_at o st c) (source_at o st c) (last c 0 + d) c' rows).
    { pose proof (at_exact o st R0 (fun _ => TT) rows c LC G) as E1.
      pose proof (truth_exact o st AL one one d (fun _ _ => Rlt_0_1) rows G) as E2.
      unfold exact_rows in *. apply Forall2_map_r_inv in E1. apply Forall2_map_r_inv in E2. apply Forall2_map_r.
      revert E1 E2 SH. generalize (samples st). clear - FX.
      induction rows as [|r rows IH]; intros ss E1 E2 SH; inversion E1 as [|? s ? ss' Q1 E1']; subst; [constructor|].
      inversion E2 as [|? ? ? ? Q2 E2']; subst. inversion SH as [|? ? Q3 SH']; subst. constructor; [|now apply IH].
      rewrite Q3, Q1, Q2. unfold target, one. rewrite FX, ln_1. ring. }
    destruct (identify o st AL _ _ (last c 0 + d) (fun e _ => source_at_pos o st R0 c e) (network_stations st NET) (fun _ => TT) NEM c' rows G LC' EX) as (B & HS & HE).
    destruct (decoded o st AL R0 NET (fun _ => TT) rows c NEM LC G) as [EW ER].
    split; [exact (B FX)|]. rewrite EW, ER.
    apply (decoded_truth o st AL _ _ (fun s _ => site_at_pos o st R0 c s) (fun e _ => source_at_pos o st R0 c e) R0); auto.
    pose proof (R_of_mean o st AL c R0 LC) as GM. rewrite ER, map_map in GM. exact GM.
  Qed.

  Lemma solve_damped a bs rs x f f' : build o st = Ok (a, bs, rs) -> 0 < x ->
    solve_at o st a bs rs (FNum x) None false = Ok f -> solve_at o st' a bs rs (FNum x) None false = Ok f' ->
    f_err f' = f_err f /\ f_g0 f' = f_g0 f /\ f_W f' = f_W f /\ f_R f' = f_R f /\
    exists b, f_b f = FNum b /\ f_b f' = FNum (b + d).
  Proof.
    intros BU X H H'.
    destruct (solve_at_rhs _ _ _ _ _ _ _ _ _ H) as (z & RH).
    destruct (rhs_free d st AL NU o PG x false bs z X eq_refl RH) as (b & EZ & LB & RH'). fold st' in RH'.
    assert (NEM : Forall (fun e => e <> []) (w_ecoda st)).
    { destruct (rhs_lengths o st (FNum x) AL _ _ _ _ RH) as (gc & gb & GR & _). exact (ecoda_nonempty o st _ gc gb AL GR). }
    destruct (rows_of o st AL a bs rs CN FS (numeric_times st NU) BU) as (rows & EA & G).
    destruct (good_lengths o st rows G) as [LR LL].
    assert (GL : vlin 1 b (- d) (map tof (samples st)) = vlin 1 b 1 (map (fun r => dotr r (truth o st one one d)) rows)).
    { pose proof (truth_exact o st AL one one d (fun _ _ => Rlt_0_1) rows G) as E2. unfold exact_rows in E2. apply Forall2_map_r_inv in E2.
      clear - E2 FX LB. revert b E2 LB. generalize (samples st). induction rows as [|r rows IH]; intros ss b E2 LB; inversion E2; subst.
      - now destruct b.
      - destruct b as [|u b]; [discriminate|]. unfold vlin in *. cbn [map combine fst snd]. f_equal; [|apply IH; auto].
        rewrite H1. unfold target, one. rewrite FX, ln_1. ring. }
    rewrite GL in RH'.
    unfold solve_at in H, H'. rewrite RH in H. rewrite RH' in H'. cbn [bind] in H, H'.
    assert (EW : weights o st' (map FNum (vlin 1 b 1 (map (fun r => dotr r (truth o st one one d)) rows))) = weights o st z).
    { unfold weights. change (w_weights st') with (w_weights st).
      rewrite EZ, !map_length. rewrite (vlin_length _ _ _ _ (List.length b) eq_refl); [reflexivity|]. rewrite map_length. congruence. }
    rewrite EW in H'.
    assert (WO : match weights o st z with None => True | Some w => Forall (fun w => 0 < w) w /\ List.length w = List.length rows end).
    { rewrite LL. apply weights_ok; [rewrite EZ, map_length; exact LB|exact (bulk_le o st AL WP)]. }
    destruct (l_wls o z a (weights o st z)) as [[c mse]|] eqn:W; [|discriminate].
    match type of H' with bind ?q _ = _ => destruct q as [[c' mse']|] eqn:W'; [|discriminate] end. cbn [bind] in H, H'.
    rewrite EA, EZ in W. rewrite EA, EZ in W'.
    destruct (lsq_shift (l_wls o) dof (width o st) rows b (truth o st one one d) (weights o st (map FNum b)) c mse c' mse' LS LR
      ltac:(congruence) ltac:(rewrite <- EZ; exact WO) (truth_length o st AL one one d (fun _ _ => Rlt_0_1)) W W') as (y & y' & -> & -> & LY & LY' & SH & ->).
    destruct (shifted rows y y' NEM LY LY' G SH) as (EB & EW' & ER').
    rewrite (decode_spec o st AL y rs R0 CN LY) in H.
    change (decode o st' (map FNum y') false rs) with (decode o st (map FNum y') false rs) in H'.
    rewrite (decode_spec o st AL y' rs R0 CN LY'), EW', ER' in H'.
    rewrite FX in H, H'.
    assert (NE : y <> [] /\ y' <> []).
    { split; intros Q; [rewrite Q in LY; clear LY'; rename LY into LZ|rewrite Q in LY'; clear LY; rename LY' into LZ];
      cbn in LZ; unfold width, fix01 in LZ; rewrite FX in LZ; pose proof (Ns_pos st AL); lia. }
    destruct NE as [NE NE'].
    assert (L1 := last_map_num y NE). assert (L2 := last_map_num y' NE'). rewrite EB in L2.
    destruct (map FNum y) as [|p q] eqn:MY; [now destruct y|]. destruct (map FNum y') as [|p' q'] eqn:MY'; [now destruct y'|].
    cbv zeta in H, H'. rewrite L1 in H. rewrite L2 in H'. unfold b_outside in H, H'. rewrite BB in H, H'.
    cbn [bind orb] in H, H'. injection H as <-. injection H' as <-. cbn [f_err f_g0 f_b f_W f_R]. eauto 8.
  Qed.

  Lemma minimize_damped a bs rs : build o st = Ok (a, bs, rs) -> forall p s0 s0' s g s' g',
    minimize o st a bs rs p s0 = Ok (s, g) -> minimize o st' a bs rs p s0' = Ok (s', g') -> g' = g.
  Proof.
    intros BU. induction p as [x k IH|x|e]; intros s0 s0' s g s' g' H H'; cbn [minimize] in H, H'.
    - unfold lstsq_opt in H, H'. destruct (g0_outside o x) eqn:GO; cbn [bind] in H, H'; [now apply (IH _ _ _ _ _ _ _ H H')|].
      destruct (inside_pos o lo hi BG LO x GO) as (u & -> & U).
      destruct (solve_at o st a bs rs (FNum u) None false) as [f|] eqn:S; [|discriminate].
      destruct (solve_at o st' a bs rs (FNum u) None false) as [f'|] eqn:S'; [|discriminate]. cbn [bind] in H, H'.
      rewrite (proj1 (solve_damped a bs rs u f f' BU U S S')) in H'. exact (IH _ _ _ _ _ _ _ H H').
    - injection H as _ <-. injection H' as _ <-. reflexivity.
    - discriminate.
  Qed.

  Lemma chosen_damped y y' : choose o st = Ok y -> choose o st' = Ok y' ->
    exists a bs rs g s f s' f', build o st = Ok (a, bs, rs) /\ y = Some (s, f) /\ y' = Some (s', f') /\
      solve_at o st a bs rs g None false = Ok f /\ solve_at o st' a bs rs g None false = Ok f'.
  Proof.
    unfold choose. assert (BE : build o st' = build o st) by exact (damped_build d st AL o). rewrite BE.
    destruct (build o st) as [[[a bs] rs]|] eqn:BU; [|discriminate]. cbn [bind]. rewrite FX.
    assert (K : forall s0 s0' g z z',
      bind (lstsq o st a bs rs s0 g None false) (fun y => Ok (Some y)) = Ok z ->
      bind (lstsq o st' a bs rs s0' g None false) (fun y => Ok (Some y)) = Ok z' ->
      exists s f s' f', z = Some (s, f) /\ z' = Some (s', f') /\
      solve_at o st a bs rs g None false = Ok f /\ solve_at o st' a bs rs g None false = Ok f').
    { intros s0 s0' g z z'. unfold lstsq. destruct (solve_at o st _ _ _ _ _ _) as [f|]; [|discriminate].
      destruct (solve_at o st' _ _ _ _ _ _) as [f'|]; [|discriminate]. cbn [bind]. intros [= <-] [= <-]. eauto 8. }
    destruct (negb (l_optimize o)).
    - rewrite BG. intros H H'. destruct (K _ _ _ _ _ H H') as (s & f & s' & f' & Q). exists a, bs, rs. eauto 8.
    - destruct (minimize o st a bs rs (l_optim o) _) as [[s1 g]|] eqn:M; [|discriminate].
      destruct (minimize o st' a bs rs (l_optim o) _) as [[s1' g']|] eqn:M'; [|discriminate]. cbn [bind].
      rewrite (minimize_damped a bs rs BU _ _ _ _ _ _ _ M M'). intros H H'.
      destruct (K _ _ _ _ _ H H') as (s & f & s' & f' & Q). exists a, bs, rs. eauto 8.
  Qed.

  Lemma damped_go v0 y y' s s' : invert_band o st v0 = Ok (y, s) -> invert_band o st' v0 = Ok (y', s') ->
    both (more_damped d) y y'.
  Proof.
    rewrite (band_unfold o st v0 AL), (band_unfold o st' v0 (damped_aligned d st AL)).
    destruct (choose o st) as [z|] eqn:C; [|discriminate]. destruct (choose o st') as [z'|] eqn:C'; [|discriminate].
    cbn [bind]. destruct (chosen_damped z z' C C') as (a & bs & rs & g & s1 & f & s1' & f' & BU & -> & -> & S & S').
    pose proof (solve_at_g0 o st _ _ _ _ _ _ _ S) as G. pose proof (solve_at_g0 o st' _ _ _ _ _ _ _ S') as G'.
    rewrite G, G', BB. change (near_bounds None (f_b f)) with false. change (near_bounds None (f_b f')) with false. cbn [orb].
    destruct (near_bounds (l_g0_bounds o) g) eqn:N.
    - intros [= <- _] [= <- _]. exact I.
    - destruct (near_outside o lo hi BG LO g N) as (u & -> & U).
      destruct (solve_damped a bs rs u f f' BU U S S') as (E1 & E2 & E3 & E4 & b & B & B').
      intros [= <- _] [= <- _]. cbn [both]. unfold more_damped, arrange. cbn [fb_g0 fb_b fb_error fb_nstations fb_v0 fb_W fb_R].
      change (eventids st') with (eventids st). change (stations st') with (stations st).
      rewrite FX, E1, E2, E3, E4, B, B'. repeat split. eauto.
  Qed.
  End Go.

  (** given transport parameters *)
  Lemma solve_refixed a bs rs g b fs f : 0 < g -> solve_at (refixed o g b) st a bs rs (FNum g) (Some (FNum b)) fs = Ok f ->
    solve_at (refixed o g (b + d)) st' a bs rs (FNum g) (Some (FNum (b + d))) fs =
      Ok {| f_err := f_err f; f_g0 := f_g0 f; f_b := FNum (b + d); f_W := f_W f; f_R := f_R f |}.
  Proof.
    intros GP. unfold solve_at. destruct (rhs (refixed o g b) st _ _ _ _) as [z|] eqn:RH; [|discriminate]. cbn [bind].
    assert (RH' : rhs (refixed o g (b + d)) st' (FNum g) (Some (FNum (b + d))) fs bs = Ok z)
      by exact (rhs_bound d st AL NU (refixed o g b) PG g b fs bs z GP RH).
    rewrite RH'. cbn [bind]. change (l_wls (refixed o g (b + d))) with (l_wls (refixed o g b)).
    change (weights (refixed o g (b + d)) st' z) with (weights (refixed o g b) st z).
    destruct (l_wls _ z a _) as [[c mse]|]; [|discriminate]. cbn [bind]. cbn [refixed l_fix l_coda_norm].
    destruct (l_coda_norm o); [discriminate|]. cbn [bind].
    change (decode (refixed o g (b + d)) st' c fs rs) with (decode (refixed o g b) st c fs rs).
    destruct (decode _ st c fs rs) as [w r]. now intros [= <-].
  Qed.

  Lemma damped_fixed g b v0 r s : 0 < g ->
    (forall l h, l_b_bounds o = Some (l, h) -> 1.01 * l < b + d < 0.99 * h) ->
    invert_band (refixed o g b) st v0 = Ok (Some r, s) ->
    exists s', invert_band (refixed o g (b + d)) st' v0 = Ok (Some r, s').
  Proof.
    intros GP BD. rewrite (band_unfold _ st v0 AL), (band_unfold _ st' v0 (damped_aligned d st AL)).
    unfold choose. assert (BE : build (refixed o g (b + d)) st' = build (refixed o g b) st) by exact (damped_build d st AL (refixed o g b)). rewrite BE.
    destruct (build (refixed o g b) st) as [[[a bs] rs]|] eqn:BU; [|discriminate]. cbn [bind].
    cbn [refixed l_fix l_fix_params l_fix_sites l_b_bounds l_g0_bounds]. unfold lstsq.
    destruct (solve_at (refixed o g b) st _ _ _ _ _ _) as [f|] eqn:S; [|discriminate]. cbn [bind snd].
    rewrite (solve_refixed _ _ _ _ _ _ _ GP S). cbn [bind snd f_g0 f_b].
    rewrite (solve_at_g0 _ _ _ _ _ _ _ _ _ S), !(proj2 (feqb_num _ _) eq_refl). cbn [andb].
    destruct (feqb (f_b f) _); [|discriminate]. cbn [bind f_g0 f_b].
    assert (N : near_bounds (l_b_bounds o) (FNum (b + d)) = false).
    { apply near_bounds_spec. intros l h Q. exists (b + d). split; [reflexivity|]. specialize (BD l h Q). lra. }
    rewrite N. cbn [orb]. rewrite (solve_at_g0 _ _ _ _ _ _ _ _ _ S).
    destruct (near_bounds (l_b_bounds o) (f_b f)); [discriminate|]. cbn [orb].
    destruct (near_bounds (l_g0_bounds o) (FNum g)); [discriminate|]. intros [= <- _]. eexists. reflexivity.
  Qed.
End T.
