(** C131: the fits of the multiplied energies. *)
From Coq Require Import String List Bool Reals Lra Lia ZArith Arith.
From Verif Require Import Base Pyf PyfOps StatModel StatProof FbModel FbProof3 SiteProof LsqfbModel LsqfbSpec LsqfbProof LsqfbProof2 LsqfbProof3 LsqfbProof4 LsqfbProof5 GainSpec GainProof GainProof2.
Import ListNotations.
Open Scope string_scope.
Open Scope list_scope.
Open Scope R_scope.

Section S.
  Variables (lam mu : string -> R) (m : R) (o : lopts) (st : wstate) (dof : list (list R) -> option (list R) -> R).
  Let st' := gained lam mu st.
  Hypothesis AL : aligned st.
  Hypothesis NU : numeric st.
  Hypothesis LS : least_squares_dof (l_wls o) dof.
  Hypothesis WP : good_weights o st.
  Hypothesis CN : l_coda_norm o = false.
  Hypothesis PG : positive_greens o st.
  Hypothesis PL : positive_on (map fst (pairs st)) lam.

  Section Sites.
  Hypothesis PM : positive_on (map snd (pairs st)) mu.
  Hypothesis FS : l_fix_sites o = None.
  Hypothesis R0 : 0 < l_R0 o.
  Hypothesis MS : mean_site st mu m.
  Hypothesis NET : one_network st.
  Hypothesis TT : l_fix o = false -> two_times st.

  (** the parameters of a vector *)
  Definition site_at (c : list R) (s : string) : R :=
    match index_of (stations st) s with Ok j => exp (nth j c 0) / w0_of o st c | Err _ => 1 end.
  Definition source_at (c : list R) (e : string) : R :=
    match index_of (eventids st) e with Ok i => exp (ev_part st c i) * w0_of o st c | Err _ => 1 end.

  Lemma site_at_pos c s : 0 < site_at c s.
  Proof.
    unfold site_at. destruct (index_of _ _); [|lra]. apply Rmult_lt_0_compat; [apply exp_pos|].
    apply Rinv_0_lt_compat. now apply w0_pos.
  Qed.
  Lemma source_at_pos c e : 0 < source_at c e.
  Proof.
    unfold source_at. destruct (index_of _ _); [|lra]. apply Rmult_lt_0_compat; [apply exp_pos|]. now apply w0_pos.
  Qed.

  Lemma at_exact rows c : List.length c = width o st -> good_rows o st rows ->
    exact_rows o st (site_at c) (source_at c) (last c 0) c rows.
  Proof.
    intros LC G. apply Forall2_map_r. refine (Forall2_impl_in _ _ _ _ _ G).
    intros row s _ IS (_ & j & i & J & I & D). rewrite (D _ LC). unfold target, site_at, source_at. rewrite J, I.
    pose proof (w0_pos o st c R0) as W0. pose proof (exp_pos (nth j c 0)). pose proof (exp_pos (ev_part st c i)).
    unfold Rdiv. rewrite !ln_mult, !ln_exp, ln_Rinv by (auto; apply Rinv_0_lt_compat; auto).
    unfold b_part. destruct (l_fix o); ring.
  Qed.

  Lemma m_pos : 0 < m.
  Proof. destruct (MS _ (fromkeys_spec _)) as (x & _ & _ & M & _). exact M. Qed.

  (** decoded parameters *)
  Lemma decoded rows c : Forall (fun e => e <> []) (w_ecoda st) ->
    List.length c = width o st -> good_rows o st rows ->
    W_of o st c = map (source_at c) (eventids st) /\ R_of o st c = map (site_at c) (stations st).
  Proof.
    intros NEM LC G.
    destruct (identify o st AL (site_at c) (source_at c) (last c 0) (fun e _ => source_at_pos c e)
      (network_stations st NET) TT NEM c rows G LC (at_exact rows c LC G)) as (_ & HS & HE).
    assert (ER : R_of o st c = map (site_at c) (stations st)).
    { apply (nth_ext _ _ 0 0).
      - unfold R_of. rewrite !map_length, firstn_length, LC. pose proof (fix01_le o). pose proof (Ne_pos st AL).
        unfold width. fold (Ns st). lia.
      - intros j JL. unfold R_of in JL. rewrite map_length, firstn_length in JL.
        assert (J : (j < Ns st)%nat) by lia. unfold Ns in J.
        destruct (nth_error (stations st) j) as [s|] eqn:E; [|apply nth_error_None in E; lia].
        pose proof (index_of_nodup _ (proj1 (fromkeys_spec (map snd (pairs st)))) _ _ E) as IX.
        destruct (R_of_value o st AL c j s LC IX) as (j' & J1 & J2).
        rewrite (nth_error_nth _ _ 0 (map_nth_error (site_at c) _ _ E)).
        assert (j' = j).
        { pose proof (index_of_nodup _ (proj1 (fromkeys_spec (map snd (pairs st)))) _ _ J1) as IX'.
          unfold stations in IX'. rewrite IX in IX'. now injection IX'. }
        subst j'. rewrite nth_error_map in J2. destruct (nth_error (R_of o st c) j) as [y|] eqn:Y; [|discriminate].
        cbn in J2. injection J2 as ->. rewrite (nth_error_nth _ _ 0 Y). unfold site_at. unfold stations. now rewrite IX. }
    split; [|exact ER].
    apply (decoded_truth o st AL (site_at c) (source_at c) (fun s _ => site_at_pos c s) (fun e _ => source_at_pos c e) R0); auto.
    pose proof (R_of_mean o st AL c R0 LC) as GM. rewrite ER, map_map in GM. exact GM.
  Qed.

  Lemma sum_ln_site (f : string -> R) l : (forall s, In s l -> 0 < f s) -> forall g, (forall s, In s l -> 0 < g s) ->
    fold_right Rplus 0 (map (fun s => ln (f s * (g s / m))) l) =
    fold_right Rplus 0 (map (fun s => ln (f s)) l) + fold_right Rplus 0 (map (fun s => ln (g s)) l) - INR (List.length l) * ln m.
  Proof.
    intros PF g P. pose proof m_pos as M. induction l as [|s l IH]; [cbn; lra|]. cbn [map fold_right List.length].
    rewrite IH, S_INR by (intros; (apply PF || apply P); now right). unfold Rdiv.
    assert (0 < f s) by (apply PF; now left). assert (0 < g s) by (apply P; now left).
    pose proof (Rinv_0_lt_compat m M).
    rewrite !ln_mult, ln_Rinv by (auto; apply Rmult_lt_0_compat; auto). ring.
  Qed.

  (** the second vector *)
  Lemma second rows c c' : Forall (fun e => e <> []) (w_ecoda st) ->
    List.length c = width o st -> List.length c' = width o st -> good_rows o st rows ->
    Forall (fun r => dotr r c' = dotr r c + dotr r (truth o st mu lam 0)) rows ->
    (l_fix o = false -> last c' 0 = last c 0) /\
    W_of o st c' = map (fun e => source_at c e * (lam e * m)) (eventids st) /\
    R_of o st c' = map (fun s => site_at c s * (mu s / m)) (stations st).
  Proof.
    intros NEM LC LC' G SH. pose proof m_pos as M.
    assert (LP : forall e, In e (eventids st) -> 0 < lam e) by (intros e I; now apply (source_pos st lam PL)).
    assert (MP : forall s, In s (stations st) -> 0 < mu s) by (intros s I; now apply (site_pos st mu PM)).
    assert (SP : forall e, In e (eventids st) -> 0 < source_at c e * (lam e * m)).
    { intros e I. pose proof (source_at_pos c e). specialize (LP e I). repeat apply Rmult_lt_0_compat; auto. }
    assert (TP : forall s, In s (stations st) -> 0 < site_at c s * (mu s / m)).
    { intros s I. pose proof (site_at_pos c s). specialize (MP s I). pose proof (Rinv_0_lt_compat m M).
      repeat apply Rmult_lt_0_compat; auto. }
    assert (EX : exact_rows o st (fun s => site_at c s * (mu s / m)) (fun e => source_at c e * (lam e * m)) (last c 0) c' rows).
    { pose proof (at_exact rows c LC G) as E1. pose proof (truth_exact o st AL mu lam 0 LP rows G) as E2.
      unfold exact_rows in *. apply Forall2_map_r_inv in E1. apply Forall2_map_r_inv in E2. apply Forall2_map_r.
      assert (IN : forall s, In s (samples st) -> In s (samples st)) by auto.
      revert E1 E2 SH IN. generalize (samples st) at 1 2 3 5. clear - LP MP M R0 AL. intros ss E1. revert ss E1.
      induction rows as [|r rows IH]; intros ss E1 E2 SH IN; inversion E1 as [|? s ? ss' Q1 E1']; subst; [constructor|].
      inversion E2 as [|? ? ? ? Q2 E2']; subst. inversion SH as [|? ? Q3 SH']; subst. constructor.
      - rewrite Q3, Q1, Q2. unfold target.
        assert (IS : In s (samples st)) by (apply IN; now left).
        pose proof (source_at_pos c (fst (fst s))). pose proof (site_at_pos c (snd (fst s))).
        pose proof (LP _ (in_event st s IS)). pose proof (MP _ (in_station st s IS)). pose proof (Rinv_0_lt_compat m M).
        unfold Rdiv. rewrite !ln_mult, ln_Rinv by (auto; repeat apply Rmult_lt_0_compat; auto).
        destruct (l_fix o); ring.
      - apply IH; auto. intros s' I. apply IN. now right. }
    destruct (identify o st AL _ _ (last c 0) SP (network_stations st NET) TT NEM c' rows G LC' EX) as (B & HS & HE).
    split; [exact B|]. apply (decoded_truth o st AL _ _ TP SP R0); auto.
    (* geometric mean *)
    destruct (decoded rows c NEM LC G) as [_ ER].
    pose proof (R_of_mean o st AL c R0 LC) as GM. rewrite ER, map_map in GM.
    pose proof (site_mean o st AL _ GM) as S1.
    assert (S2 : fold_right Rplus 0 (map (fun s => ln (mu s)) (stations st)) = INR (Ns st) * ln m).
    { pose proof (MS _ (fromkeys_spec (map snd (pairs st)))) as (x & E & _ & _ & Q). fold (stations st) in E.
      assert (X : x = map mu (stations st)).
      { rewrite <- map_map in E. revert E. generalize (map mu (stations st)). clear.
        induction x as [|y x IH]; intros [|z l] E; cbn in E; try discriminate; [reflexivity|].
        injection E as E1 E2. f_equal; auto. }
      subst x. rewrite map_map, map_length in Q. fold (Ns st) in Q. rewrite <- Q. field.
      apply not_0_INR. pose proof (Ns_pos st AL). lia. }
    exists (map (fun s => site_at c s * (mu s / m)) (stations st)). split; [now rewrite map_map|].
    split; [intros y I; apply in_map_iff in I; destruct I as (s & <- & I); now apply TP|].
    split; [exact R0|]. rewrite map_map, map_length, sum_ln_site, S1, S2 by (intros; auto; apply site_at_pos).
    fold (Ns st). field. apply not_0_INR. pose proof (Ns_pos st AL). lia.
  Qed.

  Record paired (f f' : fit) : Prop := {
    pr_err : f_err f' = f_err f; pr_g0 : f_g0 f' = f_g0 f; pr_b : f_b f' = f_b f;
    pr_vals : exists source site, (forall e, 0 < source e) /\ (forall s, 0 < site s) /\
      f_W f = map (fun e => FNum (source e)) (eventids st) /\
      f_R f = map (fun s => FNum (site s)) (stations st) /\
      f_W f' = map (fun e => FNum (source e * (lam e * m))) (eventids st) /\
      f_R f' = map (fun s => FNum (site s * (mu s / m))) (stations st) }.

  Lemma last_map_num c : c <> [] -> last (map FNum c) FNan = FNum (last c 0).
  Proof.
    intros NE. induction c as [|x c IH]; [contradiction|]. destruct c as [|y c]; [reflexivity|].
    apply IH. discriminate.
  Qed.

  Lemma solve_gained a bs rs x bf f f' : build o st = Ok (a, bs, rs) -> 0 < x ->
    (if l_fix o then exists y, bf = Some (FNum y) else bf = None) ->
    solve_at o st a bs rs (FNum x) bf false = Ok f -> solve_at o st' a bs rs (FNum x) bf false = Ok f' ->
    paired f f'.
  Proof.
    intros BU X NB H H'.
    assert (NB' : match bf with None => True | Some b => exists y, b = FNum y end).
    { destruct (l_fix o); [destruct NB as (y & ->); eauto|now rewrite NB]. }
    destruct (solve_at_rhs _ _ _ _ _ _ _ _ _ H) as (z & RH). destruct (solve_at_rhs _ _ _ _ _ _ _ _ _ H') as (z' & RH').
    destruct (rhs_gained lam mu o st AL NU PL PM PG x bf false bs z z' X NB' ltac:(discriminate) RH RH') as (b & EZ & LB & EZ').
    assert (NEM : Forall (fun e => e <> []) (w_ecoda st)).
    { destruct (rhs_lengths o st (FNum x) AL _ _ _ _ RH) as (gc & gb & GR & _). exact (ecoda_nonempty o st _ gc gb AL GR). }
    destruct (rows_of o st AL a bs rs CN FS (numeric_times st NU) BU) as (rows & EA & G).
    destruct (good_lengths o st rows G) as [LR LL].
    assert (LP : forall e, In e (eventids st) -> 0 < lam e) by (intros e I; now apply (source_pos st lam PL)).
    assert (GL : map (gain_log lam mu) (samples st) = map (fun r => dotr r (truth o st mu lam 0)) rows).
    { pose proof (truth_exact o st AL mu lam 0 LP rows G) as E2. unfold exact_rows in E2. apply Forall2_map_r_inv in E2.
      clear - E2. revert E2. generalize (samples st). induction rows as [|r rows IH]; intros ss E2; inversion E2; subst; [reflexivity|].
      cbn [map]. f_equal; [|auto]. rewrite H1. unfold target, gain_log. destruct (l_fix o); ring. }
    rewrite GL in EZ'.
    unfold solve_at in H, H'. rewrite RH in H. rewrite RH' in H'. cbn [bind] in H, H'.
    assert (EW : weights o st' z' = weights o st z).
    { unfold weights. change (w_weights st') with (w_weights st).
      assert (Q : List.length z' = List.length z).
      { rewrite EZ, EZ', !map_length. rewrite (vlin_length _ _ _ _ (List.length b) eq_refl); [reflexivity|]. rewrite map_length. congruence. }
      now rewrite Q. }
    rewrite EW in H'.
    assert (WO : match weights o st z with None => True | Some w => Forall (fun w => 0 < w) w /\ List.length w = List.length rows end).
    { rewrite LL. apply weights_ok; [rewrite EZ, map_length; exact LB|exact (bulk_le o st AL WP)]. }
    destruct (l_wls o z a (weights o st z)) as [[c mse]|] eqn:W; [|discriminate].
    destruct (l_wls o z' a (weights o st z)) as [[c' mse']|] eqn:W'; [|discriminate]. cbn [bind] in H, H'.
    rewrite EA, EZ in W. rewrite EA, EZ' in W'. rewrite EZ in W'.
    destruct (lsq_shift (l_wls o) dof (width o st) rows b (truth o st mu lam 0) (weights o st (map FNum b)) c mse c' mse' LS LR
      ltac:(congruence) ltac:(rewrite <- EZ; exact WO) (truth_length o st AL mu lam 0 LP) W W') as (y & y' & -> & -> & LY & LY' & SH & ->).
    destruct (second rows y y' NEM LY LY' G SH) as (EB & EW' & ER').
    destruct (decoded rows y NEM LY G) as [EWf ERf].
    rewrite (decode_spec o st AL y rs R0 CN LY) in H.
    change (decode o st' (map FNum y') false rs) with (decode o st (map FNum y') false rs) in H'.
    rewrite (decode_spec o st AL y' rs R0 CN LY') in H'.
    assert (VALS : exists source site, (forall e, 0 < source e) /\ (forall s, 0 < site s) /\
      map FNum (W_of o st y) = map (fun e => FNum (source e)) (eventids st) /\
      map FNum (R_of o st y) = map (fun s => FNum (site s)) (stations st) /\
      map FNum (W_of o st y') = map (fun e => FNum (source e * (lam e * m))) (eventids st) /\
      map FNum (R_of o st y') = map (fun s => FNum (site s * (mu s / m))) (stations st)).
    { exists (source_at y), (site_at y). split; [apply source_at_pos|]. split; [apply site_at_pos|].
      rewrite EWf, ERf, EW', ER', !map_map. auto. }
    rewrite CN in H, H'. destruct (l_fix o) eqn:FX.
    - destruct NB as (u & ->). cbn [bind] in H, H'. injection H as <-. injection H' as <-.
      constructor; cbn [f_err f_g0 f_b f_W f_R]; auto.
    - assert (NE : y <> [] /\ y' <> []).
      { split; intros Q; [rewrite Q in LY; clear LY'; rename LY into LZ|rewrite Q in LY'; clear LY; rename LY' into LZ];
        cbn in LZ; unfold width, fix01 in LZ; rewrite FX in LZ; pose proof (Ns_pos st AL); lia. }
      destruct NE as [NE NE'].
      assert (L1 := last_map_num y NE). assert (L2 := last_map_num y' NE'). rewrite (EB eq_refl) in L2.
      destruct (map FNum y) as [|p q] eqn:MY; [now destruct y|]. destruct (map FNum y') as [|p' q'] eqn:MY'; [now destruct y'|].
      cbv zeta in H, H'. rewrite L1 in H. rewrite L2 in H'. cbn [bind] in H, H'. injection H as <-. injection H' as <-.
      constructor; cbn [f_err f_g0 f_b f_W f_R]; auto.
  Qed.
  End Sites.
End S.
