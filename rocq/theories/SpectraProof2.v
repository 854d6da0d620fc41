(** Lemmas on the plot of all source displacement spectra: colours and existence (C116). *)
From Coq Require Import String List Bool Reals Lra Lia Arith.
From Verif Require Import Base Pyf PyfOps StatProof DepModel DepSpec DepProof GridModel GridSpec GridProof PanelProof2 PanelProof4 PanelProof5 SpectraModel SpectraSpec SpectraProof.
Import ListNotations.
Open Scope string_scope.
Open Scope list_scope.

Section Spectra.
  Variables (freq : list R) (evs : list (string * sevent)).
  Variables (smm conf_smm : option string) (smo : option pars) (conf_smo : option (option pars)).
  Variables (only : option (list string)) (nx : option nat).
  Notation chosen := (choose_events evs only).
  Notation nf := (List.length freq).

  Lemma max_stations_spec l n : max_stations l = Ok n ->
    (exists x, In x l /\ In n x) /\ forall x k, In x l -> In k x -> (k <= n)%nat.
  Proof.
    unfold max_stations. destruct l as [|x l]; [discriminate|]. destruct (forallb _ _); [|discriminate].
    set (L := x :: l). destruct (concat L) as [|c cs] eqn:C; [discriminate|]. intros [= <-].
    change (fold_left Nat.max cs c) with (fold_left Nat.max (c :: cs) 0%nat). rewrite <- C.
    destruct (fold_max_spec (concat L) 0) as (M1 & _ & M3). split.
    - assert (I : In (fold_left Nat.max (concat L) 0%nat) (concat L)).
      { destruct M3 as [M3|M3]; [|exact M3]. assert (Y : In c (concat L)) by (rewrite C; now left). assert (Z := M1 c Y). rewrite M3 in *. replace 0%nat with c by lia. exact Y. }
      apply in_concat in I. exact I.
    - intros y k I J. apply M1. apply in_concat. eauto.
  Qed.

  Lemma scale_spec c n : (forall id e, In (id, e) chosen -> se_nst e <> None) ->
    scale_of chosen (Some c) None = Ok n -> most_stations chosen n.
  Proof.
    unfold scale_of. intros F H. destruct chosen as [|[id0 e0] l] eqn:C; [discriminate|]. rewrite <- C in *.
    destruct (se_nst e0) as [l0|] eqn:E0; [|elim (F id0 e0); [rewrite C; now left|exact E0]].
    destruct (mapM _ chosen) as [ns|] eqn:M; [|discriminate]. cbn [bind] in H. destruct (max_stations_spec ns n H) as [(x & X1 & X2) X3].
    split.
    - destruct (mapM_in _ _ _ M x X1) as ([id e] & I & Q). cbn [snd] in Q. destruct (se_nst e) as [y|] eqn:Y; [|discriminate].
      exists id, e, y. split; [exact I|]. split; [exact Y|]. congruence.
    - intros id e y k I Y K. destruct (In_nth_error _ _ I) as [j J]. destruct (mapM_at _ _ _ j _ M J) as (z & Z1 & Z2).
      cbn [snd] in Z2. rewrite Y in Z2. injection Z2 as <-. apply (X3 y k); [eapply nth_error_In; exact Z1|exact K].
  Qed.

  (** colours *)
  Lemma spectra_colours c xlabel fig : full_spectra nf chosen ->
    plot_all freq evs smm conf_smm smo conf_smo only nx (Some c) None xlabel = Ok fig ->
    exists n, most_stations chosen n /\
      forall k id e l, nth_error chosen k = Some (id, e) -> se_nst e = Some l ->
        exists p, nth_error (map fst (sf_events fig)) k = Some p /\ sd_colour p = Stations l n.
  Proof.
    intros [NE F] H. destruct (fig_stages _ _ _ _ _ _ _ _ _ _ _ fig H) as (n & lay & ps & S & L & M & E). exists n. split.
    - apply (scale_spec c n); [|exact S]. intros id e I Q. destruct (F id e I) as [_ (l & Q' & _)]. congruence.
    - intros k id e l K N. destruct (mapM_at _ _ _ k _ M K) as (p & P & O). exists p. split.
      + rewrite E. cbn [sf_events]. now rewrite (proj1 (fig_panels _ _ _ _ _ _ _ _ _ _ _ fig n lay ps H L M)).
      + unfold one_spectrum in O. cbv zeta in O. cbn [fst snd event_colour] in O. unfold point_colour in O. rewrite N in O.
        destruct (se_sds e) as [omM|]; [|discriminate]. destruct (plot_sds _ _ _ _ _ _) as [[d|]|]; cbn [bind] in O; [|now injection O as <-|discriminate].
        destruct (scatter_ok _ _); [|discriminate]. now injection O as <-.
  Qed.

  Lemma sds_total omM e d_ colored : List.length omM = nf -> or_method smm conf_smm <> Some "mean" -> or_options smo conf_smo = Some d_ ->
    exists d, plot_sds freq omM (se_pars e) (or_method smm conf_smm) (or_options smo conf_smo) colored = Ok d.
  Proof.
    intros L M O. rewrite O. unfold plot_sds. destruct (forallb fisnan omM); [eauto|]. cbv zeta.
    assert (Q : match or_method smm conf_smm with Some m' => String.eqb m' "mean" | None => false end = false).
    { destruct (or_method smm conf_smm) as [m|]; [|reflexivity]. apply String.eqb_neq. congruence. }
    rewrite Q, L, Nat.eqb_refl. eauto.
  Qed.

  (** a plot *)
  Lemma spectra_total c xlabel d_ : full_spectra nf chosen -> freq <> [] -> nx <> Some 0%nat -> nx <> Some 1%nat ->
    or_method smm conf_smm <> Some "mean" -> or_options smo conf_smo = Some d_ ->
    exists fig, plot_all freq evs smm conf_smm smo conf_smo only nx (Some c) None xlabel = Ok fig /\
      NoDup (map snd (sf_events fig) ++ match sf_colourbar fig with Some b => [fst b] | None => [] end) /\
      (sf_colourbar fig <> None <-> ~ most_stations chosen 1).
  Proof.
    intros [NE F] NF N0 N1 SM SO.
    assert (SC : exists n, scale_of chosen (Some c) None = Ok n).
    { unfold scale_of. destruct chosen as [|[id0 e0] l] eqn:C; [congruence|]. rewrite <- C in *.
      destruct (F id0 e0) as [_ (l0 & E0 & L0)]; [rewrite C; now left|]. rewrite E0.
      assert (MM : exists ns, mapM (fun e : string * sevent => match se_nst (snd e) with Some l => Ok l | None => Err KeyError end) chosen = Ok ns).
      { apply mapM_ok. intros [id e] I. destruct (F id e I) as [_ (y & Y & _)]. cbn [snd]. rewrite Y. eauto. }
      destruct MM as [ns MM]. rewrite MM. cbn [bind]. unfold max_stations.
      assert (LN : forall x, In x ns -> List.length x = nf).
      { intros x I. destruct (mapM_in _ _ _ MM x I) as ([id e] & J & Q). cbn [snd] in Q. destruct (F id e J) as [_ (y & Y & LY)].
        rewrite Y in Q. injection Q as <-. exact LY. }
      assert (LL := mapM_length _ _ _ MM). destruct ns as [|x ns]; [destruct chosen; [congruence|discriminate]|].
      replace (forallb _ (x :: ns)) with true.
      - destruct (concat (x :: ns)) eqn:Q; [|eauto]. exfalso. assert (x = []) by (destruct x; [reflexivity|discriminate]). subst x.
        specialize (LN [] (or_introl eq_refl)). destruct freq; [congruence|discriminate].
      - symmetry. apply forallb_forall. intros y I. apply Nat.eqb_eq. now rewrite (LN y I), (LN x (or_introl eq_refl)). }
    destruct SC as [n SC].
    destruct (sds_good n (List.length chosen) nx xlabel) as (lay & L & W & _); [destruct chosen; [congruence|cbn; lia]|exact N0|exact N1|].
    assert (MP : exists ps, mapM (one_spectrum freq (or_method smm conf_smm) (or_options smo conf_smo) (Some c) None n) chosen = Ok ps).
    { apply mapM_ok. intros [id e] I. destruct (F id e I) as [(omM & E & LE) (y & Y & LY)]. unfold one_spectrum. cbv zeta. cbn [fst snd event_colour].
      rewrite E. unfold point_colour. rewrite Y. destruct (sds_total omM e d_ true LE SM SO) as [d D]. rewrite D. cbn [bind].
      destruct d; [|eauto]. cbn [scatter_ok]. rewrite LY, Nat.eqb_refl. eauto. }
    destruct MP as [ps MP].
    assert (FIG : plot_all freq evs smm conf_smm smo conf_smo only nx (Some c) None xlabel = Ok {| sf_events := combine ps (g_cells lay); sf_colourbar := option_map (fun c => (c, last_points ps)) (g_bar lay) |}).
    { unfold plot_all. cbv zeta. rewrite SC. cbn [bind]. rewrite L. cbn [bind]. rewrite MP. reflexivity. }
    eexists. split; [exact FIG|]. cbn [sf_events sf_colourbar]. rewrite (proj2 (fig_panels _ _ _ _ _ _ _ _ _ _ _ _ n lay ps FIG L MP)).
    destruct W as (_ & B & ND & _). split; [destruct (g_bar lay); exact ND|].
    assert (MS : most_stations chosen n).
    { apply (scale_spec c n); [|exact SC]. intros id e I Q. destruct (F id e I) as [_ (l & Q' & _)]. congruence. }
    assert (BB : g_bar lay <> None <-> n <> 1%nat) by (rewrite B; destruct (Nat.eqb_spec n 1); cbn; split; congruence).
    assert (U : forall m, most_stations chosen m -> m = n).
    { intros m [(i1 & e1 & l1 & A1 & A2 & A3) A4]. destruct MS as [(i2 & e2 & l2 & B1 & B2 & B3) B4].
      specialize (A4 i2 e2 l2 n B1 B2 B3). specialize (B4 i1 e1 l1 m A1 A2 A3). lia. }
    split.
    - intros Q M1. apply U in M1. assert (G : g_bar lay <> None) by (intros G; apply Q; now rewrite G). apply (proj1 BB G). congruence.
    - intros M1. assert (n <> 1%nat) by (intros ->; now apply M1). apply BB in H. destruct (g_bar lay) as [x|]; [cbn; congruence|congruence].
  Qed.

  (** the method mean *)
  Lemma spectra_mean cmap colors xlabel : or_method smm conf_smm = Some "mean" ->
    (exists id e, In (id, e) chosen /\ spectrum_value e) ->
    forall fig, plot_all freq evs smm conf_smm smo conf_smo only nx cmap colors xlabel <> Ok fig.
  Proof.
    intros M (id & e & I & V) fig H. destruct (In_nth_error _ _ I) as [k K].
    destruct (spectra_shown _ _ _ _ _ _ _ _ _ _ _ fig k id e H K) as (p & omM & _ & _ & _ & D & P).
    apply D in V. destruct (sd_drawing p) as [d|]; [|congruence]. destruct (P d eq_refl) as [col Q]. rewrite M in Q.
    exact (sds_mean_fails _ _ _ _ _ _ Q).
  Qed.

  (** the colour bar *)
  Lemma spectra_bar c xlabel fig cell pts : full_spectra nf chosen ->
    plot_all freq evs smm conf_smm smo conf_smo only nx (Some c) None xlabel = Ok fig ->
    sf_colourbar fig = Some (cell, pts) ->
    forall id e l front, chosen = front ++ [(id, e)] -> se_nst e = Some l ->
    (spectrum_value e -> exists n, most_stations chosen n /\ pts = Some (Stations l n)) /\
    (~ spectrum_value e -> pts = None).
  Proof.
    intros FS H B id e l front C N. destruct (spectra_colours c xlabel fig FS H) as (n & MS & COL).
    assert (K : nth_error chosen (List.length front) = Some (id, e)) by (rewrite C, nth_error_app2 by lia; now rewrite Nat.sub_diag).
    destruct (COL _ id e l K N) as (p & P1 & P2).
    destruct (spectra_shown _ _ _ _ _ _ _ _ _ _ _ fig _ id e H K) as (p' & omM & P1' & _ & _ & D & _).
    assert (p' = p) as -> by congruence.
    destruct (fig_stages _ _ _ _ _ _ _ _ _ _ _ fig H) as (n' & lay & ps & S & L & M & E). rewrite E in B, P1. cbn [sf_events sf_colourbar] in *.
    rewrite (proj1 (fig_panels _ _ _ _ _ _ _ _ _ _ _ fig n' lay ps H L M)) in P1.
    destruct (g_bar lay) as [b|]; [|discriminate]. cbn [option_map] in B. injection B as <- <-.
    assert (LP : exists f', ps = f' ++ [p]).
    { assert (LL := mapM_length _ _ _ M). assert (NP : ps <> []) by (intros ->; rewrite C, app_length in LL; cbn in LL; lia).
      destruct (exists_last NP) as (f' & x & Q). exists f'. rewrite Q in P1, LL |- *. rewrite C, !app_length in LL. cbn in LL.
      replace (List.length front) with (List.length f') in P1 by lia. rewrite nth_error_app2, Nat.sub_diag in P1 by lia. cbn in P1. congruence. }
    destruct LP as [f' ->]. unfold last_points. rewrite rev_app_distr. cbn [rev app].
    split.
    - intros V. apply D in V. destruct (sd_drawing p); [|congruence]. exists n. split; [exact MS|]. now rewrite P2.
    - intros V. destruct (sd_drawing p) eqn:Q; [|reflexivity]. elim V. apply D. discriminate.
  Qed.
End Spectra.
