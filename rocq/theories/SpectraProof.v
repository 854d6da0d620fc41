(** Lemmas on the plot of all source displacement spectra (C116). *)
From Coq Require Import String List Bool Reals Lra Lia Arith.
From Verif Require Import Base Pyf PyfOps StatProof DepModel DepSpec DepProof GridModel GridSpec GridProof PanelProof2 PanelProof4 PanelProof5 SpectraModel SpectraSpec.
Import ListNotations.
Open Scope string_scope.
Open Scope list_scope.

Section Spectra.
  Variables (freq : list R) (evs : list (string * sevent)).
  Variables (smm conf_smm : option string) (smo : option pars) (conf_smo : option (option pars)).
  Variables (only : option (list string)) (nx : option nat) (cmap : option string) (colors : option colours) (xlabel : bool).
  Notation chosen := (choose_events evs only).
  Notation fig_of := (plot_all freq evs smm conf_smm smo conf_smo only nx cmap colors xlabel).

  Lemma chosen_spec id e : In (id, e) chosen <-> In (id, e) evs /\ selected only id.
  Proof.
    unfold choose_events, selected. destruct only as [[|o l]|]; [tauto| |tauto].
    rewrite filter_In. cbn [fst]. rewrite (inb_In _ string_eqb_spec). split.
    - intros [I J]. split; [exact I|]. right. right. exists (o :: l). split; [reflexivity|exact J].
    - intros [I [J|[J|(l' & [= <-] & J)]]]; [discriminate|discriminate|]. now split.
  Qed.

  Lemma fig_stages fig : fig_of = Ok fig -> exists n lay ps,
    scale_of chosen cmap colors = Ok n /\ GridModel.plot_all_sds n (List.length chosen) nx xlabel = Ok lay /\
    mapM (one_spectrum freq (or_method smm conf_smm) (or_options smo conf_smo) cmap colors n) chosen = Ok ps /\
    fig = {| sf_events := combine ps (g_cells lay); sf_colourbar := option_map (fun c => (c, last_points ps)) (g_bar lay) |}.
  Proof.
    unfold plot_all. cbv zeta. intros H. destruct (scale_of chosen cmap colors) as [n|] eqn:S; [|discriminate]. cbn [bind] in H.
    destruct (GridModel.plot_all_sds _ _ _ _) as [lay|] eqn:L; [|discriminate]. cbn [bind] in H.
    destruct (mapM _ chosen) as [ps|] eqn:M; [|discriminate]. cbn [bind] in H. injection H as <-. now exists n, lay, ps.
  Qed.

  Lemma layout_length n k nx' xl lay : GridModel.plot_all_sds n k nx' xl = Ok lay -> List.length (g_cells lay) = k.
  Proof.
    unfold GridModel.plot_all_sds. destruct (Nat.eqb k 0); [discriminate|]. cbv zeta.
    destruct (get_grid _ nx') as [[[a b] c]|]; [|discriminate]. cbn [bind].
    destruct (panels c a k) as [cs|] eqn:P; [|discriminate]. cbn [bind].
    intros H. match type of H with (do bar <- ?x; _) = _ => destruct x as [bar|]; [|discriminate] end. cbn [bind] in H. injection H as <-.
    cbn [g_cells]. unfold panels in P. apply mapM_length in P. now rewrite seq_length in P.
  Qed.

  Lemma fig_panels fig n lay ps : fig_of = Ok fig ->
    GridModel.plot_all_sds n (List.length chosen) nx xlabel = Ok lay ->
    mapM (one_spectrum freq (or_method smm conf_smm) (or_options smo conf_smo) cmap colors n) chosen = Ok ps ->
    map fst (combine ps (g_cells lay)) = ps /\ map snd (combine ps (g_cells lay)) = g_cells lay.
  Proof.
    intros _ L M. apply combine_fst. apply mapM_length in M. rewrite M. symmetry. now apply (layout_length n _ nx xlabel).
  Qed.

  Lemma one_id n e p : one_spectrum freq (or_method smm conf_smm) (or_options smo conf_smo) cmap colors n e = Ok p -> sd_id p = fst e.
  Proof.
    unfold one_spectrum. cbv zeta. destruct (se_sds (snd e)) as [omM|]; [|discriminate].
    destruct (plot_sds _ _ _ _ _ _) as [[d|]|]; cbn [bind]; [|now intros [= <-]|discriminate].
    destruct (scatter_ok _ _); [|discriminate]. now intros [= <-].
  Qed.

  Lemma spectra_events fig : fig_of = Ok fig -> map (fun p => sd_id (fst p)) (sf_events fig) = map fst chosen.
  Proof.
    intros H. destruct (fig_stages fig H) as (n & lay & ps & S & L & M & ->). cbn [sf_events].
    rewrite <- (map_map fst sd_id), (proj1 (fig_panels _ n lay ps H L M)).
    exact (mapM_fst _ _ _ _ _ (fun a b _ E => one_id n a b E) M).
  Qed.

  (** the panel of an event *)
  Lemma spectra_shown fig k id e : fig_of = Ok fig -> nth_error chosen k = Some (id, e) ->
    exists p omM, nth_error (map fst (sf_events fig)) k = Some p /\ sd_id p = id /\ se_sds e = Some omM /\
      (sd_drawing p <> None <-> spectrum_value e) /\
      forall d, sd_drawing p = Some d -> exists colored,
        plot_sds freq omM (se_pars e) (or_method smm conf_smm) (or_options smo conf_smo) colored = Ok (Some d).
  Proof.
    intros H K. destruct (fig_stages fig H) as (n & lay & ps & S & L & M & ->). cbn [sf_events].
    rewrite (proj1 (fig_panels _ n lay ps H L M)). destruct (mapM_at _ _ _ k _ M K) as (p & N & O).
    assert (ID := one_id n _ _ O). unfold one_spectrum in O. cbv zeta in O. cbn [fst snd] in *.
    destruct (se_sds e) as [omM|] eqn:E; [|discriminate]. exists p, omM. split; [exact N|]. split; [exact ID|]. split; [reflexivity|].
    assert (SV : spectrum_value e <-> forallb fisnan omM = false).
    { unfold spectrum_value. rewrite E. split.
      - intros (l & x & Q & I & NX). injection Q as <-. destruct (forallb fisnan omM) eqn:F; [|reflexivity].
        rewrite forallb_forall in F. specialize (F x I). destruct x; try discriminate. congruence.
      - intros F. exists omM. clear - F. induction omM as [|y l IH]; [discriminate|]. cbn [forallb] in F. apply andb_false_iff in F. destruct F as [F|F].
        + exists y. split; [reflexivity|]. split; [now left|]. intros ->. discriminate.
        + destruct (IH F) as (x & _ & I & NX). exists x. split; [reflexivity|]. split; [now right|exact NX]. }
    unfold plot_sds in O at 1. destruct (forallb fisnan omM) eqn:F.
    - cbn [bind] in O. injection O as <-. cbn [sd_drawing]. split; [|discriminate]. rewrite SV. split; [congruence|discriminate].
    - match type of O with bind (match ?o with _ => _ end) _ = _ => idtac end.
      assert (O' : exists d colored, plot_sds freq omM (se_pars e) (or_method smm conf_smm) (or_options smo conf_smo) colored = Ok (Some d) /\ sd_drawing p = Some d).
      { set (col := match point_colour e cmap (event_colour colors id) n with Stations _ _ => true | _ => false end) in *.
        assert (PS : plot_sds freq omM (se_pars e) (or_method smm conf_smm) (or_options smo conf_smo) col <> Ok None).
        { unfold plot_sds. rewrite F. destruct (or_options smo conf_smo) as [q|]; [|discriminate]. cbv zeta.
          repeat match goal with |- context [if ?b then _ else _] => destruct b end; try discriminate.
          all: destruct (p_fc (merge_pars q (se_pars e))); discriminate. }
        destruct (plot_sds freq omM (se_pars e) (or_method smm conf_smm) (or_options smo conf_smo) col) as [[d|]|x] eqn:PD.
        - exists d, col. split; [exact PD|]. unfold plot_sds in PD. rewrite F in PD. rewrite PD in O. cbn [bind] in O.
          destruct (scatter_ok _ _); [|discriminate]. now injection O as <-.
        - congruence.
        - unfold plot_sds in PD. rewrite F in PD. rewrite PD in O. discriminate. }
      destruct O' as (d & col & P1 & P2). rewrite P2. split; [rewrite SV; split; [reflexivity|discriminate]|].
      intros d' [= <-]. now exists col.
  Qed.
End Spectra.
