(** Lemmas on the plot of all source displacement spectra: options and given colours (C116). *)
From Coq Require Import String List Bool Reals Lra Lia Arith.
From Verif Require Import Base Pyf PyfOps StatProof DepModel DepSpec DepProof GridModel GridSpec GridProof PanelProof2 PanelProof4 PanelProof5 SpectraModel SpectraSpec SpectraProof SpectraProof2.
Import ListNotations.
Open Scope string_scope.
Open Scope list_scope.

Lemma method_used_or a b : method_used a b (or_method a b).
Proof. split; [destruct a; [reflexivity|congruence]|now intros ->]. Qed.

Lemma options_used_or a b : options_used a b (or_options a b).
Proof.
  split; [now intros p ->|]. split; [now intros -> c ->|]. intros -> ->. eexists. split; [reflexivity|]. now repeat split.
Qed.

Lemma bar_none k nx xl lay : GridModel.plot_all_sds 1 k nx xl = Ok lay -> g_bar lay = None.
Proof.
  unfold GridModel.plot_all_sds. destruct (Nat.eqb k 0); [discriminate|]. cbv zeta.
  destruct (get_grid _ nx) as [[[a b] c]|]; [|discriminate]. cbn [bind].
  destruct (panels c a k) as [cs|]; [|discriminate]. cbn [bind Nat.eqb]. now intros [= <-].
Qed.

Section Spectra.
  Variables (freq : list R) (evs : list (string * sevent)).
  Variables (smm conf_smm : option string) (smo : option pars) (conf_smo : option (option pars)).
  Variables (only : option (list string)) (nx : option nat) (cmap : option string) (xlabel : bool).
  Notation chosen := (choose_events evs only).
  Notation nf := (List.length freq).

  (** the panel of an event, with the options in use *)
  Lemma spectra_shown_used colors fig k id e : plot_all freq evs smm conf_smm smo conf_smo only nx cmap colors xlabel = Ok fig ->
    nth_error chosen k = Some (id, e) ->
    exists p omM m o, nth_error (map fst (sf_events fig)) k = Some p /\ sd_id p = id /\ se_sds e = Some omM /\
      method_used smm conf_smm m /\ options_used smo conf_smo o /\
      (sd_drawing p <> None <-> spectrum_value e) /\
      forall d, sd_drawing p = Some d -> exists colored, plot_sds freq omM (se_pars e) m o colored = Ok (Some d).
  Proof.
    intros H K. destruct (spectra_shown _ _ _ _ _ _ _ _ _ _ _ fig k id e H K) as (p & omM & A & B & C & D & E).
    exists p, omM, (or_method smm conf_smm), (or_options smo conf_smo).
    repeat (split; [first [exact A|exact B|exact C|exact D|apply method_used_or|apply options_used_or]|]). exact E.
  Qed.

  Lemma scale_one colors n : (colors <> None \/ cmap = None \/ forall id e, In (id, e) chosen -> se_nst e = None) ->
    scale_of chosen cmap colors = Ok n -> n = 1%nat.
  Proof.
    unfold scale_of. destruct chosen as [|[i f] l]; [discriminate|]. intros C.
    destruct (se_nst f) as [y|] eqn:Y, cmap as [m|], colors as [cc|]; try congruence.
    destruct C as [C|[C|C]]; [congruence|congruence|]. rewrite (C i f (or_introl eq_refl)) in Y. discriminate.
  Qed.

  Lemma one_colour colors n e p : one_spectrum freq (or_method smm conf_smm) (or_options smo conf_smo) cmap colors n e = Ok p ->
    let c := point_colour (snd e) cmap (event_colour colors (fst e)) n in
    sd_colour p = c /\ (sd_drawing p <> None -> scatter_ok freq c = true).
  Proof.
    unfold one_spectrum. cbv zeta. destruct (se_sds (snd e)) as [omM|]; [|discriminate].
    destruct (plot_sds _ _ _ _ _ _) as [[d|]|]; cbn [bind]; [|intros [= <-]; split; [reflexivity|now intros []]|discriminate].
    destruct (scatter_ok _ _) eqn:S; [|discriminate]. intros [= <-]. now split.
  Qed.

  Lemma given_entry c id x : one_entry c -> colour_given c id x -> event_colour (Some c) id = Some (Given_colour x).
  Proof.
    unfold one_entry, colour_given, event_colour. destruct c as [y|d]; [now intros _ ->|]. intros N I.
    now rewrite (dget_nodup String.eqb string_eqb_spec d id x N I).
  Qed.

  (** given colours *)
  Lemma spectra_given c fig : one_entry c -> plot_all freq evs smm conf_smm smo conf_smo only nx cmap (Some c) xlabel = Ok fig ->
    sf_colourbar fig = None /\
    forall k id e, nth_error chosen k = Some (id, e) -> exists p, nth_error (map fst (sf_events fig)) k = Some p /\
      (forall x, colour_given c id x -> sd_colour p = Given_colour x) /\ (spectrum_value e -> exists x, colour_given c id x).
  Proof.
    intros OE H. destruct (fig_stages _ _ _ _ _ _ _ _ _ _ _ fig H) as (n & lay & ps & S & L & M & E). split.
    - assert (n = 1%nat) as -> by (eapply scale_one; [|exact S]; left; discriminate). rewrite E. cbn [sf_colourbar]. now rewrite (bar_none _ _ _ _ L).
    - intros k id e K. destruct (spectra_shown _ _ _ _ _ _ _ _ _ _ _ fig k id e H K) as (p & omM & A & _ & _ & D & _).
      exists p. split; [exact A|]. rewrite E in A. cbn [sf_events] in A. rewrite (proj1 (fig_panels _ _ _ _ _ _ _ _ _ _ _ fig n lay ps H L M)) in A.
      destruct (mapM_at _ _ _ k _ M K) as (p' & P & O). assert (p' = p) as -> by congruence.
      destruct (one_colour _ _ _ _ O) as [C1 C2]. cbn [fst snd] in *. split.
      + intros x X. rewrite C1, (given_entry c id x OE X). unfold point_colour. reflexivity.
      + intros V. apply D in V. specialize (C2 V). destruct c as [y|d]; [now exists y|]. unfold event_colour in C2.
        destruct (dget String.eqb d id) as [x|] eqn:G.
        * exists x. exact (dget_In _ string_eqb_spec _ _ _ G).
        * unfold point_colour in C2. discriminate.
  Qed.

  (** no colours at all *)
  Lemma spectra_black fig : cmap = None \/ (forall id e, In (id, e) chosen -> se_nst e = None) ->
    plot_all freq evs smm conf_smm smo conf_smo only nx cmap None xlabel = Ok fig ->
    sf_colourbar fig = None /\ forall p cell, In (p, cell) (sf_events fig) -> sd_colour p = Black.
  Proof.
    intros B H. destruct (fig_stages _ _ _ _ _ _ _ _ _ _ _ fig H) as (n & lay & ps & S & L & M & E). split.
    - assert (n = 1%nat) as -> by (eapply scale_one; [|exact S]; now right). rewrite E. cbn [sf_colourbar]. now rewrite (bar_none _ _ _ _ L).
    - intros p cell I. rewrite E in I. cbn [sf_events] in I. apply in_combine_l in I.
      destruct (mapM_in _ _ _ M p I) as ([id e] & J & O). destruct (one_colour _ _ _ _ O) as [C1 _]. rewrite C1. cbn [fst snd event_colour].
      unfold point_colour. destruct B as [->|B]; [now destruct (se_nst e)|now rewrite (B id e J)].
  Qed.

  (** a plot with given colours or without colours *)
  Lemma spectra_total_given colors d_ : chosen <> [] ->
    (forall id e, In (id, e) chosen -> exists l, se_sds e = Some l /\ List.length l = nf) ->
    nx <> Some 0%nat -> nx <> Some 1%nat -> or_method smm conf_smm <> Some "mean" -> or_options smo conf_smo = Some d_ ->
    match colors with
    | None => cmap = None \/ forall id e, In (id, e) chosen -> se_nst e = None
    | Some c => one_entry c /\ forall id e, In (id, e) chosen -> spectrum_value e -> exists x, colour_given c id x
    end ->
    exists fig, plot_all freq evs smm conf_smm smo conf_smo only nx cmap colors xlabel = Ok fig.
  Proof.
    intros NE F N0 N1 SM SO CO.
    assert (SC : scale_of chosen cmap colors = Ok 1%nat).
    { unfold scale_of. destruct chosen as [|[i f] l]; [congruence|].
      destruct (se_nst f) as [y|] eqn:Y, cmap as [m|], colors as [cc|]; try reflexivity.
      destruct CO as [CO|CO]; [discriminate|]. rewrite (CO i f (or_introl eq_refl)) in Y. discriminate. }
    destruct (sds_good 1 (List.length chosen) nx xlabel) as (lay & L & _); [destruct chosen; [congruence|cbn; lia]|exact N0|exact N1|].
    assert (MP : exists ps, mapM (one_spectrum freq (or_method smm conf_smm) (or_options smo conf_smo) cmap colors 1) chosen = Ok ps).
    { apply mapM_ok. intros [id e] I. destruct (F id e I) as (omM & E & LE). unfold one_spectrum. cbv zeta. cbn [fst snd]. rewrite E.
      set (c := point_colour e cmap (event_colour colors id) 1).
      set (col := match c with Stations _ _ => true | _ => false end).
      destruct (sds_total freq smm conf_smm smo conf_smo omM e d_ col LE SM SO) as [d D]. rewrite D. cbn [bind].
      destruct d as [d|]; [|eauto].
      assert (V : spectrum_value e).
      { exists omM. unfold plot_sds in D. destruct (forallb fisnan omM) eqn:Q; [discriminate|]. clear - E Q. revert Q. revert E. generalize (se_sds e).
        intros s ->. induction omM as [|y l IH]; [discriminate|]. cbn [forallb]. intros Q. apply andb_false_iff in Q. destruct Q as [Q|Q].
        - exists y. split; [reflexivity|]. split; [now left|]. intros ->. discriminate.
        - destruct (IH Q) as (x & _ & J & NX). exists x. split; [reflexivity|]. split; [now right|exact NX]. }
      replace (scatter_ok freq c) with true; [eauto|]. unfold c. destruct colors as [cc|].
      - destruct CO as [OE CO]. destruct (CO id e I V) as [x X]. rewrite (given_entry cc id x OE X). reflexivity.
      - unfold event_colour, point_colour. destruct CO as [->|CO]; [now destruct (se_nst e)|now rewrite (CO id e I)]. }
    destruct MP as [ps MP]. eexists. unfold plot_all. cbv zeta. rewrite SC. cbn [bind]. rewrite L. cbn [bind]. rewrite MP. reflexivity.
  Qed.
End Spectra.

Lemma used_options smo conf_smo : (forall o, options_used smo conf_smo o -> o <> None) -> exists p, or_options smo conf_smo = Some p.
Proof. intros H. specialize (H _ (options_used_or smo conf_smo)). destruct (or_options smo conf_smo) as [p|]; [now exists p|congruence]. Qed.

Lemma spectra_total_used : forall freq evs smm conf_smm smo conf_smo only nx c xlabel,
  full_spectra (List.length freq) (choose_events evs only) -> freq <> [] -> nx <> Some 0%nat -> nx <> Some 1%nat ->
  (forall m, method_used smm conf_smm m -> m <> Some "mean") -> (forall o, options_used smo conf_smo o -> o <> None) ->
  exists fig, plot_all freq evs smm conf_smm smo conf_smo only nx (Some c) None xlabel = Ok fig /\
    NoDup (map snd (sf_events fig) ++ match sf_colourbar fig with Some b => [fst b] | None => [] end) /\
    (sf_colourbar fig <> None <-> ~ most_stations (choose_events evs only) 1).
Proof.
  intros * F N N0 N1 M O. destruct (used_options _ _ O) as [p P].
  apply (spectra_total _ _ _ _ _ _ _ _ _ _ p F N N0 N1); [|exact P]. apply M, method_used_or.
Qed.

Lemma spectra_total_given_used : forall freq evs smm conf_smm smo conf_smo only nx cmap xlabel colors,
  choose_events evs only <> [] ->
  (forall id e, In (id, e) (choose_events evs only) -> exists l, se_sds e = Some l /\ List.length l = List.length freq) ->
  nx <> Some 0%nat -> nx <> Some 1%nat ->
  (forall m, method_used smm conf_smm m -> m <> Some "mean") -> (forall o, options_used smo conf_smo o -> o <> None) ->
  match colors with
  | None => cmap = None \/ forall id e, In (id, e) (choose_events evs only) -> se_nst e = None
  | Some c => one_entry c /\ forall id e, In (id, e) (choose_events evs only) -> spectrum_value e -> exists x, colour_given c id x
  end ->
  exists fig, plot_all freq evs smm conf_smm smo conf_smo only nx cmap colors xlabel = Ok fig.
Proof.
  intros * NE F N0 N1 M O C. destruct (used_options _ _ O) as [p P].
  apply (spectra_total_given _ _ _ _ _ _ _ _ _ _ _ p NE F N0 N1); [|exact P|exact C]. apply M, method_used_or.
Qed.

Lemma spectra_mean_used : forall freq evs smm conf_smm smo conf_smo only nx cmap colors xlabel,
  method_used smm conf_smm (Some "mean") -> (exists id e, In (id, e) (choose_events evs only) /\ spectrum_value e) ->
  forall fig, plot_all freq evs smm conf_smm smo conf_smo only nx cmap colors xlabel <> Ok fig.
Proof.
  intros * M. apply spectra_mean. destruct (method_used_or smm conf_smm) as [A B], M as [A' B']. destruct smm as [m|].
  - rewrite A' by discriminate. reflexivity.
  - rewrite B' by reflexivity. reflexivity.
Qed.
