(** Lemmas on the contents of the plot of site responses (C115). *)
From Coq Require Import String List Bool Reals Lra Lia Arith Permutation Sorted.
From Verif Require Import Base Pyf PyfOps PySort StatModel StatSpec StatProof CollectModel CollectSpec CollectProof CollectProof2
  WrapModel WrapSpec WrapProof WrapProof2 WrapProof3 WrapProof4 SiteProof9 DepSpec DepProof GridModel GridSpec GridProof PanelModel PanelSpec PanelProof PanelProof4.
Import ListNotations.
Open Scope string_scope.
Open Scope list_scope.

Lemma combine_fst {A B} : forall (l : list A) (m : list B), List.length l = List.length m -> map fst (combine l m) = l /\ map snd (combine l m) = m.
Proof.
  induction l as [|x l IH]; intros [|y m] E; try discriminate E; [now split|]. injection E as E. destruct (IH m E) as [H1 H2]. cbn. now rewrite H1, H2.
Qed.

Section Sites.
  Variable rlm : list R -> R * R.
  Variable events : list (string * option evdict).
  Variable freq : list R.
  Notation evs := (with_result events).
  Notation nf := (List.length freq).
  Hypothesis FULL : full_sites nf evs.

  Record run (mean : option string) (nx : option nat) (cmap : option string) (se : bool) (fig : site_figure) := {
    rn_R : list row; rn_n : nat; rn_ws : option (list (list pyf)); rn_col : list (string * cval);
    rn_ps : list site_panel; rn_lay : layout;
    rn_tables : tables evs rn_R;
    rn_collect : collect_results events (Some keys2) None = Ok rn_col;
    rn_max : max_of (flat_map (fun sr : row => count_numbers (snd sr)) rn_R) = Ok rn_n;
    rn_weights : weights_of mean rn_col = Ok rn_ws;
    rn_panels : mapM (one_site rlm freq rn_ws (robust_of mean) rn_n) (filter finite_row (by_name rn_R)) = Ok rn_ps;
    rn_layout : GridModel.plot_sites rn_n (map finite_row (by_name rn_R)) nx = Ok rn_lay;
    rn_nx : nx <> Some 0%nat; rn_cmap : cmap <> None;
    rn_fig : fig = {| sf_panels := combine rn_ps (g_cells rn_lay); sf_bar := g_bar rn_lay;
      sf_excluded := if se then map fst (filter (fun sr : row => all_nan (snd sr)) (by_name rn_R)) else [] |} }.

  Lemma run_of mean nx cmap se fig : PanelModel.plot_sites rlm events freq mean nx cmap se = Ok fig ->
    inhabited (run mean nx cmap se fig).
  Proof.
    unfold PanelModel.plot_sites. intros H. destruct (collect_results events (Some keys2) None) as [col|] eqn:C; [|discriminate]. cbn [bind] in H.
    destruct (tables_ok nf events col FULL C) as (d & R & D & M & T). rewrite D in H. rewrite M in H. cbn [bind] in H.
    destruct (max_of _) as [n|] eqn:MX; [|discriminate]. cbn [bind] in H.
    destruct (weights_of mean col) as [ws|] eqn:W; [|discriminate]. cbn [bind] in H. cbv zeta in H.
    destruct (get_grid _ nx) as [g|] eqn:G; [|discriminate]. cbn [bind] in H.
    destruct cmap as [c|]; [|discriminate]. cbn [get_cmap bind] in H.
    destruct (mapM _ _) as [ps|] eqn:P; [|discriminate]. cbn [bind] in H.
    destruct (GridModel.plot_sites _ _ _) as [lay|] eqn:L; [|discriminate]. cbn [bind] in H.
    constructor. refine (Build_run mean nx (Some c) se fig R n ws col ps lay T C MX W P L (grid_columns _ _ _ G) ltac:(discriminate) _). injection H as <-. reflexivity.
  Qed.

  Lemma one_site_spec ws robust n sr p : one_site rlm freq ws robust n sr = Ok p ->
    sp_station p = fst sr /\ sp_dots p = flat_map (combine freq) (snd sr) /\ map fst (sp_means p) = freq /\
    mean_list rlm (snd sr) ws robust = Ok (map (fun q => mp_mean (snd q)) (sp_means p)) /\
    table_gerr rlm (snd sr) ws robust = Ok (map snd (sp_means p)) /\
    sp_colors p = if Nat.eqb n 1 then None else Some (count_numbers (snd sr)).
  Proof.
    unfold one_site. intros H. destruct (table_gerr rlm (snd sr) ws robust) as [m|] eqn:T; [|discriminate]. cbn [bind] in H.
    unfold all_dots in H. destruct (forallb _ (snd sr)); [|discriminate]. cbn [bind] in H.
    unfold all_means in H. destruct (Nat.eqb_spec (List.length freq) (List.length m)) as [E|]; [|discriminate]. cbn [bind] in H.
    injection H as <-. cbn [sp_station sp_dots sp_means sp_colors].
    destruct (combine_fst freq m E) as [F1 F2].
    repeat split; [exact F1| |now rewrite F2].
    apply table_gerr_means in T. rewrite T. f_equal. rewrite <- F2 at 1. now rewrite map_map.
  Qed.

  Lemma mapM_fst {A B C} (f : A -> res B) (g : A -> C) (h : B -> C) l r : (forall a b, In a l -> f a = Ok b -> h b = g a) ->
    mapM f l = Ok r -> map h r = map g l.
  Proof.
    revert r. induction l as [|a l IH]; intros r H E; cbn [mapM] in E; [now injection E as <-|].
    destruct (f a) as [b|] eqn:FA; [|discriminate]. cbn [bind] in E. destruct (mapM f l) as [r'|]; [|discriminate]. cbn [bind] in E.
    injection E as <-. cbn [map]. f_equal; [apply (H a b (or_introl eq_refl) FA)|]. apply IH; [intros x y I; apply H; now right|reflexivity].
  Qed.

  Lemma mapM_in {A B} (f : A -> res B) l r : mapM f l = Ok r -> forall b, In b r -> exists a, In a l /\ f a = Ok b.
  Proof.
    revert r. induction l as [|a l IH]; intros r E b I; cbn [mapM] in E; [injection E as <-; destruct I|].
    destruct (f a) as [c|] eqn:FA; [|discriminate]. cbn [bind] in E. destruct (mapM f l) as [r'|]; [|discriminate]. cbn [bind] in E.
    injection E as <-. destruct I as [<-|I]; [exists a; split; [now left|exact FA]|].
    destruct (IH r' eq_refl b I) as (x & X & Y). exists x. split; [now right|exact Y].
  Qed.

  Section Run.
    Variables (mean : option string) (nx : option nat) (cmap : option string) (se : bool) (fig : site_figure).
    Variable r : run mean nx cmap se fig.

    Lemma run_names : map sp_station (rn_ps _ _ _ _ _ r) = map fst (filter finite_row (by_name (rn_R _ _ _ _ _ r))).
    Proof. apply (mapM_fst _ _ _ _ _ (fun a b _ E => proj1 (one_site_spec _ _ _ _ _ E)) (rn_panels _ _ _ _ _ r)). Qed.

    Lemma run_most : most_observations nf evs (rn_n _ _ _ _ _ r).
    Proof. exact (max_nobs_spec nf evs _ _ FULL (rn_tables _ _ _ _ _ r) (rn_max _ _ _ _ _ r)). Qed.

    Lemma run_in sta : In sta (map fst (filter finite_row (by_name (rn_R _ _ _ _ _ r)))) <-> has_value sta evs.
    Proof.
      destruct (tables_by_name _ _ (rn_tables _ _ _ _ _ r)) as (_ & T1 & T2). split.
      - intros I. apply in_map_iff in I. destruct I as ([s t] & <- & I). apply filter_In in I. destruct I as [I N]. cbn [fst].
        destruct (T1 s t I) as [-> _]. unfold finite_row in N. cbn [snd] in N. apply negb_true_iff in N. now apply all_nan_value in N.
      - intros (l & x & I & J & N). assert (NE : site_lists sta evs <> []) by (intros Q; rewrite Q in I; destruct I).
        apply in_map_iff. exists (sta, site_lists sta evs). split; [reflexivity|]. apply filter_In. split; [now apply T2|].
        unfold finite_row. cbn [snd]. apply negb_true_iff, all_nan_value. eauto.
    Qed.

    Lemma run_some : exists sta, has_value sta evs.
    Proof.
      assert (L := rn_layout _ _ _ _ _ r). unfold GridModel.plot_sites in L. rewrite filter_map_len in L.
      destruct (get_grid _ nx) as [[[a b] c]|]; [|discriminate]. cbn [bind] in L. destruct (panels _ _ _); [|discriminate]. cbn [bind] in L.
      destruct (filter finite_row _) as [|[s t] l] eqn:F; [discriminate|]. exists s. apply run_in. rewrite F. now left.
    Qed.

    Lemma run_placed : well_placed (List.length (rn_ps _ _ _ _ _ r)) (Nat.ltb 1 (rn_n _ _ _ _ _ r)) (rn_lay _ _ _ _ _ r) /\
      reading_order (rn_lay _ _ _ _ _ r).
    Proof.
      destruct run_some as [sta HV]. assert (M := most_positive nf evs _ sta FULL run_most HV).
      destruct (sites_good (rn_n _ _ _ _ _ r) (map finite_row (by_name (rn_R _ _ _ _ _ r))) nx M) as (l & E & W & O).
      - apply run_in in HV. apply in_map_iff in HV. destruct HV as (x & _ & HV). apply filter_In in HV. apply in_map_iff. exists x. tauto.
      - apply r.
      - assert (l = rn_lay _ _ _ _ _ r) as <- by (pose proof (rn_layout _ _ _ _ _ r); congruence).
        rewrite count_true, filter_map_len in W.
        replace (List.length (rn_ps _ _ _ _ _ r)) with (List.length (filter finite_row (by_name (rn_R _ _ _ _ _ r)))); [now split|].
        pose proof run_names as Q. apply (f_equal (@List.length string)) in Q. now rewrite !map_length in Q.
    Qed.

    Lemma run_split : map fst (sf_panels fig) = rn_ps _ _ _ _ _ r /\ map snd (sf_panels fig) = g_cells (rn_lay _ _ _ _ _ r) /\
      sf_bar fig = g_bar (rn_lay _ _ _ _ _ r).
    Proof.
      destruct run_placed as [(L & _) _]. destruct (combine_fst (rn_ps _ _ _ _ _ r) (g_cells (rn_lay _ _ _ _ _ r)) (eq_sym L)) as [H1 H2].
      pose proof (rn_fig _ _ _ _ _ r) as F. pose proof (f_equal sf_panels F) as F1. pose proof (f_equal sf_bar F) as F2. cbn [sf_panels sf_bar] in F1, F2.
      rewrite F1, F2, H1, H2. repeat split.
    Qed.
  End Run.

  (** the panels *)
  Lemma sites_names mean nx cmap se fig : PanelModel.plot_sites rlm events freq mean nx cmap se = Ok fig ->
    let names := map (fun p => sp_station (fst p)) (sf_panels fig) in
    (forall sta, In sta names <-> has_value sta evs) /\ NoDup names /\ StronglySorted (fun a b => String.leb a b = true) names.
  Proof.
    intros H. destruct (run_of _ _ _ _ _ H) as [r]. cbv zeta.
    rewrite <- (map_map fst sp_station), (proj1 (run_split _ _ _ _ _ r)), run_names. split; [intros sta; apply run_in|].
    destruct (tables_by_name _ _ (rn_tables _ _ _ _ _ r)) as (N & _). split; [now apply nodup_filter_fst|].
    apply sorted_map_fst, sorted_filter, by_name_sorted.
  Qed.

  Lemma sites_shown mean nx cmap se fig : PanelModel.plot_sites rlm events freq mean nx cmap se = Ok fig ->
    forall p, In p (map fst (sf_panels fig)) ->
      sp_dots p = flat_map (combine freq) (site_lists (sp_station p) evs) /\ map fst (sp_means p) = freq /\
      averaged rlm mean (lists_of "error" evs) (site_lists (sp_station p) evs) (map (fun q => mp_mean (snd q)) (sp_means p)).
  Proof.
    intros H p I. destruct (run_of _ _ _ _ _ H) as [r]. rewrite (proj1 (run_split _ _ _ _ _ r)) in I.
    destruct (mapM_in _ _ _ (rn_panels _ _ _ _ _ r) p I) as ([s t] & J & O). apply filter_In in J. destruct J as [J _].
    destruct (tables_by_name _ _ (rn_tables _ _ _ _ _ r)) as (_ & T1 & _). destruct (T1 s t J) as [-> NE].
    destruct (one_site_spec _ _ _ _ _ O) as (E1 & E2 & E3 & E4 & _). cbn [fst snd] in *. rewrite E1. split; [exact E2|]. split; [exact E3|].
    apply (mean_list_averaged rlm mean (rn_col _ _ _ _ _ r) (rn_ws _ _ _ _ _ r)); [apply r| |apply (site_table nf evs s FULL NE)|exact E4].
    intros e Q. rewrite (errors_table nf events _ FULL (rn_collect _ _ _ _ _ r)) in Q. congruence.
  Qed.

  Lemma most_unique n m : most_observations nf evs n -> most_observations nf evs m -> n = m.
  Proof. intros [(s & j & J & <-) H2] [(s' & j' & J' & <-) H4]. specialize (H2 s' j' J'). specialize (H4 s j J). lia. Qed.

  Lemma sites_colors mean nx cmap se fig : PanelModel.plot_sites rlm events freq mean nx cmap se = Ok fig ->
    exists n, most_observations nf evs n /\ (1 <= n)%nat /\
      (n = 1%nat -> sf_bar fig = None /\ forall p, In p (map fst (sf_panels fig)) -> sp_colors p = None) /\
      ((1 < n)%nat -> sf_bar fig <> None /\ forall p, In p (map fst (sf_panels fig)) ->
         exists l, sp_colors p = Some l /\ List.length l = nf /\
           forall j, (j < nf)%nat -> nth_error l j = Some (count (at_freq j (site_lists (sp_station p) evs)))).
  Proof.
    intros H. destruct (run_of _ _ _ _ _ H) as [r]. exists (rn_n _ _ _ _ _ r). split; [apply run_most|].
    destruct (run_some _ _ _ _ _ r) as [sta HV]. assert (M := most_positive nf evs _ sta FULL (run_most _ _ _ _ _ r) HV). split; [exact M|].
    destruct (run_split _ _ _ _ _ r) as (S1 & _ & S3). destruct (run_placed _ _ _ _ _ r) as [(_ & B & _) _]. rewrite S3.
    assert (P : forall p, In p (map fst (sf_panels fig)) -> sp_colors p = if Nat.eqb (rn_n _ _ _ _ _ r) 1 then None
              else Some (map (fun j => count (at_freq j (site_lists (sp_station p) evs))) (seq 0 nf))).
    { intros p I. rewrite S1 in I. destruct (mapM_in _ _ _ (rn_panels _ _ _ _ _ r) p I) as ([s t] & J & O). apply filter_In in J. destruct J as [J _].
      destruct (tables_by_name _ _ (rn_tables _ _ _ _ _ r)) as (_ & T1 & _). destruct (T1 s t J) as [-> NE].
      destruct (one_site_spec _ _ _ _ _ O) as (E1 & _ & _ & _ & _ & E6). cbn [fst snd] in *. rewrite E1, E6.
      destruct (Nat.eqb _ 1); [reflexivity|]. f_equal. now apply count_numbers_spec. }
    split.
    - intros Q. rewrite Q in B. cbn in B. split; [destruct (g_bar _); [|reflexivity]; destruct B as [B _]; discriminate B; discriminate|].
      intros p I. rewrite (P p I), Q. reflexivity.
    - intros Q. split; [apply B; now apply Nat.ltb_lt|]. intros p I. rewrite (P p I). destruct (Nat.eqb_spec (rn_n _ _ _ _ _ r) 1); [lia|].
      eexists. split; [reflexivity|]. split; [now rewrite map_length, seq_length|]. intros j J.
      erewrite map_nth_error; [reflexivity|]. now rewrite nth_error_seq.
  Qed.

  Lemma sites_cells mean nx cmap se fig : PanelModel.plot_sites rlm events freq mean nx cmap se = Ok fig ->
    NoDup (map snd (sf_panels fig) ++ match sf_bar fig with Some c => [c] | None => [] end) /\
    forall i j a b, nth_error (map snd (sf_panels fig)) i = Some a -> nth_error (map snd (sf_panels fig)) j = Some b -> (i < j)%nat ->
      (fst a < fst b \/ fst a = fst b /\ snd a < snd b)%nat.
  Proof.
    intros H. destruct (run_of _ _ _ _ _ H) as [r]. destruct (run_split _ _ _ _ _ r) as (_ & -> & ->).
    destruct (run_placed _ _ _ _ _ r) as [(_ & _ & N & _) O]. split; [exact N|exact O].
  Qed.

  Lemma sites_excluded mean nx cmap fig : PanelModel.plot_sites rlm events freq mean nx cmap true = Ok fig ->
    (forall sta, In sta (sf_excluded fig) <-> site_lists sta evs <> [] /\ ~ has_value sta evs) /\
    NoDup (sf_excluded fig) /\ StronglySorted (fun a b => String.leb a b = true) (sf_excluded fig).
  Proof.
    intros H. destruct (run_of _ _ _ _ _ H) as [r].
    destruct (tables_by_name _ _ (rn_tables _ _ _ _ _ r)) as (N & T1 & T2). pose proof (f_equal sf_excluded (rn_fig _ _ _ _ _ r)) as F. cbn [sf_excluded] in F. rewrite F.
    split; [|split].
    - intros sta. split.
      + intros I. apply in_map_iff in I. destruct I as ([s t] & <- & I). apply filter_In in I. destruct I as [I Q]. cbn [fst snd] in *.
        destruct (T1 s t I) as [-> NE]. split; [exact NE|]. intros HV. apply all_nan_value in HV. congruence.
      + intros [NE NV]. apply in_map_iff. exists (sta, site_lists sta evs). split; [reflexivity|]. apply filter_In. split; [now apply T2|].
        cbn [snd]. destruct (all_nan (site_lists sta evs)) eqn:Q; [reflexivity|]. elim NV. now apply all_nan_value.
    - now apply nodup_filter_fst.
    - apply sorted_map_fst, sorted_filter, by_name_sorted.
  Qed.
End Sites.
