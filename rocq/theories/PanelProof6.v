(** Lemmas on the plot of site responses: when there is one (C115). *)
From Coq Require Import String List Bool Reals Lra Lia Arith Permutation Sorted.
From Verif Require Import Base Pyf PyfOps PySort StatModel StatSpec StatProof CollectModel CollectSpec CollectProof CollectProof2
  WrapModel WrapSpec WrapProof WrapProof2 WrapProof3 WrapProof4 SiteProof9 DepSpec DepProof GridModel GridSpec GridProof PanelModel PanelSpec PanelProof PanelProof2 PanelProof3 PanelProof4 PanelProof5.
Import ListNotations.
Open Scope string_scope.
Open Scope list_scope.

Section Sites.
  Variable rlm : list R -> R * R.
  Variable events : list (string * option evdict).
  Variable freq : list R.
  Notation evs := (with_result events).
  Notation nf := (List.length freq).
  Hypothesis FULL : full_sites nf evs.
  Variable nx : option nat.
  Hypothesis NX : nx <> Some 0%nat.
  Variable sta0 : string.
  Hypothesis HV : has_value sta0 evs.

  Lemma finite_iff R : tables evs R -> forall sta t, In (sta, t) (filter finite_row (by_name R)) <-> t = site_lists sta evs /\ has_value sta evs.
  Proof.
    intros T sta t. destruct (tables_by_name _ _ T) as (_ & T1 & T2). rewrite filter_In. split.
    - intros [I N]. destruct (T1 sta t I) as [-> _]. split; [reflexivity|]. unfold finite_row in N. cbn [snd] in N. apply negb_true_iff in N. now apply all_nan_value in N.
    - intros [-> (l & x & I & J & N)]. assert (NE : site_lists sta evs <> []) by (intros Q; rewrite Q in I; destruct I).
      split; [now apply T2|]. unfold finite_row. cbn [snd]. apply negb_true_iff, all_nan_value. eauto.
  Qed.

  Lemma prepared mean : exists R n col ws lay, tables evs R /\ collect_results events (Some keys2) None = Ok col /\
    weights_of mean col = Ok ws /\
    forall cmap se, PanelModel.plot_sites rlm events freq mean nx cmap se =
      (do c <- get_cmap cmap;
       do ps <- mapM (one_site rlm freq ws (robust_of mean) n) (filter finite_row (by_name R));
       Ok {| sf_panels := combine ps (g_cells lay); sf_bar := g_bar lay;
             sf_excluded := if se then map fst (filter (fun sr : row => all_nan (snd sr)) (by_name R)) else [] |}).
  Proof.
    destruct (collect2_total nf events FULL) as [col C]. destruct (tables_ok nf events col FULL C) as (d & R & D & M & T).
    assert (I0 := proj2 (finite_iff R T sta0 _) (conj eq_refl HV)).
    assert (MX : exists n, max_of (flat_map (fun sr : row => count_numbers (snd sr)) R) = Ok n).
    { destruct HV as (l & x & I & J & _). assert (NE : site_lists sta0 evs <> []) by (intros Q; rewrite Q in I; destruct I).
      assert (L := site_list_length nf evs sta0 l FULL I). assert (Z : (0 < nf)%nat) by (rewrite <- L; destruct l; [destruct J|cbn; lia]).
      destruct T as (_ & _ & T2).
      assert (Q : In (count (at_freq 0 (site_lists sta0 evs))) (flat_map (fun sr : row => count_numbers (snd sr)) R)).
      { apply in_flat_map. exists (sta0, site_lists sta0 evs). split; [now apply T2|]. cbn [snd]. rewrite (count_numbers_spec nf evs sta0 FULL NE).
        apply in_map_iff. exists 0%nat. split; [reflexivity|]. apply in_seq. lia. }
      unfold max_of. destruct (flat_map _ R); [destruct Q|eauto]. }
    destruct MX as [n MX].
    assert (W : exists ws, weights_of mean col = Ok ws).
    { unfold weights_of. destruct mean as [m|]; [|eauto]. destruct (String.eqb m "weighted"); [|eauto].
      rewrite (errors_table nf events col FULL C). cbn [bind]. eauto. }
    destruct W as [ws W].
    assert (MO := max_nobs_spec nf evs R n FULL T MX). assert (NP := most_positive nf evs n sta0 FULL MO HV).
    destruct (sites_good n (map finite_row (by_name R)) nx NP) as (lay & L & _).
    { apply filter_In in I0. destruct I0 as [I0 I1]. apply in_map_iff. exists (sta0, site_lists sta0 evs). split; [exact I1|exact I0]. }
    { exact NX. }
    exists R, n, col, ws, lay. split; [exact T|]. split; [exact C|]. split; [exact W|]. intros cmap se.
    unfold PanelModel.plot_sites. rewrite C. cbn [bind]. rewrite D, M. cbn [bind]. rewrite MX, W. cbn [bind]. cbv zeta.
    change (pysort (fun a b : string * list (list pyf) => String.leb (fst a) (fst b)) R) with (by_name R).
    assert (K : exists g, get_grid (b2n (Nat.ltb 1 n) + List.length (filter finite_row (by_name R))) nx = Ok g).
    { unfold GridModel.plot_sites in L. rewrite filter_map_len in L. cbv zeta in L. destruct (get_grid _ nx) as [g|]; [eauto|discriminate]. }
    destruct K as [g K]. fold finite_row. change (fun sr : string * list (list pyf) => negb (all_nan (snd sr))) with finite_row.
    rewrite K. cbn [bind]. rewrite L. reflexivity.
  Qed.

  Lemma one_site_total ws robust n sta : has_value sta evs -> ws = None \/ robust = false ->
    (forall w, ws = Some w -> same_shape (site_lists sta evs) w = true) ->
    exists p, one_site rlm freq ws robust n (sta, site_lists sta evs) = Ok p.
  Proof.
    intros (l & x & I & J & _) H S. assert (NE : site_lists sta evs <> []) by (intros Q; rewrite Q in I; destruct I).
    unfold one_site. cbn [fst snd]. destruct (table_gerr_total rlm (site_lists sta evs) ws robust H S) as [m E].
    rewrite E. cbn [bind]. unfold all_dots.
    replace (forallb _ (site_lists sta evs)) with true.
    - cbn [bind]. unfold all_means. apply table_gerr_length in E. rewrite (proj2 (site_table nf evs sta FULL NE)) in E.
      rewrite E, Nat.eqb_refl. cbn [bind]. eauto.
    - symmetry. apply forallb_forall. intros r Q. apply Nat.eqb_eq. now apply (site_list_length nf evs sta).
  Qed.

  Lemma errors_length : List.length (lists_of "error" evs) = List.length evs /\ forall l, In l (lists_of "error" evs) -> List.length l = nf.
  Proof.
    destruct FULL as [_ F]. revert F. generalize evs. clear. intros evs F. induction evs as [|[id r] evs IH]; [split; [reflexivity|intros ? []]|].
    destruct IH as [I1 I2]; [intros i d J; apply (F i d (or_intror J))|]. destruct (F id r (or_introl eq_refl)) as [(l & E & L) _].
    change (lists_of "error" ((id, r) :: evs)) with (match dget String.eqb r "error" with Some (VList q) => [q] | _ => [] end ++ lists_of "error" evs).
    rewrite E. cbn [app List.length]. split; [now rewrite I1|]. intros x [<-|I]; [exact L|now apply I2].
  Qed.

  Lemma weights_sites mean ws col : collect_results events (Some keys2) None = Ok col -> weights_of mean col = Ok ws ->
    (mean <> Some "weighted" -> ws = None) /\
    (mean = Some "weighted" -> robust_of mean = false /\ ws = Some (map (map finv) (lists_of "error" evs))).
  Proof.
    intros C W. unfold weights_of in W. destruct mean as [m|]; [|split; [congruence|discriminate]].
    destruct (String.eqb_spec m "weighted") as [->|N].
    - split; [congruence|]. intros _. rewrite (errors_table nf events col FULL C) in W. cbn [bind] in W. split; [reflexivity|congruence].
    - split; [congruence|congruence].
  Qed.

  Lemma weighted_shape sta : has_value sta evs ->
    same_shape (site_lists sta evs) (map (map finv) (lists_of "error" evs)) = true <-> List.length (site_lists sta evs) = List.length evs.
  Proof.
    intros (l & x & I & _). assert (NE : site_lists sta evs <> []) by (intros Q; rewrite Q in I; destruct I).
    destruct errors_length as [E1 E2]. unfold same_shape. rewrite map_length, E1, ncols_finv, (proj2 (site_table nf evs sta FULL NE)).
    replace (ncols (lists_of "error" evs)) with nf.
    - rewrite Nat.eqb_refl, andb_true_r. apply Nat.eqb_eq.
    - destruct (lists_of "error" evs) as [|r t] eqn:Q; [destruct FULL as [N _]; destruct evs; [congruence|discriminate]|].
      cbn [ncols]. symmetry. apply E2. now left.
  Qed.

  Lemma mapM_all {A B} (f : A -> res B) l r : mapM f l = Ok r -> forall a, In a l -> exists b, f a = Ok b.
  Proof.
    revert r. induction l as [|x l IH]; intros r E a I; cbn [mapM] in E; [destruct I|].
    destruct (f x) as [c|] eqn:FA; [|discriminate]. cbn [bind] in E. destruct (mapM f l) as [r'|]; [|discriminate].
    destruct I as [<-|I]; [eauto|exact (IH r' eq_refl a I)].
  Qed.

  Lemma option_eq_weighted (mean : option string) : mean = Some "weighted" \/ mean <> Some "weighted".
  Proof. destruct mean as [m|]; [|right; discriminate]. destruct (string_dec m "weighted") as [->|N]; [now left|right; congruence]. Qed.

  Lemma mapM_total {A B} (f : A -> res B) l : (forall a, In a l -> exists b, f a = Ok b) -> exists r, mapM f l = Ok r.
  Proof. intros H. apply mapM_ok. exact H. Qed.

  Lemma sites_total mean c se : 
    (mean = Some "weighted" -> forall sta, has_value sta evs -> List.length (site_lists sta evs) = List.length evs) ->
    exists fig, PanelModel.plot_sites rlm events freq mean nx (Some c) se = Ok fig.
  Proof.
    intros H. destruct (prepared mean) as (R & n & col & ws & lay & T & C & W & P). rewrite P. cbn [get_cmap bind].
    destruct (weights_sites mean ws col C W) as [W1 W2].
    destruct (mapM_total (one_site rlm freq ws (robust_of mean) n) (filter finite_row (by_name R))) as [ps E].
    - intros [sta t] I. apply (finite_iff R T) in I. destruct I as [-> V].
      destruct (option_eq_weighted mean) as [Q|Q].
      + destruct (W2 Q) as [W3 W4]. apply one_site_total; [exact V|now right|]. intros w E. rewrite W4 in E. injection E as <-. apply (weighted_shape sta V). now apply H.
      + rewrite (W1 Q). apply one_site_total; [exact V|now left|discriminate].
    - rewrite E. cbn [bind]. eauto.
  Qed.

  Lemma sites_weighted_fail cmap se sta : has_value sta evs -> List.length (site_lists sta evs) <> List.length evs ->
    forall fig, PanelModel.plot_sites rlm events freq (Some "weighted") nx cmap se <> Ok fig.
  Proof.
    intros V N fig E. destruct (prepared (Some "weighted")) as (R & n & col & ws & lay & T & C & W & P). rewrite P in E.
    destruct (weights_sites _ ws col C W) as [_ W2]. destruct (W2 eq_refl) as [_ ->].
    destruct (get_cmap cmap); [|discriminate]. cbn [bind] in E. destruct (mapM _ _) as [ps|] eqn:M; [|discriminate].
    assert (I := proj2 (finite_iff R T sta _) (conj eq_refl V)).
    destruct (mapM_all _ _ _ M _ I) as [p O]. unfold one_site, table_gerr in O. cbn [fst snd] in O.
    destruct (same_shape _ _) eqn:S; [|discriminate]. apply N. now apply (weighted_shape sta V).
  Qed.
End Sites.

Open Scope R_scope.
(** error bars and cases without a plot *)
Section Sites2.
  Variable rlm : list R -> R * R.
  Variable events : list (string * option evdict).
  Variable freq : list R.
  Notation evs := (with_result events).
  Notation nf := (List.length freq).
  Hypothesis FULL : full_sites nf evs.

  Lemma sites_errors mean nx cmap se fig : PanelModel.plot_sites rlm events freq mean nx cmap se = Ok fig ->
    mean <> Some "weighted" -> mean <> Some "robust" ->
    forall p j, In p (map fst (sf_panels fig)) -> (j < nf)%nat ->
    exists f q, nth_error freq j = Some f /\ nth_error (sp_means p) j = Some (f, q) /\
      let l := valid_data (at_freq j (site_lists (sp_station p) evs)) in
      ((List.length l < 2)%nat -> mp_error q = None) /\
      ((2 <= List.length l)%nat -> exists lo up, mp_error q = Some (lo, up) /\
         geometric_mean l - lo = geometric_mean l / exp (log_deviation l) /\
         geometric_mean l + up = geometric_mean l * exp (log_deviation l)).
  Proof.
    intros H M1 M2 p j I J. destruct (run_of rlm events freq FULL _ _ _ _ _ H) as [r].
    rewrite (proj1 (run_split rlm events freq FULL _ _ _ _ _ r)) in I.
    destruct (mapM_in _ _ _ (rn_panels _ _ _ _ _ _ _ _ r) p I) as ([s t] & K & O). apply filter_In in K. destruct K as [K _].
    destruct (tables_by_name _ _ (rn_tables _ _ _ _ _ _ _ _ r)) as (_ & T1 & _). destruct (T1 s t K) as [-> NE].
    destruct (one_site_spec rlm freq _ _ _ _ _ O) as (E1 & _ & E3 & _ & E5 & _). cbn [fst snd] in *. rewrite E1.
    destruct (weights_sites events freq FULL mean _ _ (rn_collect _ _ _ _ _ _ _ _ r) (rn_weights _ _ _ _ _ _ _ _ r)) as [W _].
    rewrite (W M1) in E5.
    assert (RO : robust_of mean = false).
    { unfold robust_of. destruct mean as [m|]; [|reflexivity]. apply String.eqb_neq. congruence. }
    rewrite RO in E5. unfold table_gerr in E5. rewrite (proj2 (site_table nf evs s FULL NE)) in E5.
    assert (SJ : nth_error (seq 0 nf) j = Some j) by now rewrite nth_error_seq.
    destruct (mapM_at _ _ _ j j E5 SJ) as (q & Q1 & Q2).
    assert (F1 : nth_error (map fst (sp_means p)) j = Some (nth j freq 0)).
    { rewrite E3. now apply nth_error_nth'. }
    destruct (nth_error (sp_means p) j) as [[f q']|] eqn:Z.
    - exists f, q. assert (FJ : nth_error freq j = Some f) by (rewrite <- E3; apply (map_nth_error fst) in Z; exact Z).
      assert (q' = q) as -> by (apply (map_nth_error snd) in Z; cbn [snd] in Z; congruence).
      split; [exact FJ|]. split; [reflexivity|]. cbv zeta. exact (column_plain rlm _ _ Q2).
    - apply nth_error_None in Z. assert (X : nth_error (map fst (sp_means p)) j = None) by (apply nth_error_None; now rewrite map_length). congruence.
  Qed.

  Lemma sites_none mean nx cmap se : (forall sta, ~ has_value sta evs) \/ cmap = None ->
    forall fig, PanelModel.plot_sites rlm events freq mean nx cmap se <> Ok fig.
  Proof.
    intros C fig H. destruct (run_of rlm events freq FULL _ _ _ _ _ H) as [r]. destruct C as [C|C].
    - destruct (run_some rlm events freq _ _ _ _ _ r) as [sta V]. exact (C sta V).
    - exact (rn_cmap _ _ _ _ _ _ _ _ r C).
  Qed.
End Sites2.
