(** Lemmas on the contents of the plots of results (C114): error bars and stored means. *)
From Coq Require Import String List Bool Reals Lra Lia Arith.
From Verif Require Import Base Pyf PyfOps StatModel StatSpec StatProof CollectModel CollectSpec CollectProof CollectProof2
  WrapModel WrapSpec WrapProof WrapProof2 WrapProof3 WrapProof4 DepModel DepSpec DepProof PanelModel PanelSpec PanelProof PanelProof2.
Import ListNotations.
Open Scope string_scope.
Open Scope list_scope.
Open Scope R_scope.

Section Errors.
  Variable rlm : list R -> R * R.

  (** error bar of a column without weights *)
  Lemma column_plain data p : column_gerr rlm data None false = Ok p ->
    ((List.length (valid_data data) < 2)%nat -> mp_error p = None) /\
    ((2 <= List.length (valid_data data))%nat ->
      let M := geometric_mean (valid_data data) in let s := log_deviation (valid_data data) in
      exists lo up, mp_error p = Some (lo, up) /\ M - lo = M / exp s /\ M + up = M * exp s).
  Proof.
    unfold column_gerr, gstat. cbn [bind]. intros [= <-]. unfold error_bar. cbn [mp_error]. unfold weighted_stat.
    rewrite unmasked_log, map_length. set (v := valid_data data).
    assert (PV : forall x, In x v -> 0 < x) by (intros x; apply valid_data_pos).
    split.
    - intros L. destruct (List.length v <? 2)%nat eqn:E; [|apply Nat.ltb_ge in E; lia]. now destruct (average _ _).
    - intros L. cbv zeta. assert (NV : v <> []) by (intros Q; rewrite Q in L; cbn in L; lia).
      destruct (gm_ln v NV PV) as [G1 G2].
      assert (AV : average (map log_masked data) None = Some (ln (geometric_mean v))).
      { unfold average. rewrite unmasked_log. fold v. rewrite G1. destruct (map ln v) as [|y m] eqn:E; [now destruct v|].
        rewrite <- E, map_length. reflexivity. }
      rewrite AV. destruct (List.length v <? 2)%nat eqn:E; [apply Nat.ltb_lt in E; lia|].
      destruct (List.length v - 1 <=? 0)%nat eqn:E2; [apply Nat.leb_le in E2; lia|].
      assert (SD : sqrt (rsum (map (fun x => (x - ln (geometric_mean v)) ^ 2) (map ln v)) / INR (List.length v - 1)) = log_deviation v).
      { unfold log_deviation. cbv zeta. rewrite map_map. rewrite minus_INR by lia. reflexivity. }
      rewrite SD. eexists. eexists. split; [reflexivity|]. unfold Rminus. rewrite !exp_plus, exp_Ropp, exp_ln by exact G2.
      split; [|ring]. field. apply Rgt_not_eq, exp_pos.
  Qed.

  (** error bar of a column with weights *)
  Lemma column_weights data errors p : List.length errors = List.length data ->
    (forall e, In e errors -> exists x, e = FNum x /\ 0 < x) -> (2 <= List.length (valid_data data))%nat ->
    column_gerr rlm data (Some (map finv errors)) false = Ok p -> mp_error p <> None.
  Proof.
    intros L P V H. set (ws := map (fun e => match e with FNum x => 1 / x | _ => 0 end) errors).
    assert (FI : map finv errors = map FNum ws).
    { unfold ws. rewrite map_map. apply map_ext_in. intros e I. destruct (P e I) as (x & -> & X). cbn. destruct (Req_EM_T x 0); [lra|reflexivity]. }
    assert (PW : forall w, In w ws -> 0 < w).
    { intros w I. apply in_map_iff in I. destruct I as (e & <- & I). destruct (P e I) as (x & -> & X). apply Rdiv_lt_0_compat; lra. }
    rewrite FI in H. unfold column_gerr in H.
    replace (forallb _ (combine data (map FNum ws))) with true in H.
    2:{ symmetry. apply forallb_forall. intros [x w] I. cbn [fst snd]. apply in_combine_r in I. apply in_map_iff in I. destruct I as (y & <- & _).
        now destruct (log_masked x). }
    replace (forallb is_num (map FNum ws)) with true in H.
    2:{ symmetry. apply forallb_forall. intros w I. apply in_map_iff in I. now destruct I as (y & <- & _). }
    rewrite map_map, map_id in H.
    destruct (gerr_exists rlm data (Some ws) true 5 V) as (m & lo & up & G).
    { split; [unfold ws; now rewrite map_length|exact PW]. }
    unfold gerr in G. destruct (gstat rlm data (Some ws) true false 5) as [[[me|] [er|]]|]; cbn [bind fst snd] in *; try discriminate.
    injection H as <-. discriminate.
  Qed.

  Variable events : list (string * option evdict).
  Variable freq : list R.
  Notation evs := (with_result events).
  Hypothesis FULL : full (List.length freq) evs.

  Lemma column_at rows j : column rows j = at_freq j rows.
  Proof. reflexivity. Qed.

  Lemma results_columns v0 conf mean quantities ps k q c j : plot_results rlm events freq v0 conf mean quantities = Ok ps ->
    nth_error quantities k = Some q -> calculated_from q c -> (j < List.length freq)%nat ->
    exists dots means rows p f, nth_error ps k = Some (PMeans dots means) /\ shape2 (List.length evs) (List.length freq) rows /\
      dots = flat_map (combine freq) rows /\ nth_error freq j = Some f /\ nth_error means j = Some (f, p) /\
      (mean <> Some "weighted" -> column_gerr rlm (at_freq j rows) None (robust_of mean) = Ok p) /\
      (mean = Some "weighted" -> column_gerr rlm (at_freq j rows) (Some (map finv (at_freq j (lists_of "error" evs)))) false = Ok p).
  Proof.
    intros H Q C J. destruct (results_panel rlm events freq FULL _ _ _ _ _ _ _ _ H Q C) as (dots & means & rows & N & SH & D & MF & _ & col & ws & E & W & T).
    assert (LM : List.length means = List.length freq) by (rewrite <- MF, map_length; reflexivity).
    destruct (nth_exists means j) as [[f p] NP]; [lia|].
    assert (NF : nth_error freq j = Some f). { assert (Z := map_nth_error fst _ _ NP). rewrite MF in Z. exact Z. }
    exists dots, means, rows, p, f. split; [exact N|]. split; [exact SH|]. split; [exact D|]. split; [exact NF|]. split; [exact NP|].
    destruct (weights_shape mean _ events col FULL E) as (ws' & W' & WR & WN & WS). rewrite W in W'. injection W' as <-.
    assert (NR : rows <> []).
    { destruct SH as [SH _]. intros ->. destruct FULL as [NN _]. destruct evs; [congruence|discriminate]. }
    assert (NC := proj2 (shape2_rect _ _ _ SH NR)).
    assert (NM : nth_error (map snd means) j = Some p) by (exact (map_nth_error snd _ _ NP)).
    assert (SQ : nth_error (seq 0 (ncols rows)) j = Some j).
    { rewrite NC. rewrite (nth_error_nth' _ 0%nat) by (now rewrite seq_length). now rewrite seq_nth. }
    split; intros M.
    - apply WN in M. subst ws. unfold table_gerr in T. destruct (mapM_at _ _ _ j j T SQ) as (p' & N' & G). rewrite NM in N'. injection N' as <-. exact G.
    - destruct ws as [w|]; [|exfalso; now apply (proj1 WN eq_refl)]. rewrite (WS w eq_refl) in T. unfold table_gerr in T.
      destruct (same_shape rows (map (map finv) (lists_of "error" evs))); [|discriminate].
      destruct (mapM_at _ _ _ j j T SQ) as (p' & N' & G). rewrite column_finv in G.
      destruct (robust_of mean) eqn:R; [subst mean; discriminate|]. rewrite NM in N'. injection N' as <-. exact G.
  Qed.

  Lemma results_errors v0 conf mean quantities ps k q c j : plot_results rlm events freq v0 conf mean quantities = Ok ps ->
    nth_error quantities k = Some q -> calculated_from q c -> (j < List.length freq)%nat ->
    exists dots means rows p f, nth_error ps k = Some (PMeans dots means) /\ shape2 (List.length evs) (List.length freq) rows /\
      dots = flat_map (combine freq) rows /\ nth_error freq j = Some f /\ nth_error means j = Some (f, p) /\
      let l := valid_data (at_freq j rows) in
      (mean <> Some "weighted" -> mean <> Some "robust" -> (List.length l < 2)%nat -> mp_error p = None) /\
      (mean <> Some "weighted" -> mean <> Some "robust" -> (2 <= List.length l)%nat ->
        exists lo up, mp_error p = Some (lo, up) /\
          geometric_mean l - lo = geometric_mean l / exp (log_deviation l) /\
          geometric_mean l + up = geometric_mean l * exp (log_deviation l)) /\
      (mean = Some "weighted" -> (forall e, In e (at_freq j (lists_of "error" evs)) -> exists x, e = FNum x /\ 0 < x) ->
        (2 <= List.length l)%nat -> mp_error p <> None).
  Proof.
    intros H Q C J. destruct (results_columns _ _ _ _ _ _ _ _ _ H Q C J) as (dots & means & rows & p & f & N & SH & D & NF & NP & C1 & C2).
    exists dots, means, rows, p, f. split; [exact N|]. split; [exact SH|]. split; [exact D|]. split; [exact NF|]. split; [exact NP|]. cbv zeta.
    assert (RO : mean <> Some "robust" -> robust_of mean = false).
    { intros R. unfold robust_of. destruct mean as [m|]; [|reflexivity]. apply String.eqb_neq. congruence. }
    split; [|split].
    - intros M1 M2 L. specialize (C1 M1). rewrite (RO M2) in C1. now apply (column_plain _ _ C1).
    - intros M1 M2 L. specialize (C1 M1). rewrite (RO M2) in C1. now apply (column_plain _ _ C1).
    - intros M P L. specialize (C2 M). apply (column_weights (at_freq j rows) (at_freq j (lists_of "error" evs)) p); [|exact P|exact L|exact C2].
      unfold at_freq. rewrite !map_length. destruct SH as [-> _]. apply (full_lists _ _ "error" FULL). cbn; tauto.
  Qed.

  (** the means that are written to the result *)
  Lemma results_stored (C : Type) v0 conf mean quantities ps k q fr items l : plot_results rlm events freq v0 conf mean quantities = Ok ps ->
    nth_error quantities k = Some q -> In q ["g0"; "b"; "error"] ->
    add_means (C := C) rlm mean {| ws_freq := fr; ws_events := evs |} = Ok (Some items) ->
    dget String.eqb items q = Some (TMean l) ->
    exists dots means, nth_error ps k = Some (PMeans dots means) /\ map (fun p => mp_mean (snd p)) means = l.
  Proof.
    intros H Q IQ A G.
    assert (CF : calculated_from q q) by (cbn in IQ; destruct IQ as [<-|[<-|[<-|[]]]]; cbn; tauto).
    destruct (results_stages rlm events freq _ _ _ _ _ H) as (col & a & ws & E & CH & W & M).
    destruct (mapM_at _ _ _ k _ M Q) as (p & N & P).
    destruct (panel_spec rlm events freq FULL col ws mean a q q v0 conf E CH W CF) as (dots & means & rows & B & CD & SH & D & MF & T).
    rewrite P in B. injection B as ->. exists dots, means. split; [exact N|].
    assert (ROWS : rows = lists_of q evs).
    { unfold calc_dependent in CD. destruct (velocity_of a) as [v|]; [|discriminate]. cbn [bind] in CD.
      replace (inb String.eqb q ["g0"; "b"; "W"; ""; "error"]) with true in CD; [congruence|].
      symmetry. apply (inb_In _ string_eqb_spec). cbn in *. tauto. }
    assert (ML := table_gerr_means rlm _ _ _ _ T). rewrite map_map in ML. rewrite ROWS in ML.
    unfold add_means in A. cbn [ws_events ws_freq] in A.
    assert (NE := proj1 FULL).
    assert (A' : (do col <- collect_results (map (fun e => (fst e, Some (snd e))) evs) (Some ["g0"; "b"; "error"; "R"]) None;
        do nog0 <- (if dmem String.eqb col "g0" then do g0 <- collected_table col "g0"; Ok (all_nan g0) else Ok false);
        if nog0 : bool then Ok None
        else
          do ws <- weights_of mean col;
          do m1 <- mean_g0 rlm col ws (robust_of mean);
          do m2 <- mean_error rlm col ws (robust_of mean);
          do m3 <- mean_sites rlm col ws (robust_of mean);
          Ok (Some ([("events", TEvents evs)] ++
                    match fr with Some f => [("freq", TVal f)] | None => [] end ++ m1 ++ m2 ++ m3))) = Ok (Some items)).
    { destruct evs as [|x y]; [congruence|exact A]. }
    clear A. rename A' into A.
    destruct (collect_results (map _ evs) _ _) as [col'|] eqn:COL; [|discriminate]. cbn [bind] in A.
    destruct (if dmem String.eqb col' "g0" then _ else _) as [nog0|] eqn:NG; [|discriminate]. cbn [bind] in A. destruct nog0; [discriminate|].
    destruct (weights_of mean col') as [ws'|] eqn:W'; [|discriminate]. cbn [bind] in A.
    destruct (mean_g0 rlm col' ws' (robust_of mean)) as [m1|] eqn:M1; [|discriminate]. cbn [bind] in A.
    destruct (mean_error rlm col' ws' (robust_of mean)) as [m2|] eqn:M2; [|discriminate]. cbn [bind] in A.
    destruct (mean_sites rlm col' ws' (robust_of mean)) as [m3|] eqn:M3; [|discriminate]. cbn [bind] in A.
    assert (IT := f_equal (fun x => match x with Ok (Some y) => y | _ => [] end) A). cbn beta iota in IT. clear A.
    assert (WW : ws' = ws).
    { destruct (weights_shape mean _ events col FULL E) as (ws2 & W2 & _ & WN & WS). rewrite W in W2. injection W2 as <-.
      destruct ws' as [w'|].
      - unfold weights_of in W'. destruct mean as [m|]; [|discriminate]. destruct (String.eqb m "weighted") eqn:MW; [|discriminate].
        apply String.eqb_eq in MW. subst m. destruct (collected_table col' "error") as [e|] eqn:CE; [|discriminate]. cbn [bind] in W'.
        destruct (collected_lists evs col' COL "error" ltac:(cbn; tauto)) as [_ TE]. destruct (TE e CE) as [-> _].
        destruct ws as [w|]; [|exfalso; now apply (proj1 WN eq_refl)]. rewrite (WS w eq_refl). congruence.
      - destruct ws as [w|]; [|reflexivity]. exfalso. unfold weights_of in W'. destruct mean as [m|]; [|now discriminate (proj2 WN ltac:(congruence))].
        destruct (String.eqb m "weighted") eqn:MW.
        + destruct (collected_table col' "error"); discriminate.
        + apply String.eqb_neq in MW. now discriminate (proj2 WN ltac:(congruence)). }
    subst ws'.
    unfold mean_error in M2. destruct (collected_table col' "error") as [et|] eqn:CE; [|discriminate]. cbn [bind] in M2.
    destruct (mean_list rlm et ws (robust_of mean)) as [el|] eqn:EL; [|discriminate]. cbn [bind] in M2. injection M2 as <-.
    destruct (collected_lists evs col' COL "error" ltac:(cbn; tauto)) as [_ TE]. destruct (TE et CE) as [-> _].
    assert (R3 : forall key, sget m3 key <> None -> key = "R").
    { intros key K. unfold mean_sites in M3. destruct (sget col' "R") as [[| |d]|]; try discriminate. destruct d as [|s d].
      - injection M3 as <-. now elim K.
      - destruct (mapM _ (s :: d)); [|discriminate]. cbn [bind] in M3. injection M3 as <-. cbn [dget] in K. destruct (String.eqb key "R") eqn:Z; [now apply String.eqb_eq in Z|now elim K]. }
    unfold mean_g0 in M1. destruct (dmem String.eqb col' "g0") eqn:DG.
    - destruct (collected_table col' "g0") as [gt|] eqn:CG; [|discriminate]. cbn [bind] in M1.
      destruct (mean_list rlm gt ws (robust_of mean)) as [g|] eqn:G1; [|discriminate]. cbn [bind] in M1.
      destruct (collected_table col' "b") as [bt|] eqn:CB; [|discriminate]. cbn [bind] in M1.
      destruct (mean_list rlm bt ws (robust_of mean)) as [b|] eqn:B1; [|discriminate]. cbn [bind] in M1. injection M1 as <-.
      destruct (collected_lists evs col' COL "g0" ltac:(cbn; tauto)) as [_ TG]. destruct (TG gt CG) as [-> _].
      destruct (collected_lists evs col' COL "b" ltac:(cbn; tauto)) as [_ TB]. destruct (TB bt CB) as [-> _].
      subst items. cbn in IQ. destruct IQ as [<-|[<-|[<-|[]]]].
      + assert (l = g) by (destruct fr; cbn in G; congruence). subst l. congruence.
      + assert (l = b) by (destruct fr; cbn in G; congruence). subst l. congruence.
      + assert (l = el) by (destruct fr; cbn in G; congruence). subst l. congruence.
    - exfalso. destruct (collected_lists evs col' COL "g0" ltac:(cbn; tauto)) as [DG2 _]. rewrite (proj2 DG2) in DG; [discriminate|].
      destruct FULL as [_ FU]. destruct evs as [|[id r] rest]; [congruence|]. exists (id, r). split; [now left|]. cbn [snd].
      destruct (FU id r (or_introl eq_refl)) as [F1 _]. destruct (F1 "g0" ltac:(cbn; tauto)) as (x & -> & _). discriminate.
  Qed.
End Errors.

Section Lost.
  Variable rlm : list R -> R * R.

  Lemma column_lost data errors p : In FNan errors ->
    column_gerr rlm data (Some (map finv errors)) false = Ok p -> mp_error p = None.
  Proof.
    intros I H. unfold column_gerr in H. destruct (forallb _ (combine _ _)); [|now injection H as <-].
    replace (forallb is_num (map finv errors)) with false in H.
    2:{ symmetry. apply not_true_is_false. intros F. rewrite forallb_forall in F. specialize (F FNan). cbn in F.
        discriminate F. apply in_map_iff. exists FNan. auto. }
    destruct (gstat _ _ _ _ _ _) as [[[m|] e]|]; cbn in H; [now injection H as <-..|discriminate].
  Qed.

  Variable events : list (string * option evdict).
  Variable freq : list R.
  Notation evs := (with_result events).
  Hypothesis FULL : full (List.length freq) evs.

  Lemma results_lost v0 conf quantities ps k q c j f :
    plot_results rlm events freq v0 conf (Some "weighted") quantities = Ok ps ->
    nth_error quantities k = Some q -> calculated_from q c -> nth_error freq j = Some f ->
    In FNan (at_freq j (lists_of "error" evs)) ->
    exists dots means p, nth_error ps k = Some (PMeans dots means) /\ nth_error means j = Some (f, p) /\ mp_error p = None.
  Proof.
    intros H Q C NF I. assert (J : (j < List.length freq)%nat) by (now apply nth_lt in NF).
    destruct (results_columns rlm events freq FULL _ _ _ _ _ _ _ _ _ H Q C J) as (dots & means & rows & p & f' & N & _ & _ & NF' & NP & _ & C2).
    exists dots, means, p. split; [exact N|]. split; [congruence|]. exact (column_lost _ _ _ I (C2 eq_refl)).
  Qed.
End Lost.
