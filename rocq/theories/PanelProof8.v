(** Lemmas on the contents of the plots of results (C114): error bars of weighted means. *)
From Coq Require Import String List Bool Reals Lra Lia Arith.
From Verif Require Import Base Pyf PyfOps StatModel StatSpec StatSpec2 StatProof StatProof2 CollectModel CollectSpec
  WrapModel WrapSpec DepModel DepSpec PanelModel PanelSpec PanelProof PanelProof2 PanelProof3.
Import ListNotations.
Open Scope string_scope.
Open Scope list_scope.
Open Scope R_scope.

Section Weighted.
  Variable rlm : list R -> R * R.

  Lemma column_weighted data errors p : List.length errors = List.length data ->
    (forall e, In e errors -> exists x, e = FNum x /\ 0 < x) -> (2 <= List.length (valid_data data))%nat ->
    column_gerr rlm data (Some (map finv errors)) false = Ok p ->
    let l := valid_weighted data (weights_at errors) in
    let M := weighted_geometric_mean l in let s := weighted_log_deviation l in
    exists lo up, mp_error p = Some (lo, up) /\ M - lo = M / exp s /\ M + up = M * exp s.
  Proof.
    intros L P V H. set (ws := weights_at errors).
    assert (FI : map finv errors = map FNum ws).
    { unfold ws, weights_at. rewrite map_map. apply map_ext_in. intros e I. destruct (P e I) as (x & -> & X). cbn. destruct (Req_EM_T x 0); [lra|reflexivity]. }
    assert (PW : forall w, In w ws -> 0 < w).
    { intros w I. apply in_map_iff in I. destruct I as (e & <- & I). destruct (P e I) as (x & -> & X). apply Rdiv_lt_0_compat; lra. }
    assert (LW : List.length ws = List.length data) by (unfold ws, weights_at; now rewrite map_length).
    rewrite FI in H. unfold column_gerr in H.
    replace (forallb _ (combine data (map FNum ws))) with true in H.
    2:{ symmetry. apply forallb_forall. intros [x w] I. cbn [fst snd]. apply in_combine_r in I. apply in_map_iff in I. destruct I as (y & <- & _).
        now destruct (log_masked x). }
    replace (forallb is_num (map FNum ws)) with true in H.
    2:{ symmetry. apply forallb_forall. intros w I. apply in_map_iff in I. now destruct I as (y & <- & _). }
    rewrite map_map, map_id in H. rewrite (gstat_weighted rlm data ws 5 V LW PW) in H. cbn [bind fst snd] in H.
    injection H as <-. cbv zeta. eexists. eexists. split; [reflexivity|]. apply exp_bar.
    unfold weighted_geometric_mean, Rpower. apply exp_pos.
  Qed.

  Variable events : list (string * option evdict).
  Variable freq : list R.
  Notation evs := (with_result events).

  Lemma results_weighted v0 conf quantities ps k q c j : full (List.length freq) evs ->
    plot_results rlm events freq v0 conf (Some "weighted") quantities = Ok ps ->
    nth_error quantities k = Some q -> calculated_from q c -> (j < List.length freq)%nat ->
    (forall e, In e (at_freq j (lists_of "error" evs)) -> exists x, e = FNum x /\ 0 < x) ->
    exists dots means rows p f, nth_error ps k = Some (PMeans dots means) /\ shape2 (List.length evs) (List.length freq) rows /\
      dots = flat_map (combine freq) rows /\ nth_error freq j = Some f /\ nth_error means j = Some (f, p) /\
      ((2 <= List.length (valid_data (at_freq j rows)))%nat ->
        let l := valid_weighted (at_freq j rows) (weights_at (at_freq j (lists_of "error" evs))) in
        exists lo up, mp_error p = Some (lo, up) /\
          weighted_geometric_mean l - lo = weighted_geometric_mean l / exp (weighted_log_deviation l) /\
          weighted_geometric_mean l + up = weighted_geometric_mean l * exp (weighted_log_deviation l)).
  Proof.
    intros FULL H Q C J P. destruct (results_columns rlm events freq FULL _ _ _ _ _ _ _ _ _ H Q C J) as (dots & means & rows & p & f & N & SH & D & NF & NP & _ & C2).
    exists dots, means, rows, p, f. split; [exact N|]. split; [exact SH|]. split; [exact D|]. split; [exact NF|]. split; [exact NP|].
    intros V. specialize (C2 eq_refl). apply (column_weighted (at_freq j rows) (at_freq j (lists_of "error" evs)) p); [|exact P|exact V|exact C2].
    unfold at_freq. rewrite !map_length. destruct SH as [-> _]. apply (full_lists _ _ "error" FULL). cbn; tauto.
  Qed.
End Weighted.
