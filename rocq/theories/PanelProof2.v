(** Lemmas on the contents of the plots of results (C114): the whole figure. *)
From Coq Require Import String List Bool Reals Lra Lia Arith.
From Verif Require Import Base Pyf PyfOps StatModel StatSpec StatProof CollectModel CollectSpec CollectProof CollectProof2
  WrapModel WrapSpec WrapProof WrapProof2 WrapProof3 WrapProof4 DepModel DepSpec DepProof PanelModel PanelSpec PanelProof.
Import ListNotations.
Open Scope string_scope.
Open Scope list_scope.
Open Scope R_scope.

Lemma mapM_at {A B} (f : A -> res B) l r k a : mapM f l = Ok r -> nth_error l k = Some a ->
  exists b, nth_error r k = Some b /\ f a = Ok b.
Proof.
  revert r k. induction l as [|x l IH]; intros r k E N; [destruct k; discriminate|]. cbn [mapM] in E.
  destruct (f x) as [b|] eqn:F; [|discriminate]. cbn [bind] in E. destruct (mapM f l) as [r'|]; [|discriminate]. cbn [bind] in E.
  injection E as <-. destruct k as [|k]; cbn in *; [exists b; split; congruence|]. exact (IH r' k eq_refl N).
Qed.

(** ** geometric means of derived values *)

(** the number behind a derived value *)
Definition number_of (q : string) (x f v : R) : R :=
  match q with
  | "lsc" => 1 / x / 1000
  | "Qsc" => x * v / (2 * PI * f)
  | "li" => v / x / 1000
  | "Qi" => x / (2 * PI * f)
  | _ => x
  end.

Lemma number_derived q x f v : x <> 0 -> f <> 0 -> derived q x f v (number_of q x f v).
Proof.
  intros X F. assert (P := PI_f f F). unfold derived, number_of.
  repeat match goal with |- match ?s with _ => _ end => destruct s end; try reflexivity; try (field; assumption).
  all: field; split; [assumption | apply PI_neq0].
Qed.

Lemma number_affine q f v : 0 < f -> 0 < v ->
  exists s k, forall x, 0 < x -> number_of q x f v = exp (s * ln x + k).
Proof.
  intros F V. pose proof PI_RGT_0 as P. assert (PF : 0 < 2 * PI * f) by (apply Rmult_lt_0_compat; lra).
  assert (UP : forall a x, 0 < a -> 0 < x -> x * a = exp (1 * ln x + ln a)).
  { intros a x A X. rewrite Rmult_1_l, exp_plus, !exp_ln; lra. }
  assert (DOWN : forall a x, 0 < a -> 0 < x -> a / x = exp (-1 * ln x + ln a)).
  { intros a x A X. rewrite exp_plus, exp_ln by lra. replace (-1 * ln x) with (- ln x) by lra. rewrite exp_Ropp, exp_ln by lra. field. lra. }
  assert (D1 : forall a x, 0 < a -> 0 < x -> a / x / 1000 = exp (-1 * ln x + ln (a / 1000))).
  { intros a x A X. rewrite <- DOWN by lra. field. lra. }
  assert (U1 : forall a b x, 0 < a -> 0 < b -> 0 < x -> x * a / b = exp (1 * ln x + ln (a / b))).
  { intros a b x A B X. rewrite <- UP; [field; lra| |exact X]. apply Rdiv_lt_0_compat; lra. }
  assert (ID : exists s k, forall x, 0 < x -> x = exp (s * ln x + k)).
  { exists 1, 0. intros x X. rewrite Rplus_0_r, Rmult_1_l, exp_ln; lra. }
  unfold number_of.
  repeat match goal with |- exists s k, forall x, _ -> match ?s with _ => _ end = _ => destruct s end; try exact ID.
  all: first
    [ exists (-1), (ln (1 / 1000)); intros x X; apply D1; lra
    | exists (-1), (ln (v / 1000)); intros x X; apply D1; lra
    | exists 1, (ln (v / (2 * PI * f))); intros x X; apply U1; lra
    | exists 1, (ln (1 / (2 * PI * f))); intros x X; rewrite <- U1 by lra; field; split; lra ].
Qed.

Lemma value_valid q x f v : In q quantities -> 0 < f -> 0 < v ->
  valid (value_of q x f v) = option_map (fun r => number_of q r f v) (valid x).
Proof.
  intros I F V. pose proof PI_RGT_0 as P. assert (PF : 0 < 2 * PI * f) by (apply Rmult_lt_0_compat; lra).
  assert (T : 1000 <> 0) by lra. assert (PF0 : 2 * PI * f <> 0) by lra.
  assert (ID : valid x = option_map (fun r => r) (valid x)) by (destruct (valid x); reflexivity).
  assert (SGN : forall a b, 0 < b -> (0 < a / b <-> 0 < a)).
  { intros a b B. split; intros H.
    - apply (Rmult_lt_compat_r b) in H; [|exact B]. rewrite Rmult_0_l in H. replace (a / b * b) with a in H by (field; lra). exact H.
    - apply Rdiv_lt_0_compat; assumption. }
  assert (VAL : forall a b, (0 < a <-> 0 < b) -> valid (FNum a) = option_map (fun _ => a) (valid (FNum b))).
  { intros a b H. cbn. destruct (Rlt_dec 0 a), (Rlt_dec 0 b); try reflexivity; exfalso; tauto. }
  assert (OM : forall a (g : R -> R), valid x = None \/ True -> option_map g (valid (FNum a)) = option_map g (valid (FNum a))) by reflexivity.
  assert (DIVX : forall a, 0 < a -> valid (fdiv (fdiv (FNum a) x) (FNum 1000)) = option_map (fun r => a / r / 1000) (valid x)).
  { intros a A. destruct x as [| | |r]; cbn [fdiv].
    - reflexivity.
    - destruct (Req_EM_T 1000 0); [lra|]. cbn. destruct (Rlt_dec 0 (0 / 1000)); [|reflexivity]. exfalso. lra.
    - destruct (Req_EM_T 1000 0); [lra|]. cbn. destruct (Rlt_dec 0 (0 / 1000)); [|reflexivity]. exfalso. lra.
    - destruct (Req_EM_T r 0) as [Z|Z].
      + subst r. unfold finf. destruct (Rlt_dec 0 a); [|lra]. cbn. 
        destruct (Req_EM_T 1000 0); [lra|]. unfold finf. destruct (Rlt_dec 0 1000); [|lra]. cbn. destruct (Rlt_dec 0 0); [lra|reflexivity].
      + cbn [fdiv]. destruct (Req_EM_T 1000 0); [lra|]. cbn. destruct (Rlt_dec 0 r) as [L|L].
        * destruct (Rlt_dec 0 (a / r / 1000)) as [_|N]; [reflexivity|]. exfalso. apply N. apply SGN; [lra|]. apply Rdiv_lt_0_compat; lra.
        * destruct (Rlt_dec 0 (a / r / 1000)) as [N|_]; [|reflexivity]. exfalso. apply SGN in N; [|lra].
          assert (a / r < 0); [|lra]. unfold Rdiv. assert (/ r < 0) by (apply Rinv_lt_0_compat; lra). rewrite <- (Rmult_0_r a). now apply Rmult_lt_compat_l. }
  assert (MULX : forall a, 0 < a -> valid (fdiv (fmul x (FNum a)) (FNum (2 * PI * f))) = option_map (fun r => r * a / (2 * PI * f)) (valid x)).
  { intros a A. destruct x as [| | |r]; cbn [fmul fdiv].
    - reflexivity.
    - unfold finf. destruct (Req_EM_T a 0); [lra|]. destruct (Rlt_dec 0 a); [|lra]. cbn [fdiv fneg].
      destruct (Req_EM_T (2 * PI * f) 0); [lra|]. unfold finf. destruct (Rlt_dec 0 (2 * PI * f)); [reflexivity|lra].
    - unfold finf. destruct (Req_EM_T a 0); [lra|]. destruct (Rlt_dec 0 a); [|lra]. cbn [fdiv fneg].
      destruct (Req_EM_T (2 * PI * f) 0); [lra|]. unfold finf. destruct (Rlt_dec 0 (2 * PI * f)); [reflexivity|lra].
    - destruct (Req_EM_T (2 * PI * f) 0); [lra|]. cbn. destruct (Rlt_dec 0 r) as [L|L].
      + destruct (Rlt_dec 0 _) as [_|N]; [reflexivity|]. exfalso. apply N. apply SGN; [lra|]. apply Rmult_lt_0_compat; lra.
      + destruct (Rlt_dec 0 _) as [N|_]; [|reflexivity]. exfalso. apply SGN in N; [|lra]. 
        assert (r * a <= 0); [|lra]. rewrite <- (Rmult_0_l a); apply Rmult_le_compat_r; lra. }
  assert (DIVF : valid (fdiv x (FNum (2 * PI * f))) = option_map (fun r => r / (2 * PI * f)) (valid x)).
  { destruct x as [| | |r]; cbn [fdiv].
    - reflexivity.
    - destruct (Req_EM_T (2 * PI * f) 0); [lra|]. unfold finf. destruct (Rlt_dec 0 (2 * PI * f)); [reflexivity|lra].
    - destruct (Req_EM_T (2 * PI * f) 0); [lra|]. unfold finf. destruct (Rlt_dec 0 (2 * PI * f)); [reflexivity|lra].
    - destruct (Req_EM_T (2 * PI * f) 0); [lra|]. cbn. destruct (Rlt_dec 0 r) as [L|L].
      + destruct (Rlt_dec 0 _) as [_|N]; [reflexivity|]. exfalso. apply N. now apply SGN.
      + destruct (Rlt_dec 0 _) as [N|_]; [|reflexivity]. exfalso. apply SGN in N; lra. }
  cbn in I. repeat destruct I as [<- | I]; [.. | contradiction]; cbn [value_of number_of].
  all: try exact ID.
  - apply DIVX. lra.
  - apply MULX. exact V.
  - apply DIVX. exact V.
  - exact DIVF.
Qed.

Lemma valid_data_map l (h : pyf -> pyf) (g : R -> R) : (forall x, valid (h x) = option_map g (valid x)) ->
  valid_data (map h l) = map g (valid_data l).
Proof.
  intros H. induction l as [|x l IH]; [reflexivity|]. cbn [map valid_data]. rewrite H. destruct (valid x); cbn [option_map map]; now rewrite IH.
Qed.

Lemma valid_weighted_map l ws (h : pyf -> pyf) (g : R -> R) : (forall x, valid (h x) = option_map g (valid x)) ->
  valid_weighted (map h l) ws = map (fun p => (fst p, g (snd p))) (valid_weighted l ws).
Proof.
  intros H. revert ws. induction l as [|x l IH]; intros [|w ws]; [reflexivity..|]. cbn [map valid_weighted]. rewrite H.
  destruct (valid x); cbn [option_map map fst snd]; now rewrite IH.
Qed.

Lemma gm_ln l : l <> [] -> (forall x, In x l -> 0 < x) -> ln (geometric_mean l) = rsum (map ln l) / INR (List.length l) /\ 0 < geometric_mean l.
Proof.
  intros N P. unfold geometric_mean, Rpower. rewrite ln_exp, <- rsum_ln by exact P. split; [unfold Rdiv; ring|apply exp_pos].
Qed.

Lemma wgm_ln l : ln (weighted_geometric_mean l) = rsum (map (fun p => fst p * ln (snd p)) l) / rsum (map fst l) /\ 0 < weighted_geometric_mean l.
Proof.
  unfold weighted_geometric_mean, Rpower at 1. rewrite ln_exp. split; [|apply exp_pos]. rewrite rsum_wln. unfold Rdiv, rsum. ring.
Qed.

Lemma geometric_mean_number q f v l : 0 < f -> 0 < v -> l <> [] -> (forall x, In x l -> 0 < x) ->
  geometric_mean (map (fun r => number_of q r f v) l) = number_of q (geometric_mean l) f v.
Proof.
  intros F V N P. destruct (number_affine q f v F V) as (s & k & A).
  destruct (gm_ln l N P) as [G1 G2].
  assert (P2 : forall y, In y (map (fun r => number_of q r f v) l) -> 0 < y).
  { intros y Y. apply in_map_iff in Y. destruct Y as (x & <- & X). rewrite A by auto. apply exp_pos. }
  destruct (gm_ln (map (fun r => number_of q r f v) l)) as [H1 H2]; [now destruct l|exact P2|].
  rewrite (A _ G2), G1. rewrite <- (exp_ln _ H2), H1. f_equal. rewrite map_map, map_length.
  rewrite (rsum_ext _ (fun x => s * ln x + k)) by (intros x X; rewrite A, ln_exp by auto; reflexivity).
  rewrite rsum_plus, rsum_scale, rsum_const. field. apply not_0_INR. destruct l; [congruence|discriminate].
Qed.

Lemma weighted_mean_number q f v l : 0 < f -> 0 < v -> rsum (map fst l) <> 0 -> (forall p, In p l -> 0 < snd p) ->
  weighted_geometric_mean (map (fun p => (fst p, number_of q (snd p) f v)) l) = number_of q (weighted_geometric_mean l) f v.
Proof.
  intros F V N P. destruct (number_affine q f v F V) as (s & k & A).
  destruct (wgm_ln l) as [G1 G2]. destruct (wgm_ln (map (fun p => (fst p, number_of q (snd p) f v)) l)) as [H1 H2].
  rewrite (A _ G2), G1. rewrite <- (exp_ln _ H2), H1. f_equal. rewrite !map_map. cbn [fst snd].
  rewrite (rsum_ext _ (fun p => s * (fst p * ln (snd p)) + k * fst p)) by (intros x X; rewrite A, ln_exp by auto; ring).
  rewrite rsum_plus, !rsum_scale. change (fun x : R * R => fst x) with (@fst R R). field. exact N.
Qed.

(** ** the figure *)
Section Figure.
  Variable rlm : list R -> R * R.
  Variable events : list (string * option evdict).
  Variable freq : list R.
  Notation evs := (with_result events).
  Hypothesis FULL : full (List.length freq) evs.

  Lemma results_stages v0 conf mean quantities ps : plot_results rlm events freq v0 conf mean quantities = Ok ps ->
    exists col a ws, collect_results events (Some ["g0"; "b"; "error"; "v0"]) None = Ok col /\ choose_v0 v0 conf col = Ok a /\
      weights_of mean col = Ok ws /\ mapM (result_panel rlm freq col ws (robust_of mean) a) quantities = Ok ps.
  Proof.
    unfold plot_results. destruct (collect_results _ _ _) as [col|]; [|discriminate]. cbn [bind].
    destruct (choose_v0 v0 conf col) as [a|] eqn:A; [|discriminate]. cbn [bind].
    destruct (weights_of mean col) as [ws|] eqn:W; [|discriminate]. cbn [bind]. intros H. exists col, a, ws. auto.
  Qed.

  Lemma results_total v0 conf mean quantities :
    (forall q, In q quantities -> q = "nobs" \/ exists c, calculated_from q c) ->
    exists ps, plot_results rlm events freq v0 conf mean quantities = Ok ps /\ List.length ps = List.length quantities.
  Proof.
    intros H. destruct (collect4_total rlm events freq FULL) as (col & E).
    destruct (choose_spec _ events col v0 conf FULL E) as (a & A & _).
    destruct (weights_shape mean _ events col FULL E) as (ws & W & _).
    unfold plot_results. rewrite E. cbn [bind]. rewrite A. cbn [bind]. rewrite W. cbn [bind].
    destruct (mapM_ok (result_panel rlm freq col ws (robust_of mean) a) quantities) as (ps & P).
    - intros q Q. destruct (H q Q) as [->|(c & C)].
      + destruct (bars_spec rlm events freq FULL col ws (robust_of mean) a E) as (bars & B & _). eauto.
      + destruct (panel_spec rlm events freq FULL col ws mean a q c v0 conf E A W C) as (dots & means & rows & B & _). eauto.
    - exists ps. split; [exact P|]. now apply mapM_length in P.
  Qed.

  Lemma results_bars v0 conf mean quantities ps k : plot_results rlm events freq v0 conf mean quantities = Ok ps ->
    nth_error quantities k = Some "nobs" ->
    exists bars, nth_error ps k = Some (PBars bars) /\ map fst bars = freq /\
      forall j, (j < List.length freq)%nat -> nth_error (map snd bars) j = Some (count (at_freq j (lists_of "g0" evs))).
  Proof.
    intros H Q. destruct (results_stages _ _ _ _ _ H) as (col & a & ws & E & A & W & M).
    destruct (mapM_at _ _ _ k _ M Q) as (p & N & P).
    destruct (bars_spec rlm events freq FULL col ws (robust_of mean) a E) as (bars & B & B1 & B2). rewrite P in B. injection B as ->.
    eauto.
  Qed.

  Lemma results_panel v0 conf mean quantities ps k q c : plot_results rlm events freq v0 conf mean quantities = Ok ps ->
    nth_error quantities k = Some q -> calculated_from q c ->
    exists dots means rows, nth_error ps k = Some (PMeans dots means) /\
      shape2 (List.length evs) (List.length freq) rows /\ dots = flat_map (combine freq) rows /\ map fst means = freq /\
      (forall i j id r x f v, nth_error evs i = Some (id, r) -> nth_error freq j = Some f -> at2 (lists_of c evs) i j = Some x ->
         velocity_for v0 conf r v -> at2 rows i j = Some (value_of q x f v)) /\
      exists col ws, collect_results events (Some ["g0"; "b"; "error"; "v0"]) None = Ok col /\ weights_of mean col = Ok ws /\
      table_gerr rlm rows ws (robust_of mean) = Ok (map snd means).
  Proof.
    intros H Q C. destruct (results_stages _ _ _ _ _ H) as (col & a & ws & E & A & W & M).
    destruct (mapM_at _ _ _ k _ M Q) as (p & N & P).
    destruct (panel_spec rlm events freq FULL col ws mean a q c v0 conf E A W C) as (dots & means & rows & B & CD & SH & D & MF & T).
    rewrite P in B. injection B as ->. exists dots, means, rows. split; [exact N|]. split; [exact SH|]. split; [exact D|]. split; [exact MF|].
    split; [|exists col, ws; auto].
    intros i j id r x f v NE NF X V. destruct (from_depmap rlm freq q c C) as (_ & _ & IC & IQ).
    destruct (choose_spec _ events col v0 conf FULL E) as (a' & A' & VV & VA). rewrite A in A'. injection A' as <-.
    destruct (full_lists _ _ c FULL IC) as [SL _].
    destruct (calc2 q _ freq a _ _ IQ SL eq_refl VV) as (rows' & CD' & _ & CV). rewrite CD in CD'. injection CD' as <-.
    apply CV; [exact X|exact NF|]. exact (VA i id r v NE V).
  Qed.

  (** dots and means *)
  Lemma results_shown v0 conf mean quantities ps k q c : plot_results rlm events freq v0 conf mean quantities = Ok ps ->
    nth_error quantities k = Some q -> calculated_from q c ->
    exists dots means rows, nth_error ps k = Some (PMeans dots means) /\
      shape2 (List.length evs) (List.length freq) rows /\ dots = flat_map (combine freq) rows /\
      (forall i j id r x f v, nth_error evs i = Some (id, r) -> nth_error freq j = Some f -> f <> 0 -> velocity_for v0 conf r v ->
         at2 (lists_of c evs) i j = Some (FNum x) -> x <> 0 -> exists y, at2 rows i j = Some (FNum y) /\ derived q x f v y) /\
      (forall i j, at2 (lists_of c evs) i j = Some FNan -> at2 rows i j = Some FNan) /\
      map fst means = freq /\
      averaged rlm mean (lists_of "error" evs) rows (map (fun p => mp_mean (snd p)) means).
  Proof.
    intros H Q C. destruct (results_panel _ _ _ _ _ _ _ _ H Q C) as (dots & means & rows & N & SH & D & MF & VAL & col & ws & E & W & T).
    destruct (from_depmap rlm freq q c C) as (_ & _ & IC & IQ).
    exists dots, means, rows. split; [exact N|]. split; [exact SH|]. split; [exact D|]. split; [|split; [|split; [exact MF|]]].
    - intros i j id r x f v NE NF F0 V X X0. destruct (value_derived q x f v IQ X0 F0) as (y & Y & DY). exists y. split; [|exact DY].
      rewrite (VAL i j id r (FNum x) f v NE NF X V). now rewrite Y.
    - intros i j X. destruct (full_lists _ _ c FULL IC) as [[SL1 SL2] _]. destruct (at2_some _ _ _ _ X) as (row & R1 & R2).
      destruct (nth_exists freq j) as [f F]; [apply nth_lt in R2; rewrite (SL2 row (nth_error_In _ _ R1)) in R2; exact R2|].
      destruct (nth_exists evs i) as [[id r] NE]; [apply nth_lt in R1; lia|].
      assert (exists v, velocity_for v0 conf r v) as [v V].
      { unfold velocity_for. destruct (given_or_missing v0) as [M0|[v G]]; [|eauto]. destruct (given_or_missing conf) as [M1|[v G]]; [|eauto].
        destruct FULL as [_ FU]. destruct (FU id r (nth_error_In _ _ NE)) as (_ & v & V). exists v. right. right. auto. }
      rewrite (VAL i j id r FNan f v NE F X V). now rewrite value_nan.
    - assert (ML := table_gerr_means rlm _ _ _ _ T). rewrite map_map in ML.
      apply (mean_list_averaged rlm mean col ws); [exact W| | |exact ML].
      + intros e Z. rewrite (full_collected _ events col "error" FULL E ltac:(cbn; tauto)) in Z. congruence.
      + assert (NR : rows <> []); [|exact (proj1 (shape2_rect _ _ _ SH NR))].
        destruct SH as [SH _]. intros ->. destruct FULL as [NN _]. destruct evs; [congruence|discriminate].
  Qed.

  (** the band of a derived quantity if there is one velocity *)
  Lemma derived_band c (rows : list (list pyf)) q j f v : In c ["g0"; "b"; "error"] -> nth_error freq j = Some f ->
    shape2 (List.length evs) (List.length freq) rows ->
    (forall i id r x, nth_error evs i = Some (id, r) -> at2 (lists_of c evs) i j = Some x -> at2 rows i j = Some (value_of q x f v)) ->
    at_freq j rows = map (fun x => value_of q x f v) (at_freq j (lists_of c evs)).
  Proof.
    intros IC NF SH H. destruct (full_lists _ _ c FULL IC) as [[SL1 SL2] _]. apply nth_error_ext. intros i. unfold at_freq. rewrite !nth_error_map.
    assert (J : (j < List.length freq)%nat) by (apply nth_lt in NF; exact NF).
    destruct (nth_error evs i) as [[id r]|] eqn:NE.
    - destruct (nth_exists rows i) as [row R1]; [destruct SH as [-> _]; now apply nth_lt in NE|].
      destruct (nth_exists (lists_of c evs) i) as [l L1]; [rewrite SL1; now apply nth_lt in NE|].
      rewrite R1, L1. cbn [option_map]. f_equal.
      destruct (nth_exists l j) as [x X]; [rewrite (SL2 l (nth_error_In _ _ L1)); exact J|].
      specialize (H i id r x NE (at2_of _ _ _ _ _ L1 X)). destruct (at2_some _ _ _ _ H) as (row' & R1' & R2). rewrite R1 in R1'. injection R1' as <-.
      rewrite (nth_error_nth _ _ FNan R2), (nth_error_nth _ _ FNan X). reflexivity.
    - apply nth_error_None in NE. rewrite (proj2 (nth_error_None rows i)), (proj2 (nth_error_None (lists_of c evs) i)); [reflexivity|lia|].
      destruct SH as [-> _]. exact NE.
  Qed.

  (** means of derived quantities are derived from the means *)
  Lemma results_derived v0 conf mean quantities ps k q c j f v : plot_results rlm events freq v0 conf mean quantities = Ok ps ->
    nth_error quantities k = Some q -> calculated_from q c -> nth_error freq j = Some f -> 0 < f -> 0 < v ->
    (forall id r, In (id, r) evs -> velocity_for v0 conf r v) ->
    exists dots means p, nth_error ps k = Some (PMeans dots means) /\ nth_error means j = Some (f, p) /\
      (mean <> Some "weighted" -> mean <> Some "robust" -> valid_data (at_freq j (lists_of c evs)) <> [] ->
         exists y, mp_mean p = Some y /\ derived q (geometric_mean (valid_data (at_freq j (lists_of c evs)))) f v y) /\
      (mean = Some "weighted" -> errors_positive (at_freq j (lists_of c evs)) (at_freq j (lists_of "error" evs)) ->
         let l := valid_weighted (at_freq j (lists_of c evs)) (weights_at (at_freq j (lists_of "error" evs))) in
         l <> [] -> exists y, mp_mean p = Some y /\ derived q (weighted_geometric_mean l) f v y).
  Proof.
    intros H Q C NF F V AV. destruct (from_depmap rlm freq q c C) as (_ & _ & IC & IQ).
    destruct (results_panel _ _ _ _ _ _ _ _ H Q C) as (dots & means & rows & N & SH & D & MF & VAL & col & ws & E & W & T).
    destruct (results_shown _ _ _ _ _ _ _ _ H Q C) as (dots' & means' & rows' & N' & _ & D' & _ & _ & _ & AVG').
    assert (means' = means) by congruence. subst means'. clear dots' N' D'.
    assert (NR : rows <> []).
    { destruct SH as [SH _]. intros ->. destruct FULL as [NN _]. destruct evs; [congruence|discriminate]. }
    assert (RB : at_freq j rows = map (fun x => value_of q x f v) (at_freq j (lists_of c evs))).
    { apply derived_band; [exact IC|exact NF|exact SH|]. intros i id r x NE X.
      apply (VAL i j id r x f v NE NF X). apply (AV id r). exact (nth_error_In _ _ NE). }
    clear rows' AVG'.
    assert (AVG : averaged rlm mean (lists_of "error" evs) rows (map (fun p => mp_mean (snd p)) means)).
    { assert (ML := table_gerr_means rlm _ _ _ _ T). rewrite map_map in ML.
      apply (mean_list_averaged rlm mean col ws); [exact W| | |exact ML].
      + intros e Z. rewrite (full_collected _ events col "error" FULL E ltac:(cbn; tauto)) in Z. congruence.
      + exact (proj1 (shape2_rect _ _ _ SH NR)). }
    assert (LM : List.length means = List.length freq) by (rewrite <- MF, map_length; reflexivity).
    assert (J : (j < List.length freq)%nat) by (apply nth_lt in NF; exact NF).
    destruct (nth_exists means j) as [[f' p] NP]; [lia|].
    assert (f' = f). { assert (Z := map_nth_error fst _ _ NP). rewrite MF in Z. cbn in Z. congruence. } subst f'.
    exists dots, means, p. split; [exact N|]. split; [exact NP|].
    assert (NTH : nth j (map (fun p => mp_mean (snd p)) means) None = mp_mean p).
    { assert (Z := map_nth_error (fun p => mp_mean (snd p)) _ _ NP). cbn in Z. now apply nth_error_nth with (d := None) in Z. }
    assert (VV := fun x => value_valid q x f v IQ F V).
    destruct AVG as [A1 A2]. split.
    - intros M1 M2 NV. destruct (A1 M1) as [_ A3]. destruct (A3 M2) as [_ A4]. specialize (A4 j). rewrite map_length, NTH in A4.
      specialize (A4 ltac:(lia)). unfold mean_of in A4. rewrite RB, (valid_data_map _ _ _ VV) in A4.
      set (l := valid_data (at_freq j (lists_of c evs))) in *.
      assert (PL : forall x, In x l -> 0 < x) by (intros x; apply valid_data_pos).
      exists (geometric_mean (map (fun r => number_of q r f v) l)). split.
      + destruct (map (fun r => number_of q r f v) l) as [|y m] eqn:ML; [now destruct l|]. apply A4. now left.
      + rewrite (geometric_mean_number q f v l F V NV PL). apply number_derived; [|lra].
        destruct (gm_ln l NV PL). lra.
    - intros M EP l NL. destruct (A2 M) as [_ A3]. specialize (A3 j). rewrite map_length, NTH in A3. specialize (A3 ltac:(lia)).
      assert (EP2 : errors_positive (at_freq j rows) (at_freq j (lists_of "error" evs))).
      { intros i x X. rewrite RB in X. destruct (lt_dec i (List.length (at_freq j (lists_of c evs)))) as [L|L].
        - rewrite (nth_indep _ FNan (value_of q FNan f v)) in X by (rewrite map_length; exact L). rewrite (map_nth (fun x => value_of q x f v)), VV in X.
          destruct (valid (nth i (at_freq j (lists_of c evs)) FNan)) as [z|] eqn:Z; [|discriminate]. exact (EP i z Z).
        - rewrite nth_overflow in X by (rewrite map_length; lia). discriminate. }
      specialize (A3 EP2). unfold weighted_mean_of in A3. rewrite RB, (valid_weighted_map _ _ _ _ VV) in A3. fold l in A3.
      assert (PL : forall p, In p l -> 0 < snd p) by (intros x; apply valid_weighted_pos).
      assert (WS : rsum (map fst l) <> 0).
      { destruct (finv_weights (at_freq j (lists_of c evs)) (at_freq j (lists_of "error" evs))) as (_ & _ & WP).
        - unfold at_freq. rewrite !map_length. destruct (full_lists _ _ c FULL IC) as [[-> _] _].
          destruct (full_lists _ _ "error" FULL ltac:(cbn; tauto)) as [[-> _] _]. reflexivity.
        - exact EP.
        - specialize (WP NL). fold l in WP. lra. }
      exists (weighted_geometric_mean (map (fun p => (fst p, number_of q (snd p) f v)) l)). split.
      + destruct (map (fun p => (fst p, number_of q (snd p) f v)) l) as [|y m] eqn:ML; [now destruct l|]. exact A3.
      + rewrite (weighted_mean_number q f v l F V WS PL). apply number_derived; [|lra]. destruct (wgm_ln l). lra.
  Qed.
End Figure.
