(** Proofs about the mean results (C67). *)
From Coq Require Import String List Bool Reals Lra Lia ZArith Arith Permutation.
From Verif Require Import Base Pyf PySort SortModel SortProof StatModel StatSpec StatProof CollectModel CollectSpec
  CollectProof CollectProof2 SourceProof3 InvProof2 WrapModel WrapSpec WrapProof.
Import ListNotations.
Open Scope string_scope.
Open Scope list_scope.
Open Scope R_scope.

(** ** means of columns *)
Section Means.
  Variable rlm : list R -> R * R.

  Lemma all_same_ln x l : (forall y, In y (x :: l) -> 0 < y) -> ptp0 (map ln (x :: l)) = true -> forall y, In y l -> y = x.
  Proof.
    intros P H y I. cbn [map ptp0] in H. rewrite forallb_forall in H. specialize (H (ln y)).
    destruct (Req_EM_T (ln y) (ln x)) as [E|E].
    - apply ln_inv; [apply P; now right|apply P; now left|exact E].
    - assert (F : In (ln y) (map ln l)) by now apply in_map. specialize (H F). discriminate.
  Qed.

  Lemma gmean_robust_many data x l : valid_data data = x :: l -> (5 <= List.length (x :: l))%nat ->
    (exists y, In y l /\ y <> x) ->
    gmean rlm data None true 5 = Ok (Some (exp (fst (rlm (map ln (x :: l)))))).
  Proof.
    intros V L (y & I & N). unfold gmean, gstat, robust_stat. cbn [bind]. rewrite unmasked_log, map_length, V.
    assert (E : Nat.ltb (List.length (x :: l)) 5 = false) by now apply Nat.ltb_ge.
    rewrite E. destruct (ptp0 (map ln (x :: l))) eqn:P.
    - exfalso. apply N. apply (all_same_ln x l); [|exact P|exact I].
      intros z Z. apply (valid_data_pos data). now rewrite V.
    - destruct (rlm (map ln (x :: l))) as [m s]. reflexivity.
  Qed.

  Lemma column_mean_of data robust m : column_mean rlm data None robust = Ok m -> mean_of rlm robust data m.
  Proof.
    cbn [column_mean]. intros H. unfold mean_of.
    assert (PL : robust = false \/ (List.length (valid_data data) < 5)%nat ->
                 m = match valid_data data with [] => None | l => Some (geometric_mean l) end).
    { intros Q. assert (G : gmean rlm data None false 5 = Ok m).
      { destruct Q as [->|Q]; [exact H|]. destruct robust; [|exact H]. now rewrite (gmean_robust_few rlm data 5 Q) in H. }
      rewrite gmean_plain in G. congruence. }
    destruct (valid_data data) as [|x l] eqn:V.
    - apply PL. right. cbn. lia.
    - split.
      + intros [Q|[Q|Q]]; [now apply PL; left|now apply PL; right|].
        assert (AL : forall y, In y (valid_data data) -> y = x).
        { rewrite V. intros y [<-|I]; [reflexivity|now apply Q]. }
        assert (NE : valid_data data <> []) by (rewrite V; discriminate).
        assert (A := gmean_identical rlm data 5 x robust ltac:(lia) NE AL).
        assert (B := gmean_identical rlm data 5 x false ltac:(lia) NE AL).
        rewrite gmean_plain, V in B. rewrite H in A. congruence.
      + intros -> L EX. rewrite (gmean_robust_many data x l V L EX) in H. congruence.
  Qed.

  (** all rows have the length of the first *)
  Definition rect (rows : list (list pyf)) : Prop := forall row, In row rows -> List.length row = ncols rows.

  Lemma mean_list_of rows robust l : rect rows -> mean_list rlm rows None robust = Ok l -> means_of rlm robust rows l.
  Proof.
    intros RC H. cbn [mean_list] in H. assert (L := mapM_length _ _ _ H). rewrite seq_length in L. split.
    - intros row I. now rewrite L, RC.
    - intros j J. rewrite L in J. assert (N := mapM_nth _ _ _ j 0%nat None H). rewrite seq_length, seq_nth in N by exact J.
      apply column_mean_of. apply N. exact J.
  Qed.

  Lemma mean_list_total rows robust : exists l, mean_list rlm rows None robust = Ok l.
  Proof.
    cbn [mean_list]. apply mapM_ok. intros j _. cbn [column_mean].
    destruct (gmean_None_iff rlm (column rows j) robust 5) as (m & E & _); [lia|]. eauto.
  Qed.

  (** *** weights *)
  Definition weight_number (w : pyf) : R := match w with FNum r => r | _ => 0 end.

  Lemma finv_weights data errors : List.length errors = List.length data -> errors_positive data errors ->
    valid_weighted data (map weight_number (map finv errors)) = valid_weighted data (weights_at errors) /\
    forallb (fun xw => match log_masked (fst xw), snd xw with
                       | Some _, FNum _ => true | Some _, _ => false | None, _ => true end) (combine data (map finv errors)) = true /\
    (valid_weighted data (weights_at errors) <> [] ->
       0 < rsum (map fst (valid_weighted data (weights_at errors)))).
  Proof.
    revert errors. induction data as [|x data IH]; intros [|e errors] L P; try discriminate.
    - cbn. split; [reflexivity|]. split; [reflexivity|congruence].
    - injection L as L. destruct (IH errors L) as (I1 & I2 & I3).
      { intros i y V. apply (P (S i) y). exact V. }
      change (weights_at (e :: errors)) with (match e with FNum x => 1 / x | _ => 0 end :: weights_at errors).
      cbn [map valid_weighted combine forallb fst snd]. rewrite log_masked_valid.
      destruct (valid x) as [y|] eqn:V.
      + destruct (P 0%nat y V) as (r & E & R0). cbn [nth] in E. subst e. cbn [finv].
        destruct (Req_EM_T r 0) as [Z|Z]; [lra|]. cbn [weight_number option_map andb]. rewrite I1. split; [reflexivity|].
        split; [exact I2|]. intros _. cbn [map fst]. rewrite rsum_cons.
        assert (0 < 1 / r) by (apply Rdiv_lt_0_compat; lra).
        destruct (valid_weighted data (weights_at errors)) as [|p q] eqn:W; [cbn; lra|].
        assert (0 < rsum (map fst (p :: q))) by (apply I3; discriminate). lra.
      + cbn [option_map andb]. auto.
  Qed.

  Lemma column_weighted_of data errors : List.length errors = List.length data -> errors_positive data errors ->
    exists m, column_mean rlm data (Some (map finv errors)) false = Ok m /\ weighted_mean_of data errors m.
  Proof.
    intros L P. destruct (finv_weights data errors L P) as (E1 & E2 & E3). cbn [column_mean]. rewrite E2.
    change (fun w => match w with FNum r => r | _ => 0 end) with weight_number. rewrite gmean_weighted, E1.
    cbv zeta. unfold weighted_mean_of.
    destruct (valid_weighted data (weights_at errors)) as [|p l] eqn:V.
    - exists None. split; [|reflexivity]. cbn. destruct (Req_EM_T 0 0); [reflexivity|lra].
    - assert (S : 0 < rsum (map fst (p :: l))) by (apply E3; discriminate).
      destruct (Req_EM_T (rsum (map fst (p :: l))) 0); [lra|]. eauto.
  Qed.

  Lemma column_finv errors j : column (map (map finv) errors) j = map finv (at_freq j errors).
  Proof.
    unfold column, at_freq. rewrite !map_map. apply map_ext. intros row.
    change FNan with (finv FNan) at 1. apply map_nth.
  Qed.

  Lemma ncols_finv errors : ncols (map (map finv) errors) = ncols errors.
  Proof. destruct errors; cbn; [reflexivity|apply map_length]. Qed.

  Lemma mean_list_weighted rows errors l : rect rows ->
    mean_list rlm rows (Some (map (map finv) errors)) false = Ok l ->
    (forall row, In row rows -> List.length row = List.length l) /\
    forall j, (j < List.length l)%nat -> errors_positive (at_freq j rows) (at_freq j errors) ->
      weighted_mean_of (at_freq j rows) (at_freq j errors) (nth j l None).
  Proof.
    intros RC H. cbn [mean_list] in H. destruct (same_shape rows (map (map finv) errors)) eqn:S; [|discriminate].
    apply andb_true_iff in S. destruct S as [S _]. apply Nat.eqb_eq in S. rewrite map_length in S.
    assert (L := mapM_length _ _ _ H). rewrite seq_length in L. split.
    - intros row I. now rewrite L, RC.
    - intros j J P. rewrite L in J. assert (N := mapM_nth _ _ _ j 0%nat None H). rewrite seq_length, seq_nth in N by exact J.
      specialize (N J). change (0 + j)%nat with j in N. rewrite column_finv in N.
      destruct (column_weighted_of (at_freq j rows) (at_freq j errors)) as (m & E & W); [|exact P|].
      + unfold at_freq. rewrite !map_length. congruence.
      + change (column rows j) with (at_freq j rows) in N. rewrite E in N. injection N as <-. exact W.
  Qed.

  Lemma mean_list_weighted_total rows errors : List.length rows = List.length errors -> ncols rows = ncols errors ->
    exists l, mean_list rlm rows (Some (map (map finv) errors)) false = Ok l.
  Proof.
    intros L N. cbn [mean_list]. unfold same_shape. rewrite map_length, L, Nat.eqb_refl, ncols_finv, N, Nat.eqb_refl.
    cbn [andb]. apply mapM_ok. intros j _. cbn [column_mean]. destruct (forallb _ _); [|eauto].
    rewrite gmean_weighted. eauto.
  Qed.
End Means.

(** ** collected tables *)
Lemma with_result_some evs : with_result (map (fun e : string * evdict => (fst e, Some (snd e))) evs) = evs.
Proof. induction evs as [|[i d] evs IH]; cbn; [reflexivity|now rewrite IH]. Qed.

Lemma to_array_again rows a : to_array rows = Ok a -> to_array a = Ok a.
Proof. intros H. assert (a = rows) by (apply to_array_id; exact H). now subst. Qed.

(** converted entries are arrays *)
Definition is_array (v : option cval) : Prop :=
  match v with
  | Some (CRows rows) => to_array rows = Ok rows
  | Some (CSites d) => forall s rows, In (s, rows) d -> to_array rows = Ok rows
  | _ => True
  end.

Lemma mapM_sites_array d d' :
  mapM (fun sr : string * list rval => do a <- to_array (snd sr); Ok (fst sr, a)) d = Ok d' ->
  forall s rows, In (s, rows) d' -> to_array rows = Ok rows.
Proof.
  revert d'. induction d as [|[s r] d IH]; intros d' E; cbn [mapM] in E; [injection E as <-; intros ? ? []|].
  cbn [snd fst] in E. destruct (to_array r) as [a|] eqn:A; [|discriminate]. cbn [bind] in E.
  destruct (mapM _ d) as [d2|] eqn:M; [|discriminate]. cbn [bind] in E. injection E as <-.
  intros s' rows [Q|Q]; [injection Q as <- <-; now apply to_array_again in A|now apply (IH d2 eq_refl s')].
Qed.

Lemma convert_array keys : forall col col', fold_left convert_key keys (Ok col) = Ok col' ->
  forall c, c <> "eventid" -> In c keys \/ is_array (sget col c) -> is_array (sget col' c).
Proof.
  induction keys as [|k keys IH]; intros col col' E c NE H; cbn [fold_left] in E.
  - destruct H as [[]|H]. injection E as <-. exact H.
  - destruct (convert_key (Ok col) k) as [col1|] eqn:K; [|rewrite convert_err in E; discriminate].
    apply (IH col1 col' E c NE).
    assert (X : k = c -> is_array (sget col1 c)).
    { intros ->. unfold convert_key in K. cbn [bind] in K. apply String.eqb_neq in NE. rewrite NE in K.
      destruct (sget col c) as [[ids|rows|d]|] eqn:G; [discriminate| | |].
      - destruct (to_array rows) as [a|] eqn:A; [|discriminate]. cbn [bind] in K. injection K as <-.
        rewrite sget_eq. cbn. now apply to_array_again in A.
      - destruct (mapM _ d) as [d'|] eqn:M; [|discriminate]. cbn [bind] in K. injection K as <-.
        rewrite sget_eq. cbn. intros s rows I. now apply (mapM_sites_array _ _ M s).
      - injection K as <-. now rewrite G. }
    destruct H as [[->|H]|H]; [right; now apply X|now left|]. right.
    destruct (string_dec k c) as [->|N]; [now apply X|].
    replace (sget col1 c) with (sget col c); [exact H|].
    symmetry. assert (Z : fold_left convert_key [k] (Ok col) = Ok col1) by exact K. apply (convert_ok [k] col col1 Z).
Qed.

Lemma to_array_rect rows t : to_array rows = Ok rows -> table_of rows = Ok t -> rows = map VList t /\ rect t.
Proof.
  intros A T. assert (E : rows = map VList t).
  { clear A. revert t T. unfold table_of. induction rows as [|r rows IH]; intros t T; cbn [mapM] in T; [now injection T as <-|].
    destruct r; try discriminate. cbn [bind] in T. destruct (mapM _ rows) as [t'|]; [|discriminate]. cbn [bind] in T.
    injection T as <-. cbn. f_equal. now apply IH. }
  split; [exact E|]. subst rows. destruct t as [|x t]; [intros row []|]. cbn [map to_array] in A.
  destruct (forallb _ (map VList t)) eqn:F; [|destruct (existsb _ _); discriminate].
  rewrite forallb_forall in F. intros row [<-|I]; [reflexivity|]. cbn [ncols].
  specialize (F (VList row)). cbn in F. apply Nat.eqb_eq. apply F. now apply in_map.
Qed.

Lemma lists_of_rows c evs rows t : Forall2 (row_of None c) (filter (fun e => dmem String.eqb (snd e) c) evs) rows ->
  rows = map VList t -> t = lists_of c evs.
Proof.
  revert rows t. induction evs as [|e evs IH]; intros rows t F E; cbn [filter lists_of flat_map] in *.
  - inversion F; subst. now destruct t.
  - unfold dmem in F at 1. destruct (sget (snd e) c) as [v|] eqn:G.
    + inversion F as [|? x ? rows' H F']; subst. destruct t as [|l t]; [discriminate|]. cbn [map] in *.
      match goal with Q : _ :: _ = _ :: _ |- _ => injection Q as -> -> end.
      destruct H as (r0 & H1 & H2). cbn [value_at] in H2. subst r0. assert (v = VList l) as -> by (unfold evdict in *; congruence).
      cbn [app]. f_equal. now apply (IH (map VList t)).
    + cbn [app]. now apply (IH rows).
Qed.

Section Collected.
  Variable evs : list (string * evdict).
  Notation events := (map (fun e : string * evdict => (fst e, Some (snd e))) evs).
  Notation keys := ["g0"; "b"; "error"; "R"].
  Variable col : list (string * cval).
  Hypothesis COL : collect_results events (Some keys) None = Ok col.

  Lemma keys_nodup : NoDup keys.
  Proof. repeat (constructor; [cbn; intuition discriminate|]). constructor. Qed.

  Lemma collected_array c : In c keys -> is_array (sget col c).
  Proof.
    intros I. assert (H := COL). unfold collect_results in H.
    destruct (fold_left (collect_event None keys) events _) as [col1|] eqn:E; [|discriminate]. cbn [bind] in H.
    apply (convert_array keys col1 col H); [|now left]. cbn in I. intuition (subst; discriminate).
  Qed.

  Lemma collected_lists c : In c ["g0"; "b"; "error"] ->
    (dmem String.eqb col c = true <-> exists e, In e evs /\ sget (snd e) c <> None) /\
    forall t, collected_table col c = Ok t -> t = lists_of c evs /\ rect t.
  Proof.
    intros I. destruct (collect_stages None events (Some keys) col COL) as (col1 & E1 & S).
    assert (NE : c <> "eventid") by (cbn in I; intuition (subst; discriminate)).
    assert (NR : c <> "R") by (cbn in I; intuition (subst; discriminate)).
    assert (IK : In c keys) by (cbn in *; tauto).
    destruct (rows_after None keys keys_nodup c IK NE NR events _ col1 (init_other (Some keys) c NR) E1) as (rows & R1 & F).
    unfold with_key in F. rewrite with_result_some in F. split.
    - unfold dmem. rewrite S, R1. destruct rows as [|r rows]; cbn [rows_opt].
      + split; [discriminate|]. intros (e & J & N). exfalso.
        assert (Q : In e (filter (fun e => dmem String.eqb (snd e) c) evs)).
        { apply filter_In. split; [exact J|]. unfold dmem. unfold evdict in *. destruct (sget (snd e) c); [reflexivity|now elim N]. }
        inversion F as [H|]. rewrite <- H in Q. destruct Q.
      + split; [|reflexivity]. intros _. inversion F as [|e ? ? ? (r0 & G & _) _ H]. exists e.
        assert (Q : In e (filter (fun e => dmem String.eqb (snd e) c) evs)) by (rewrite <- H; now left).
        apply filter_In in Q. split; [apply Q|congruence].
    - intros t T. unfold collected_table in T. assert (A := collected_array c IK). rewrite S, R1 in A, T.
      destruct rows as [|r rows]; cbn [rows_opt] in *; [discriminate|].
      destruct (to_array_rect _ _ A T) as [E RC]. split; [|exact RC]. now apply (lists_of_rows c evs (r :: rows)).
  Qed.

  Hypothesis SN : forall id d s, In (id, d) evs -> sget d "R" = Some (VSites s) -> NoDup (map fst s).

  (** the tables of the stations *)
  Lemma collected_sites : exists d, sget col "R" = Some (CSites d) /\
    forall sta, match sget d sta with
                | None => site_lists sta evs = []
                | Some rows => rows <> [] /\ to_array rows = Ok rows /\ rows = map VList (site_lists sta evs)
                end.
  Proof.
    destruct (collect_stages None events (Some keys) col COL) as (col1 & E1 & S).
    assert (SND : sites_nodup events).
    { intros id r d. rewrite with_result_some. intros I G. now apply (SN id r d). }
    destruct (sites_after None keys keys_nodup ltac:(cbn; tauto) events [("R", CSites [])] col1 eq_refl SND E1) as (d & D & V).
    exists d. split; [now rewrite S|]. intros sta. destruct (V sta) as (rows & R1 & F).
    unfold with_site in F. rewrite with_result_some in F.
    assert (E : rows = map VList (site_lists sta evs)).
    { clear - F. revert rows F. induction evs as [|e l IH]; intros rows F; cbn [filter site_lists flat_map] in *.
      - now inversion F.
      - destruct (site_of (snd e) sta) as [x|] eqn:G; cbn [app map]; [|now apply IH].
        inversion F as [|? v ? rows' (R0 & H1 & H2) F']; subst. cbn [value_at] in H2. subst v.
        rewrite G in H1. injection H1 as ->. f_equal. now apply IH. }
    rewrite R1. destruct rows as [|r rows]; cbn [list_opt].
    - destruct (site_lists sta evs); [reflexivity|discriminate].
    - split; [discriminate|]. split; [|exact E].
      assert (A := collected_array "R" ltac:(cbn; tauto)). rewrite S, D in A. cbn in A. apply (A sta).
      apply (dget_In _ string_eqb_spec). exact R1.
  Qed.
End Collected.

(** stations are collected once *)
Definition sites_once (v : option cval) : Prop :=
  match v with Some (CSites d) => NoDup (map fst d) | _ => True end.

Lemma append_site_nodup d sta x : NoDup (map fst d) -> NoDup (map fst (append_site d sta x)).
Proof. intros N. unfold append_site. destruct (sget d sta); apply dset_nodup; auto using string_eqb_spec. Qed.

Lemma collect_key_once freqi id r col c col' : collect_key freqi id r (Ok col) c = Ok col' ->
  sites_once (sget col "R") -> sites_once (sget col' "R").
Proof.
  intros E S. destruct (string_dec c "R") as [->|N].
  - unfold collect_key in E. cbn [bind] in E. change (String.eqb "R" "eventid") with false in E. cbv iota in E.
    change (String.eqb "R" "R") with true in E. cbn [andb] in E. destruct (dmem String.eqb r "R").
    + destruct (sget r "R") as [[x|l|R0]|]; try discriminate. destruct (sget col "R") as [[ids|rows|d]|]; try discriminate.
      match type of E with (do d' <- ?f; _) = _ => destruct f as [d'|] eqn:F end; [|discriminate]. cbn [bind] in E. injection E as <-.
      rewrite sget_eq. cbn in S |- *. revert d S d' F. induction R0 as [|[s l] R0 IH]; intros d S d' F; cbn [fold_left] in F.
      * now injection F as <-.
      * cbn [bind fst snd] in F. destruct (freq_getter freqi (VList l) "R") as [x|e]; cbn [bind] in F.
        -- apply (IH (append_site d s x)); [now apply append_site_nodup|exact F].
        -- exfalso. clear - F. induction R0 as [|a R0 IH]; [discriminate|apply IH; exact F].
    + destruct (sget r "R") as [v|]; [|injection E as <-; exact S]. destruct (freq_getter freqi v "R") as [x|]; [|discriminate].
      cbn [bind] in E. unfold append_row in E. destruct (sget col "R") as [[ids|rows|d]|]; try discriminate; injection E as <-; rewrite sget_eq; exact I.
  - rewrite (key_other freqi id r col c col' "R" E); auto.
Qed.

Lemma collected_sites_nodup evs col : collect_results evs (Some ["g0"; "b"; "error"; "R"]) None = Ok col ->
  forall d, sget col "R" = Some (CSites d) -> NoDup (map fst d).
Proof.
  intros H d D. destruct (collect_stages None evs (Some ["g0"; "b"; "error"; "R"]) col H) as (col1 & E1 & S).
  assert (X : sites_once (sget col1 "R")); [|rewrite S in D; rewrite D in X; exact X].
  revert E1. change (collected (Some ["g0"; "b"; "error"; "R"])) with ["g0"; "b"; "error"; "R"].
  change (if inb String.eqb "R" ["g0"; "b"; "error"; "R"] then [("R", CSites [])] else []) with [("R", CSites [])].
  assert (S0 : sites_once (sget [("R", CSites [])] "R")) by (cbn; constructor).
  revert S0. generalize [("R", CSites [])]. clear. induction evs as [|[id [r|]] evs IH]; intros c0 S0 E; cbn [fold_left] in E.
  - now injection E as <-.
  - unfold collect_event in E at 2. cbn [snd fst] in E.
    destruct (fold_left (collect_key None id r) ["g0"; "b"; "error"; "R"] (Ok c0)) as [c1|] eqn:F; [|rewrite event_err in E; discriminate].
    apply (IH c1); [|exact E]. revert c0 S0 F. clear. generalize ["g0"; "b"; "error"; "R"]. induction l as [|k l IH]; intros c0 S0 F; cbn [fold_left] in F.
    + now injection F as <-.
    + destruct (collect_key None id r (Ok c0) k) as [c2|] eqn:K; [|rewrite key_err in F; discriminate].
      apply (IH c2); [|exact F]. now apply (collect_key_once None id r c0 k c2).
  - apply (IH c0 S0 E).
Qed.
