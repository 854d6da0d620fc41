(** Lemmas on the contents of the plot of site responses (C115). *)
From Coq Require Import String List Bool Reals Lra Lia Arith Permutation Sorted.
From Verif Require Import Base Pyf PyfOps PySort StatModel StatSpec StatProof CollectModel CollectSpec CollectProof CollectProof2
  WrapModel WrapSpec WrapProof WrapProof2 WrapProof3 WrapProof4 SiteProof9 DepSpec DepProof GridModel GridSpec GridProof PanelModel PanelSpec PanelProof.
Import ListNotations.
Open Scope string_scope.
Open Scope list_scope.

Notation keys2 := ["R"; "error"].
Lemma keys2_nodup : NoDup (collected (Some keys2)).
Proof. cbn. repeat constructor; cbn; intuition discriminate. Qed.

Lemma collect2_total nf events : full_sites nf (with_result events) ->
  exists col, collect_results events (Some keys2) None = Ok col.
Proof.
  intros [_ F]. apply (collect_total_keys nf). intros id r J c v I G. destruct (F id r J) as [(l & E & L) (d & D & N & S)].
  cbn in I. destruct I as [<-|[<-|[]]]; cbn.
  - exists d. split; [unfold evdict in *; congruence|exact S].
  - exists l. split; [unfold evdict in *; congruence|exact L].
Qed.

Lemma collected_once keys evs col : collect_results evs (Some keys) None = Ok col ->
  forall d, sget col "R" = Some (CSites d) -> NoDup (map fst d).
Proof.
  intros H d D. destruct (collect_stages None evs (Some keys) col H) as (col1 & E1 & S).
  assert (X : sites_once (sget col1 "R")); [|rewrite S in D; rewrite D in X; exact X].
  revert E1. change (collected (Some keys)) with keys.
  assert (S0 : sites_once (sget (if inb String.eqb "R" keys then [("R", CSites [])] else []) "R"))
    by (destruct (inb String.eqb "R" keys); cbn; [constructor|exact I]).
  revert S0. match goal with |- sites_once (sget ?a _) -> _ => generalize a end. clear. induction evs as [|[id [r|]] evs IH]; intros c0 S0 E; cbn [fold_left] in E.
  - now injection E as <-.
  - unfold collect_event in E at 2. cbn [snd fst] in E.
    destruct (fold_left (collect_key None id r) keys (Ok c0)) as [c1|] eqn:F; [|rewrite event_err in E; discriminate].
    apply (IH c1); [|exact E]. revert c0 S0 F. clear. generalize keys. induction keys0 as [|k l IH]; intros c0 S0 F; cbn [fold_left] in F.
    + now injection F as <-.
    + destruct (collect_key None id r (Ok c0) k) as [c2|] eqn:K; [|rewrite key_err in F; discriminate].
      apply (IH c2); [|exact F]. now apply (collect_key_once None id r c0 k c2).
  - apply (IH c0 S0 E).
Qed.

(** the tables of the stations *)
Lemma collected_tables nf events col : full_sites nf (with_result events) ->
  collect_results events (Some keys2) None = Ok col ->
  exists d, sget col "R" = Some (CSites d) /\ NoDup (map fst d) /\
    forall sta, match sget d sta with
                | None => site_lists sta (with_result events) = []
                | Some rows => rows <> [] /\ rows = map VList (site_lists sta (with_result events))
                end.
Proof.
  intros F H. destruct (collect_stages None events (Some keys2) col H) as (col1 & E1 & S).
  assert (SND : sites_nodup events).
  { intros id r d I G. destruct F as [_ F]. destruct (F id r I) as [_ (d' & D & N & _)].
    assert (d' = d) as -> by (unfold evdict in *; congruence). exact N. }
  destruct (sites_after None keys2 keys2_nodup ltac:(cbn; tauto) events [("R", CSites [])] col1 eq_refl SND E1) as (d & D & V).
  assert (D' : sget col "R" = Some (CSites d)) by now rewrite S.
  exists d. split; [exact D'|]. split; [exact (collected_once _ _ _ H d D')|]. intros sta. destruct (V sta) as (rows & R1 & Q).
  unfold with_site in Q.
  assert (E : rows = map VList (site_lists sta (with_result events))).
  { revert rows Q R1. clear. intros rows Q _. revert rows Q. induction (with_result events) as [|e l IH]; intros rows F; cbn [filter site_lists flat_map] in *.
    - now inversion F.
    - destruct (site_of (snd e) sta) as [x|] eqn:G; cbn [app map]; [|now apply IH].
      inversion F as [|? v ? rows' (R0 & H1 & H2) F']; subst. cbn [value_at] in H2. subst v.
      rewrite G in H1. injection H1 as ->. f_equal. now apply IH. }
  rewrite R1. destruct rows as [|r rows]; cbn [list_opt].
  - destruct (site_lists sta (with_result events)); [reflexivity|discriminate].
  - split; [discriminate|exact E].
Qed.

Lemma site_list_length nf evs sta l : full_sites nf evs -> In l (site_lists sta evs) -> List.length l = nf.
Proof.
  intros [_ F] I. apply in_flat_map in I. destruct I as ([id r] & J & I). cbn [snd] in I. unfold site_of in I.
  destruct (F id r J) as [_ (d & D & N & L)]. unfold evdict in *. rewrite D in I. destruct (sget d sta) as [x|] eqn:G; [|destruct I].
  destruct I as [<-|[]]. apply (dget_In _ string_eqb_spec) in G. now apply (L sta).
Qed.

Lemma site_table nf evs sta : full_sites nf evs -> site_lists sta evs <> [] ->
  rect (site_lists sta evs) /\ ncols (site_lists sta evs) = nf.
Proof.
  intros F N. apply (shape2_rect (List.length (site_lists sta evs)) nf); [|exact N].
  split; [reflexivity|]. intros row I. now apply (site_list_length nf evs sta).
Qed.

(** the dictionary of the tables *)
Definition tables (evs : list (string * evdict)) (R : list (string * list (list pyf))) : Prop :=
  NoDup (map fst R) /\ (forall sta t, In (sta, t) R -> t = site_lists sta evs /\ t <> []) /\
  forall sta, site_lists sta evs <> [] -> In (sta, site_lists sta evs) R.

Lemma tables_ok nf events col : full_sites nf (with_result events) ->
  collect_results events (Some keys2) None = Ok col ->
  exists d R, sget col "R" = Some (CSites d) /\
    mapM (fun sr : string * list rval => do t <- table_of (snd sr); Ok (fst sr, t)) d = Ok R /\ tables (with_result events) R.
Proof.
  intros F H. destruct (collected_tables nf events col F H) as (d & D & N & V). exists d.
  set (evs := with_result events) in *.
  exists (map (fun sr : string * list rval => (fst sr, site_lists (fst sr) evs)) d). split; [exact D|].
  assert (G : forall sr, In sr d -> snd sr <> [] /\ snd sr = map VList (site_lists (fst sr) evs)).
  { intros [s rows] I. specialize (V s). assert (Q : sget d s = Some rows) by now apply (dget_nodup String.eqb string_eqb_spec).
    rewrite Q in V. exact V. }
  split.
  - apply GridProof.mapM_map. intros sr I. destruct (G sr I) as [_ ->]. now rewrite table_lists.
  - split; [rewrite map_map; exact N|]. split.
    + intros sta t I. apply in_map_iff in I. destruct I as (sr & [= <- <-] & I). split; [reflexivity|].
      destruct (G sr I) as [G1 G2]. intros Q. apply G1. now rewrite G2, Q.
    + intros sta NE. apply in_map_iff. specialize (V sta). destruct (sget d sta) as [rows|] eqn:Q; [|congruence].
      apply (dget_In _ string_eqb_spec) in Q. exists (sta, rows). split; [reflexivity|exact Q].
Qed.

Lemma errors_table nf events col : full_sites nf (with_result events) ->
  collect_results events (Some keys2) None = Ok col ->
  collected_table col "error" = Ok (lists_of "error" (with_result events)).
Proof.
  intros F E.
  destruct (rows_ok None events (Some keys2) col "error" keys2_nodup ltac:(cbn; tauto) ltac:(discriminate) ltac:(discriminate) E) as (rows & G & L & P).
  - apply F.
  - intros id r J. destruct F as [_ F]. destruct (F id r J) as [(l & Q & _) _]. apply (dget_In _ string_eqb_spec) in Q.
    apply in_map_iff. now exists ("error", VList l).
  - unfold collected_table. rewrite G.
    assert (X : rows = map VList (lists_of "error" (with_result events))); [|rewrite X; apply table_lists].
    destruct F as [_ F]. clear G E. revert rows L P F. generalize (with_result events). intros evs.
    induction evs as [|[id r] evs IH]; intros [|x rows] L P F; try discriminate L; [reflexivity|].
    destruct (F id r (or_introl eq_refl)) as [(l & Q & _) _].
    change (lists_of "error" ((id, r) :: evs)) with (match sget r "error" with Some (VList q) => [q] | _ => [] end ++ lists_of "error" evs).
    rewrite Q. cbn [app map]. destruct (P 0%nat id r eq_refl) as (r0 & v & H1 & H2 & H3). cbn in H2, H3. subst v. injection H2 as ->.
    f_equal; [unfold evdict in *; congruence|]. apply IH; [now injection L|intros j i d J; apply (P (S j) i d J)|intros i d J; apply (F i d (or_intror J))].
Qed.

(** ** Largest number of observations *)
Lemma fold_max_spec l : forall a, (forall x, In x l -> (x <= fold_left Nat.max l a)%nat) /\ (a <= fold_left Nat.max l a)%nat /\
  (fold_left Nat.max l a = a \/ In (fold_left Nat.max l a) l).
Proof.
  induction l as [|y l IH]; intros a; cbn [fold_left]; [repeat split; [intros ? []|lia|now left]|].
  destruct (IH (Nat.max a y)) as (H1 & H2 & H3). split; [intros x [<-|I]; [lia|now apply H1]|]. split; [lia|].
  destruct H3 as [H3|H3]; [|right; now right]. destruct (Nat.max_spec a y) as [[? E]|[? E]]; rewrite E in *; [right; left; congruence|now left].
Qed.

Lemma count_column rows j : List.length (filter (fun x => negb (fisnan x)) (column rows j)) = count (at_freq j rows).
Proof.
  unfold count, at_freq, column. f_equal. apply filter_ext. intros []; reflexivity.
Qed.

Lemma count_numbers_spec nf evs sta : full_sites nf evs -> site_lists sta evs <> [] ->
  count_numbers (site_lists sta evs) = map (fun j => count (at_freq j (site_lists sta evs))) (seq 0 nf).
Proof.
  intros F N. unfold count_numbers. rewrite (proj2 (site_table nf evs sta F N)). apply map_ext. intros j. apply count_column.
Qed.

Lemma count_nil j : count (at_freq j []) = 0%nat.
Proof. reflexivity. Qed.

Lemma max_nobs_spec nf evs R n : full_sites nf evs -> tables evs R ->
  max_of (flat_map (fun sr : string * list (list pyf) => count_numbers (snd sr)) R) = Ok n -> most_observations nf evs n.
Proof.
  intros F (_ & T1 & T2) H. unfold max_of in H.
  set (l := flat_map (fun sr : string * list (list pyf) => count_numbers (snd sr)) R) in *.
  assert (IN : forall x, In x l <-> exists sta j, site_lists sta evs <> [] /\ (j < nf)%nat /\ x = count (at_freq j (site_lists sta evs))).
  { intros x. unfold l. rewrite in_flat_map. split.
    - intros ([sta t] & I & C). cbn [snd] in C. destruct (T1 sta t I) as [-> N]. rewrite (count_numbers_spec nf evs sta F N) in C.
      apply in_map_iff in C. destruct C as (j & <- & J). apply in_seq in J. exists sta, j. repeat split; [exact N|lia].
    - intros (sta & j & N & J & ->). exists (sta, site_lists sta evs). split; [now apply T2|]. cbn [snd].
      rewrite (count_numbers_spec nf evs sta F N). apply in_map_iff. exists j. split; [reflexivity|]. apply in_seq. lia. }
  destruct (fold_max_spec l 0) as (M1 & _ & M3).
  assert (Q : l <> [] /\ n = fold_left Nat.max l 0%nat) by (destruct l; [discriminate|]; split; [discriminate|congruence]).
  destruct Q as [NE ->].
  split.
  - assert (I : In (fold_left Nat.max l 0%nat) l).
    { destruct M3 as [M3|M3]; [|exact M3]. destruct l as [|y l'] eqn:L; [congruence|]. rewrite <- L in *.
      assert (Y : In y l) by (rewrite L; now left). assert (Z := M1 y Y). rewrite M3 in *. replace 0%nat with y by lia. exact Y. }
    apply IN in I. destruct I as (sta & j & _ & J & ->). eauto.
  - intros sta j J. destruct (site_lists sta evs) as [|x t] eqn:E; [rewrite count_nil; lia|].
    rewrite <- E. apply M1, IN. exists sta, j. repeat split; [congruence|exact J].
Qed.

Lemma all_nan_value rows : all_nan rows = false <-> exists l x, In l rows /\ In x l /\ x <> FNan.
Proof.
  unfold all_nan. split.
  - intros H. induction rows as [|r rows IH]; [discriminate|]. cbn [forallb] in H. apply andb_false_iff in H. destruct H as [H|H].
    + exists r. assert (X : exists x, In x r /\ x <> FNan); [|destruct X as (x & ? & ?); exists x; repeat split; auto; now left].
      clear IH. induction r as [|y r IH]; [discriminate|]. cbn [forallb] in H. apply andb_false_iff in H. destruct H as [H|H].
      * exists y. split; [now left|]. intros ->. discriminate.
      * destruct (IH H) as (x & ? & ?). exists x. split; [now right|auto].
    + destruct (IH H) as (l & x & ? & ? & ?). exists l, x. repeat split; auto. now right.
  - intros (l & x & I & J & N). destruct (forallb (forallb fisnan) rows) eqn:E; [|reflexivity]. exfalso.
    rewrite forallb_forall in E. specialize (E l I). rewrite forallb_forall in E. specialize (E x J). destruct x; try discriminate. congruence.
Qed.

Lemma most_positive nf evs n sta : full_sites nf evs -> most_observations nf evs n -> has_value sta evs -> (1 <= n)%nat.
Proof.
  intros F [_ M] (l & x & I & J & N).
  assert (L := site_list_length nf evs sta l F I). destruct (In_nth l x FNan J) as (j & J1 & J2). rewrite L in J1.
  specialize (M sta j J1). enough (count (at_freq j (site_lists sta evs)) <> 0%nat) by lia.
  unfold count. intros Z. apply length_zero_iff_nil in Z.
  assert (X : In x (filter (fun x => match x with FNan => false | _ => true end) (at_freq j (site_lists sta evs)))).
  { apply filter_In. split; [|destruct x; congruence]. unfold at_freq. apply in_map_iff. exists l. split; [exact J2|exact I]. }
  rewrite Z in X. destruct X.
Qed.

(** ** The figure *)
Notation row := (string * list (list pyf))%type.
Definition finite_row (sr : row) : bool := negb (all_nan (snd sr)).
Definition by_name (R : list row) : list row := pysort (fun a b => String.leb (fst a) (fst b)) R.

Lemma filter_neg {A} (f : A -> bool) l : filter f l = [] <-> forall a, In a l -> f a = false.
Proof.
  split.
  - intros H a I. destruct (f a) eqn:E; [|reflexivity]. assert (J : In a (filter f l)) by now apply filter_In. rewrite H in J. destruct J.
  - intros H. induction l as [|a l IH]; [reflexivity|]. cbn. rewrite (H a (or_introl eq_refl)). apply IH. intros b I. apply H. now right.
Qed.

Lemma tables_by_name evs R : tables evs R -> tables evs (by_name R).
Proof.
  intros (N & T1 & T2). assert (P : Permutation (by_name R) R) by apply pysort_perm. split; [|split].
  - apply (Permutation_NoDup (l := map fst R)); [|exact N]. apply Permutation_map, Permutation_sym, P.
  - intros sta t I. apply T1. now apply (Permutation_in _ P).
  - intros sta H. apply (Permutation_in _ (Permutation_sym P)). now apply T2.
Qed.

Lemma by_name_sorted R : StronglySorted (fun a b : row => String.leb (fst a) (fst b) = true) (by_name R).
Proof.
  apply (pysort_sorted (fun a b : row => String.leb (fst a) (fst b))).
  - intros x y. apply string_leb_total.
  - intros x y z. apply string_leb_trans.
Qed.

Lemma sorted_filter {A} (P : A -> A -> Prop) f l : StronglySorted P l -> StronglySorted P (filter f l).
Proof.
  induction 1 as [|a l H IH F]; [constructor|]. cbn. destruct (f a); [|exact IH]. constructor; [exact IH|].
  rewrite Forall_forall in *. intros b I. apply filter_In in I. apply F, I.
Qed.

Lemma sorted_map_fst l : StronglySorted (fun a b : row => String.leb (fst a) (fst b) = true) l ->
  StronglySorted (fun a b => String.leb a b = true) (map fst l).
Proof.
  induction 1 as [|a l H IH F]; [constructor|]. cbn [map]. constructor; [exact IH|].
  rewrite Forall_forall in *. intros b I. apply in_map_iff in I. destruct I as (x & <- & I). now apply F.
Qed.

Lemma nodup_filter_fst (f : row -> bool) l : NoDup (map fst l) -> NoDup (map fst (filter f l)).
Proof.
  induction l as [|a l IH]; [constructor|]. cbn [map filter]. inversion 1; subst. destruct (f a); [|auto]. cbn [map]. constructor; [|auto].
  intros I. apply in_map_iff in I. destruct I as (b & E & I). apply filter_In in I. match goal with H : ~ In _ _ |- _ => apply H end.
  rewrite <- E. apply in_map, I.
Qed.

Lemma filter_map_len {A} (f : A -> bool) l : List.length (filter (fun b => b) (map f l)) = List.length (filter f l).
Proof. induction l as [|a l IH]; [reflexivity|]. cbn. destruct (f a); cbn; now rewrite IH. Qed.

Lemma count_true l : count_occ bool_dec l true = List.length (filter (fun b => b) l).
Proof.
  induction l as [| [] l IH]; cbn; [reflexivity | rewrite IH; reflexivity |].
  destruct (bool_dec false true); [discriminate | assumption].
Qed.

Lemma grid_columns N nx g : get_grid N nx = Ok g -> nx <> Some 0%nat.
Proof. intros H ->. unfold get_grid in H. cbn in H. discriminate. Qed.
