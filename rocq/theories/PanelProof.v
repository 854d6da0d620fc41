(** Lemmas on the contents of the plots of results (C114). *)
From Coq Require Import String List Bool Reals Lra Lia Arith.
From Verif Require Import Base Pyf PyfOps StatModel StatSpec StatProof CollectModel CollectSpec CollectProof CollectProof2
  WrapModel WrapSpec WrapProof WrapProof2 WrapProof3 WrapProof4 DepModel DepSpec DepProof PanelModel PanelSpec.
Import ListNotations.
Open Scope string_scope.
Open Scope list_scope.
Open Scope R_scope.

Lemma nth_error_ext {A} : forall l m : list A, (forall i, nth_error l i = nth_error m i) -> l = m.
Proof.
  induction l as [|x l IH]; intros [|y m] H.
  - reflexivity.
  - discriminate (H 0%nat).
  - discriminate (H 0%nat).
  - f_equal; [specialize (H 0%nat); cbn in H; congruence|]. apply IH. intros i. exact (H (S i)).
Qed.

(** ** collected keys *)
Definition keep (keys : list string) (d : evdict) : evdict := filter (fun kv => inb String.eqb (fst kv) keys) d.

Lemma keep_get keys d k : In k keys -> sget (keep keys d) k = sget d k.
Proof.
  intros I. unfold keep. induction d as [|[a b] d IH]; [reflexivity|]. cbn [filter fst].
  destruct (inb String.eqb a keys) eqn:E.
  - cbn [dget]. destruct (String.eqb k a); [reflexivity|exact IH].
  - cbn [dget]. destruct (String.eqb k a) eqn:K; [|exact IH]. apply String.eqb_eq in K. subst a.
    apply (inb_In _ string_eqb_spec) in I. congruence.
Qed.

Lemma keep_known keys d k v : sget (keep keys d) k = Some v -> In k keys.
Proof.
  intros H. apply (dget_In _ string_eqb_spec) in H. unfold keep in H. apply filter_In in H. destruct H as [_ H].
  now apply (inb_In _ string_eqb_spec) in H.
Qed.

Definition keep_all (keys : list string) (events : list (string * option evdict)) : list (string * option evdict) :=
  map (fun e => (fst e, option_map (keep keys) (snd e))) events.

Lemma collect_keep keys freqi events :
  collect_results events (Some keys) freqi = collect_results (keep_all keys events) (Some keys) freqi.
Proof.
  unfold collect_results. f_equal.
  match goal with |- fold_left _ _ ?a = _ => generalize a end.
  induction events as [|[id [d|]] events IH]; intros acc; [reflexivity| |apply (IH acc)]. unfold keep_all. cbn [map fold_left fst snd option_map].
  assert (E : collect_event freqi keys acc (id, Some d) = collect_event freqi keys acc (id, Some (keep keys d))).
  { unfold collect_event. cbn [fst snd].
    assert (K : forall a c, In c keys -> collect_key freqi id d a c = collect_key freqi id (keep keys d) a c).
    { intros a c I. unfold collect_key. destruct a as [a|]; [|reflexivity]. cbn [bind]. unfold dmem.
      destruct (String.eqb c "eventid"); [reflexivity|]. destruct (String.eqb c "R") eqn:CR; cbn [andb].
      - apply String.eqb_eq in CR. subst c. now rewrite keep_get.
      - now rewrite keep_get. }
    clear - K. revert acc. assert (G : forall l, incl l keys -> forall acc,
      fold_left (collect_key freqi id d) l acc = fold_left (collect_key freqi id (keep keys d)) l acc).
    { induction l as [|c l IH]; intros S acc; [reflexivity|]. cbn [fold_left]. rewrite K by (apply S; now left).
      apply IH. intros x X. apply S. now right. }
    intros acc. apply G. apply incl_refl. }
  rewrite E. apply IH.
Qed.

Lemma with_result_keep keys events :
  with_result (keep_all keys events) = map (fun e => (fst e, keep keys (snd e))) (with_result events).
Proof. induction events as [|[id [d|]] events IH]; cbn; [reflexivity|now f_equal|exact IH]. Qed.

Lemma collect_total_keys nf keys events :
  (forall id r, In (id, r) (with_result events) -> forall c v, In c keys -> sget r c = Some v ->
     if String.eqb c "v0" then exists x, v = VNum x
     else if String.eqb c "R" then exists d, v = VSites d /\ forall sta l, In (sta, l) d -> List.length l = nf
     else exists l, v = VList l /\ List.length l = nf) ->
  exists col, collect_results events (Some keys) None = Ok col.
Proof.
  intros H. rewrite collect_keep. apply (collect_total nf None ltac:(discriminate)).
  rewrite with_result_keep. intros id r I. apply in_map_iff in I. destruct I as ([i d] & Q & I). cbn [fst snd] in Q.
  injection Q as -> <-. intros c v G. assert (K := keep_known keys d c v G). rewrite keep_get in G by exact K.
  exact (H id d I c v K G).
Qed.

(** ** tables *)
Lemma table_lists t : table_of (map VList t) = Ok t.
Proof. unfold table_of. induction t as [|x t IH]; cbn; [reflexivity|]. now rewrite IH. Qed.

Notation keys4 := ["g0"; "b"; "error"; "v0"].
Lemma keys4_nodup : NoDup (collected (Some keys4)).
Proof. cbn. repeat constructor; cbn; intuition discriminate. Qed.

Lemma full_lists nf evs c : full nf evs -> In c ["g0"; "b"; "error"] ->
  shape2 (List.length evs) nf (lists_of c evs) /\
  forall i id r l, nth_error evs i = Some (id, r) -> sget r c = Some (VList l) -> nth_error (lists_of c evs) i = Some l.
Proof.
  intros [_ F] I. induction evs as [|[id r] evs IH].
  - split; [split; [reflexivity|intros row []]|intros [|i] ? ? ? [=]].
  - destruct IH as [[S1 S2] P]; [intros i d J; apply (F i d (or_intror J))|].
    destruct (F id r (or_introl eq_refl)) as [F1 _]. destruct (F1 c I) as (l & G & L).
    change (lists_of c ((id, r) :: evs)) with (match sget r c with Some (VList q) => [q] | _ => [] end ++ lists_of c evs).
    rewrite G. cbn [app]. split.
    + split; [cbn; lia|]. intros row [<-|J]; auto.
    + intros [|i] i' r' l' E G'; cbn in *; [congruence|]. exact (P i i' r' l' E G').
Qed.

Lemma full_collected nf events col c : full nf (with_result events) ->
  collect_results events (Some keys4) None = Ok col -> In c ["g0"; "b"; "error"] ->
  collected_table col c = Ok (lists_of c (with_result events)).
Proof.
  intros F E I.
  assert (NE : c <> "eventid") by (cbn in I; intuition (subst; discriminate)).
  assert (NR : c <> "R") by (cbn in I; intuition (subst; discriminate)).
  assert (NV : c <> "v0") by (cbn in I; intuition (subst; discriminate)).
  assert (IK : In c keys4) by (cbn in *; tauto).
  destruct (rows_ok None events (Some keys4) col c keys4_nodup IK NE NR E) as (rows & G & L & P).
  - apply F.
  - intros id r J. destruct F as [_ F]. destruct (F id r J) as [F1 _]. destruct (F1 c I) as (l & G & _).
    apply (dget_In _ string_eqb_spec) in G. apply in_map_iff. exists (c, VList l). auto.
  - unfold collected_table. rewrite G.
    assert (Q : rows = map VList (lists_of c (with_result events))).
    { destruct (full_lists nf _ c F I) as [[S1 S2] A]. apply nth_error_ext. intros i.
      destruct (nth_error (with_result events) i) as [[id r]|] eqn:N.
      - destruct (P i id r N) as (r0 & v & G0 & N0 & V). cbn [value_at] in V. subst v.
        destruct F as [_ F]. destruct (F id r (nth_error_In _ _ N)) as [F1 _]. destruct (F1 c I) as (l & G1 & _).
        rewrite N0, nth_error_map, (A i id r l N G1). cbn. unfold evdict in *. congruence.
      - apply nth_error_None in N. rewrite (proj2 (nth_error_None rows i)), (proj2 (nth_error_None (map VList _) i)); [reflexivity| |lia].
        rewrite map_length. lia. }
    rewrite Q. apply table_lists.
Qed.

Lemma full_velocities nf events col : full nf (with_result events) ->
  collect_results events (Some keys4) None = Ok col ->
  exists l, collected_velocities col = Ok (AArray l) /\ List.length l = List.length (with_result events) /\
    forall i id r, nth_error (with_result events) i = Some (id, r) ->
      exists v, sget r "v0" = Some (VNum (FNum v)) /\ nth_error l i = Some v.
Proof.
  intros F E.
  destruct (rows_ok None events (Some keys4) col "v0" keys4_nodup ltac:(cbn; tauto) ltac:(discriminate) ltac:(discriminate) E) as (rows & G & L & P).
  - apply F.
  - intros id r J. destruct F as [_ F]. destruct (F id r J) as (_ & v & V).
    apply (dget_In _ string_eqb_spec) in V. apply in_map_iff. eexists. split; [|exact V]. reflexivity.
  - unfold collected_velocities. rewrite G.
    assert (H : forall rs (evs : list (string * evdict)), List.length rs = List.length evs ->
       (forall i id r, nth_error evs i = Some (id, r) -> exists v, sget r "v0" = Some (VNum (FNum v)) /\ nth_error rs i = Some (VNum (FNum v))) ->
       exists l, mapM (fun r => match r with VNum (FNum x) => Ok x | _ => Err TypeError end) rs = Ok l /\ List.length l = List.length evs /\
         forall i id r, nth_error evs i = Some (id, r) -> exists v, sget r "v0" = Some (VNum (FNum v)) /\ nth_error l i = Some v).
    { clear. induction rs as [|r rs IH]; intros [|[id d] evs] L P; try discriminate.
      - exists []. split; [reflexivity|]. split; [reflexivity|]. intros [|i] ? ? [=].
      - destruct (IH evs) as (l & E1 & E2 & E3); [now injection L|intros i i' r' N; exact (P (S i) i' r' N)|].
        destruct (P 0%nat id d eq_refl) as (v & V & N). cbn in N. injection N as ->. exists (v :: l). cbn [mapM bind].
        rewrite E1. cbn [bind]. split; [reflexivity|]. split; [cbn; lia|]. intros [|i] i' r' N; cbn in *.
        + injection N as <- <-. eauto.
        + exact (E3 i i' r' N). }
    destruct (H rows (with_result events) L) as (l & E1 & E2 & E3).
    { intros i id r N. destruct (P i id r N) as (r0 & v & V0 & N0 & Q). cbn in Q. subst v.
      destruct F as [_ F]. destruct (F id r (nth_error_In _ _ N)) as (_ & v & V). exists v. split; [exact V|].
      unfold evdict in *. congruence. }
    exists l. rewrite E1. auto.
Qed.

(** ** the velocity *)
Lemma either_missing x : missing x -> either x None = None.
Proof. intros [->| ->]; cbn; [reflexivity|]. destruct (Req_EM_T 0 0); [reflexivity|lra]. Qed.

Lemma either_given x v : given x v -> either x None = Some v.
Proof. intros [-> N]. cbn. destruct (Req_EM_T v 0); [contradiction|reflexivity]. Qed.

Lemma given_or_missing x : missing x \/ exists v, given x v.
Proof.
  unfold missing, given. destruct x as [v|]; [|tauto]. destruct (Req_EM_T v 0) as [->|N]; [tauto|]. right. eauto.
Qed.

Lemma choose_spec nf events col v0 conf : full nf (with_result events) ->
  collect_results events (Some keys4) None = Ok col ->
  exists a, choose_v0 v0 conf col = Ok a /\ velocities (List.length (with_result events)) a /\
    forall i id r v, nth_error (with_result events) i = Some (id, r) -> velocity_for v0 conf r v -> velocity_at a i = Some v.
Proof.
  intros F E. unfold choose_v0.
  destruct (given_or_missing v0) as [M|[v G]].
  - rewrite (either_missing _ M). destruct (given_or_missing conf) as [M2|[v G]].
    + rewrite (either_missing _ M2). destruct (full_velocities nf events col F E) as (l & E1 & E2 & E3).
      exists (AArray l). split; [exact E1|]. split; [exact E2|]. intros i id r v N V. cbn [velocity_at].
      destruct (E3 i id r N) as (v' & V' & N'). rewrite N'. f_equal.
      destruct V as [[G1 G2]|[[_ [G1 G2]]|(_ & _ & V)]].
      * destruct M as [M|M]; congruence.
      * destruct M2 as [M2|M2]; congruence.
      * unfold evdict in *. congruence.
    + rewrite (either_given _ _ G). exists (AScalar v). split; [reflexivity|]. split; [exact I|].
      intros i id r w N V. cbn. f_equal. destruct G as [G GN]. destruct V as [[G1 G2]|[[_ [G1 G2]]|(_ & M2 & V)]].
      * destruct M as [M|M]; congruence.
      * congruence.
      * destruct M2; congruence.
  - rewrite (either_given _ _ G). exists (AScalar v). split; [reflexivity|]. split; [exact I|].
    intros i id r w N V. cbn. f_equal. destruct G as [G GN]. destruct V as [[G1 G2]|[[M _]|(M & _)]].
    + congruence.
    + destruct M; congruence.
    + destruct M; congruence.
Qed.

(** ** means *)
Section Means.
  Variable rlm : list R -> R * R.

  Lemma column_gerr_mean data ws robust p : column_gerr rlm data ws robust = Ok p ->
    column_mean rlm data ws robust = Ok (mp_mean p).
  Proof.
    unfold column_gerr, column_mean, gmean. destruct ws as [ws|].
    - assert (FE : forallb (fun xw : pyf * pyf => match log_masked (fst xw) with Some _ => is_num (snd xw) | None => true end) (combine data ws) =
                   forallb (fun xw : pyf * pyf => match log_masked (fst xw), snd xw with
                              | Some _, FNum _ => true | Some _, _ => false | None, _ => true end) (combine data ws)).
      { generalize (combine data ws). intros l. induction l as [|[x w] l IH]; [reflexivity|]. cbn [forallb fst snd]. rewrite IH. reflexivity. }
      rewrite FE. destruct (forallb _ _).
      + destruct (gstat rlm data _ true robust 5) as [me|]; cbn [bind]; [|discriminate]. now intros [= <-].
      + now intros [= <-].
    - destruct (gstat rlm data None true robust 5) as [me|]; cbn [bind]; [|discriminate]. now intros [= <-].
  Qed.

  Lemma mapM_maps {A B C} (f : A -> res B) (g : A -> res C) (h : B -> C) l r :
    (forall a b, f a = Ok b -> g a = Ok (h b)) -> mapM f l = Ok r -> mapM g l = Ok (map h r).
  Proof.
    intros H. revert r. induction l as [|a l IH]; intros r E; cbn [mapM] in *; [now injection E as <-|].
    destruct (f a) as [b|] eqn:FA; [|discriminate]. cbn [bind] in E. destruct (mapM f l) as [r'|]; [|discriminate]. cbn [bind] in E.
    injection E as <-. rewrite (H a b FA). cbn [bind]. rewrite (IH r' eq_refl). reflexivity.
  Qed.

  Lemma table_gerr_means rows ws robust m : table_gerr rlm rows ws robust = Ok m ->
    mean_list rlm rows ws robust = Ok (map mp_mean m).
  Proof.
    unfold table_gerr, mean_list. destruct ws as [w|].
    - destruct (same_shape rows w); [|discriminate]. apply mapM_maps. intros j b. apply column_gerr_mean.
    - apply mapM_maps. intros j b. apply column_gerr_mean.
  Qed.

  Lemma table_gerr_length rows ws robust m : table_gerr rlm rows ws robust = Ok m -> List.length m = ncols rows.
  Proof.
    unfold table_gerr. destruct ws as [w|].
    - destruct (same_shape rows w); [|discriminate]. intros H. apply mapM_length in H. now rewrite seq_length in H.
    - intros H. apply mapM_length in H. now rewrite seq_length in H.
  Qed.

  Lemma column_gerr_total data ws robust : ws = None \/ robust = false -> exists p, column_gerr rlm data ws robust = Ok p.
  Proof.
    unfold column_gerr, gstat. intros [->| ->].
    - destruct robust; cbn [bind]; eauto.
    - destruct ws as [ws|]; [|cbn [bind]; eauto]. destruct (forallb _ _); [|eauto]. cbn [bind]. eauto.
  Qed.

  Lemma table_gerr_total rows ws robust : ws = None \/ robust = false ->
    (forall w, ws = Some w -> same_shape rows w = true) -> exists m, table_gerr rlm rows ws robust = Ok m.
  Proof.
    intros H S. unfold table_gerr. destruct ws as [w|].
    - rewrite (S w eq_refl). apply mapM_ok. intros j _. apply column_gerr_total. destruct H as [H|H]; [discriminate|now right].
    - apply mapM_ok. intros j _. apply column_gerr_total. now left.
  Qed.

  Lemma shape2_rect ne nf rows : shape2 ne nf rows -> rows <> [] -> rect rows /\ ncols rows = nf.
  Proof.
    intros [S1 S2] N. destruct rows as [|r rows]; [congruence|]. cbn [ncols]. split; [|apply S2; now left].
    intros row J. cbn [ncols]. now rewrite (S2 row J), (S2 r (or_introl eq_refl)).
  Qed.

  Lemma weights_shape mean nf events col : full nf (with_result events) ->
    collect_results events (Some keys4) None = Ok col ->
    exists ws, weights_of mean col = Ok ws /\ (ws = None \/ robust_of mean = false) /\
      (ws = None <-> mean <> Some "weighted") /\
      forall w, ws = Some w -> w = map (map finv) (lists_of "error" (with_result events)).
  Proof.
    intros F E. unfold weights_of. destruct mean as [m|].
    - destruct (String.eqb m "weighted") eqn:Q.
      + rewrite (full_collected nf events col "error" F E ltac:(cbn; tauto)). cbn [bind]. eexists. split; [reflexivity|].
        apply String.eqb_eq in Q. subst m. split; [now right|]. split; [split; [discriminate|congruence]|]. now intros w [= <-].
      + exists None. split; [reflexivity|]. split; [now left|]. apply String.eqb_neq in Q. split; [split; congruence|discriminate].
    - exists None. split; [reflexivity|]. split; [now left|]. split; [split; congruence|discriminate].
  Qed.

  (** ** the panels *)
  Section Plot.
    Variable events : list (string * option evdict).
    Variable freq : list R.
    Notation evs := (with_result events).
    Hypothesis FULL : full (List.length freq) evs.

    Lemma from_depmap q c : calculated_from q c ->
      dget String.eqb DEPMAP q = Some c /\ q <> "nobs" /\ In c ["g0"; "b"; "error"] /\ In q quantities.
    Proof.
      intros H. cbn in H. repeat destruct H as [[= <- <-]|H]; [..|destruct H]; (split; [reflexivity|split; [discriminate|split; cbn; tauto]]).
    Qed.

    Lemma lists_nonempty c : In c ["g0"; "b"; "error"] -> lists_of c evs <> [].
    Proof.
      intros I E. destruct (full_lists _ _ c FULL I) as [[S1 _] _]. rewrite E in S1. destruct FULL as [N _].
      destruct evs; [congruence|discriminate].
    Qed.

    Lemma finv_shape rows rows2 : shape2 (List.length evs) (List.length freq) rows -> shape2 (List.length evs) (List.length freq) rows2 ->
      same_shape rows (map (map finv) rows2) = true.
    Proof.
      intros S S2. assert (NE := proj1 FULL). unfold same_shape. rewrite map_length, ncols_finv.
      assert (rows <> []) by (destruct S as [S _]; intros ->; destruct evs; [congruence|discriminate]).
      assert (rows2 <> []) by (destruct S2 as [S2 _]; intros ->; destruct evs; [congruence|discriminate]).
      rewrite (proj2 (shape2_rect _ _ _ S H)), (proj2 (shape2_rect _ _ _ S2 H0)), Nat.eqb_refl.
      destruct S as [-> _]. destruct S2 as [-> _]. now rewrite Nat.eqb_refl.
    Qed.

    (** the panel of a quantity *)
    Lemma panel_spec col ws mean a q c v0 conf : collect_results events (Some keys4) None = Ok col ->
      choose_v0 v0 conf col = Ok a -> weights_of mean col = Ok ws -> calculated_from q c ->
      exists dots means rows,
        result_panel rlm freq col ws (robust_of mean) a q = Ok (PMeans dots means) /\
        calc_dependent q (N2 (lists_of c evs)) (AArray freq) a = Ok (Some (N2 rows)) /\
        shape2 (List.length evs) (List.length freq) rows /\
        dots = flat_map (combine freq) rows /\ map fst means = freq /\
        table_gerr rlm rows ws (robust_of mean) = Ok (map snd means).
    Proof.
      intros E A W Q. destruct (from_depmap q c Q) as (D & NQ & IC & IQ).
      destruct (choose_spec _ events col v0 conf FULL E) as (a' & A' & V & _). rewrite A in A'. injection A' as <-.
      destruct (full_lists _ _ c FULL IC) as [SH _].
      destruct (calc2 q _ freq a _ _ IQ SH eq_refl V) as (rows & CR & SR & _).
      destruct (weights_shape mean _ events col FULL E) as (ws' & W' & WR & _ & WS). rewrite W in W'. injection W' as <-.
      assert (NR : rows <> []).
      { destruct SR as [SR _]. intros ->. destruct FULL as [N _]. destruct evs; [congruence|discriminate]. }
      destruct (table_gerr_total rows ws (robust_of mean) WR) as (m & M).
      { intros w WE. rewrite (WS w WE). apply finv_shape; [exact SR|]. apply (full_lists _ _ "error" FULL). cbn; tauto. }
      assert (LM := table_gerr_length _ _ _ _ M). rewrite (proj2 (shape2_rect _ _ _ SR NR)) in LM.
      exists (flat_map (combine freq) rows), (combine freq m), rows.
      assert (AD : all_dots freq rows = Ok (flat_map (combine freq) rows)).
      { unfold all_dots. replace (forallb _ rows) with true; [reflexivity|]. symmetry. apply forallb_forall. intros row J.
        apply Nat.eqb_eq. now apply SR. }
      split; [|split; [exact CR|split; [exact SR|split; [reflexivity|]]]].
      - unfold result_panel. rewrite (proj2 (String.eqb_neq q "nobs") NQ), D.
        rewrite (full_collected _ events col c FULL E IC). cbn [bind]. rewrite CR. cbn [bind]. rewrite AD. cbn [bind]. rewrite M. cbn [bind].
        unfold all_means. rewrite LM, Nat.eqb_refl. reflexivity.
      - assert (X : forall (l : list R) (k : list mean_point), List.length l = List.length k -> map fst (combine l k) = l /\ map snd (combine l k) = k).
        { clear. induction l as [|x l IH]; intros [|y k] H; try discriminate; [auto|]. injection H as H. destruct (IH k H) as [A B].
          cbn. now rewrite A, B. }
        destruct (X freq m (eq_sym LM)) as [X1 X2]. rewrite X1, X2. auto.
    Qed.

    Lemma collect4_total : exists col, collect_results events (Some keys4) None = Ok col.
    Proof.
      apply (collect_total_keys (List.length freq)). intros id r J c v I G. destruct FULL as [_ F]. destruct (F id r J) as [F1 (x & V)].
      cbn in I. destruct I as [<-|[<-|[<-|[<-|[]]]]]; cbn.
      - destruct (F1 "g0" ltac:(cbn; tauto)) as (l & G1 & L). exists l. unfold evdict in *. split; [congruence|exact L].
      - destruct (F1 "b" ltac:(cbn; tauto)) as (l & G1 & L). exists l. unfold evdict in *. split; [congruence|exact L].
      - destruct (F1 "error" ltac:(cbn; tauto)) as (l & G1 & L). exists l. unfold evdict in *. split; [congruence|exact L].
      - exists (FNum x). unfold evdict in *. congruence.
    Qed.

    Lemma bars_spec col ws robust a : collect_results events (Some keys4) None = Ok col ->
      exists bars, result_panel rlm freq col ws robust a "nobs" = Ok (PBars bars) /\ map fst bars = freq /\
        forall j, (j < List.length freq)%nat -> nth_error (map snd bars) j = Some (count (at_freq j (lists_of "g0" evs))).
    Proof.
      intros E. unfold result_panel. cbn [String.eqb]. rewrite (full_collected _ events col "g0" FULL E ltac:(cbn; tauto)).
      destruct (full_lists _ _ "g0" FULL ltac:(cbn; tauto)) as [SH _].
      assert (NL := lists_nonempty "g0" ltac:(cbn; tauto)). destruct (shape2_rect _ _ _ SH NL) as [_ NC].
      set (rows := lists_of "g0" evs) in *.
      assert (LC : List.length (count_numbers rows) = List.length freq) by (unfold count_numbers; now rewrite map_length, seq_length).
      cbn [bind]. rewrite LC, Nat.eqb_refl. eexists. split; [reflexivity|].
      assert (X : forall (l : list R) (k : list nat), List.length l = List.length k -> map fst (combine l k) = l /\ map snd (combine l k) = k).
      { clear. induction l as [|x l IH]; intros [|y k] H; try discriminate; [auto|]. injection H as H. destruct (IH k H) as [A B].
        cbn. now rewrite A, B. }
      destruct (X freq (count_numbers rows) (eq_sym LC)) as [-> ->]. split; [reflexivity|]. intros j J.
      unfold count_numbers. rewrite NC. rewrite nth_error_map.
      rewrite (nth_error_nth' (seq 0 (List.length freq)) 0%nat) by (now rewrite seq_length). rewrite seq_nth by exact J. cbn [option_map Nat.add].
      f_equal. unfold count, column, at_freq. f_equal. induction rows as [|r rs IH] in |- *; [reflexivity|]. cbn [map filter].
      rewrite IH. now destruct (nth j r FNan).
    Qed.
  End Plot.
End Means.
