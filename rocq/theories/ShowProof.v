(** Lemmas on the choice of values by plots. *)
From Coq Require Import String List Bool ZArith Reals Lra.
From Verif Require Import Base Pyf StatModel RunModel RunProof RunProof2 DepModel ShowModel ShowSpec.
Import ListNotations.
Open Scope string_scope.
Open Scope list_scope.

Lemma jget_dict : forall j k v, jget j k = Ok v -> exists d, j = JDict d /\ dget String.eqb d k = Some v.
Proof. intros [] k v H; cbn in H; try discriminate. exists d. split; [reflexivity |]. destruct (dget String.eqb d k); congruence. Qed.

Lemma jset_get : forall j k v j2, jset j k v = Ok j2 -> exists d, j = JDict d /\ j2 = JDict (dset String.eqb d k v).
Proof. intros [] k v j2 H; cbn in H; try discriminate. exists d. split; [reflexivity | congruence]. Qed.

Section W.
  Context {E : Type}.
  Variable w : world E.

  (** values of the event in the file are those of the event given to the plots *)
  Lemma plot_input_file : forall conf id args result args2 file a,
    load_results (w_json w) args "input" = Ok (file, a) -> plot_input w conf (Some id) args = Ok (result, args2) ->
    exists d e evs, result = JDict d /\ dget String.eqb d "events" = Some (JDict [(id, e)]) /\
      jget file "events" = Ok evs /\ jget evs id = Ok e.
  Proof.
    intros conf id args result args2 file a L H. unfold plot_input in H. rewrite L in H. cbn [bind] in H.
    assert (G : exists r2 a2, jget r2 "events" = jget file "events" /\
      (do evs <- jget r2 "events"; do e <- jget evs id; do r <- jset r2 "events" (JDict [(id, e)]); Ok (r, a2)) = Ok (result, args2)).
    { destruct conf.
      - destruct (jset file "config" (JDict a)) as [r|] eqn:J; cbn [bind] in H; [|discriminate].
        exists r, a. apply jset_get in J. destruct J as [d [-> ->]]. split.
        + cbn [jget]. now rewrite (dget_dset_neq _ string_eqb_spec) by discriminate.
        + cbn [bind] in *. destruct (jget _ "events"); cbn [bind] in *; [|discriminate]. destruct (jget a0 id); cbn [bind] in *; [|discriminate]. exact H.
      - destruct (jget file "config") as [c|]; cbn [bind] in H; [|discriminate]. destruct c; try discriminate.
        destruct (jset file "config" _) as [r|] eqn:J; cbn [bind] in H; [|discriminate].
        exists r, (dupdate String.eqb d a). apply jset_get in J. destruct J as [d2 [-> ->]]. split.
        + cbn [jget]. now rewrite (dget_dset_neq _ string_eqb_spec) by discriminate.
        + cbn [bind] in *. destruct (jget _ "events"); cbn [bind] in *; [|discriminate]. destruct (jget a0 id); cbn [bind] in *; [|discriminate]. exact H. }
    clear H. destruct G as [r2 [a2 [EQ H]]]. rewrite EQ in H.
    destruct (jget file "events") as [evs|]; cbn [bind] in H; [|discriminate].
    destruct (jget evs id) as [e|] eqn:EV; cbn [bind] in H; [|discriminate].
    destruct (jset r2 "events" _) as [r3|] eqn:J; cbn [bind] in H; [|discriminate].
    assert (result = r3) by congruence. subst r3. apply jset_get in J. destruct J as [d [-> ->]].
    exists (dset String.eqb d "events" (JDict [(id, e)])), e, evs.
    split; [reflexivity|]. split; [now rewrite (dget_dset_eq _ string_eqb_spec)|]. auto.
  Qed.

  Lemma eventresult_event : forall conf id args result args2 file a evs e vals,
    load_results (w_json w) args "input" = Ok (file, a) -> plot_input w conf (Some id) args = Ok (result, args2) ->
    jget file "events" = Ok evs -> jget evs id = Ok (JDict e) -> NoDup (map fst e) ->
    eventresult_values true result = Ok vals ->
    forall k v, dget String.eqb e k = Some v -> dget String.eqb vals k = Some v.
  Proof.
    intros conf id args result args2 file a evs e vals L H E1 E2 N V k v G.
    destruct (plot_input_file _ _ _ _ _ _ _ L H) as [d [e' [evs' [-> [D [E3 E4]]]]]].
    rewrite E1 in E3. assert (evs' = evs) by congruence. subst evs'. rewrite E2 in E4. assert (e' = JDict e) by congruence. subst e'.
    cbn [eventresult_values] in V. rewrite D in V. assert (vals = dupdate String.eqb (dpop String.eqb d "events") e) by congruence. subst vals.
    apply (dupdate_get_in _ string_eqb_spec); [assumption|]. now apply (dget_In _ string_eqb_spec).
  Qed.

  (** recalc_source *)
  Lemma recalc_config : forall eventid args result r e k,
    postprocess w "recalc_source" None eventid args (Some result) = Ok (Some r, e) -> In k settings ->
    NoDup (map fst args) ->
    exists c, jget r "config" = Ok (JDict c) /\ dget String.eqb c k = Some (getd args k JNull).
  Proof.
    intros eventid args result r e k H I N. unfold postprocess in H. rewrite String.eqb_refl in H. cbv zeta in H.
    unfold popd in H. cbv iota beta in H.
    destruct (w_source w result _) as [r1|]; cbn [bind] in H; [|discriminate].
    match type of H with context [update_config r1 ?l] => set (kw := l) in * end.
    destruct (update_config r1 kw) as [r2|] eqn:U; cbn [bind] in H; [|discriminate].
    destruct (plot _ _ _ _) as [e2|]; cbn [bind] in H; [|discriminate]. assert (r = r2) by congruence. subst r2.
    unfold update_config in U. destruct r1; try discriminate. destruct (getd d "config" (JDict [])) as [| | | | |c|] eqn:C; try discriminate.
    assert (r = JDict (dset String.eqb d "config" (JDict (dupdate String.eqb c kw)))) by congruence. subst r.
    exists (dupdate String.eqb c kw). split; [cbn [jget]; now rewrite (dget_dset_eq _ string_eqb_spec)|].
    assert (NK : NoDup (map fst kw)).
    { cbn. constructor; [intros [X|[]]; discriminate|]. constructor; [intros []|constructor]. }
    destruct I as [<-|[<-|[]]].
    - apply (dupdate_get_in _ string_eqb_spec); [assumption|]. now left.
    - apply (dupdate_get_in _ string_eqb_spec); [assumption|]. right; left. f_equal.
      unfold getd. now rewrite (dget_dpop_neq _ string_eqb_spec) by discriminate.
  Qed.

  Lemma recalc_given : forall eventid args result r e k v,
    postprocess w "recalc_source" None eventid args (Some result) = Ok (Some r, e) -> In k settings ->
    NoDup (map fst args) -> dget String.eqb args k = Some v -> truthy v = true ->
    exists c, jget r "config" = Ok (JDict c) /\ source_setting JNull c k = v.
  Proof.
    intros eventid args result r e k v H I N G T. destruct (recalc_config _ _ _ _ _ _ H I N) as [c [C D]].
    exists c. split; [assumption|]. unfold source_setting, jor; cbn [truthy]. unfold getd. rewrite D. unfold getd. now rewrite G.
  Qed.

  Lemma recalc_lost : forall eventid args result r e k,
    postprocess w "recalc_source" None eventid args (Some result) = Ok (Some r, e) -> In k settings ->
    NoDup (map fst args) -> dget String.eqb args k = None ->
    exists c, jget r "config" = Ok (JDict c) /\ source_setting JNull c k = JNull.
  Proof.
    intros eventid args result r e k H I N G. destruct (recalc_config _ _ _ _ _ _ H I N) as [c [C D]].
    exists c. split; [assumption|]. unfold source_setting, jor; cbn [truthy]. unfold getd. rewrite D. unfold getd. now rewrite G.
  Qed.

  Lemma recalc_sds : forall eventid args result r e,
    postprocess w "recalc_source" None eventid args (Some result) = Ok (Some r, e) ->
    NoDup (map fst args) -> dget String.eqb args "seismic_moment_options" = None ->
    exists o, sds_options JNull r = Ok o /\
      forall freq omM pars method colored, (exists x, In x omM /\ x <> FNan) ->
        plot_sds freq omM pars method (pars_of o) colored = Err AttributeError.
  Proof.
    intros eventid args result r e H N G.
    destruct (recalc_config _ _ _ _ _ "seismic_moment_options" H ltac:(right; left; reflexivity) N) as [c [C D]].
    apply jget_dict in C. destruct C as [d [-> C]]. exists JNull. unfold sds_options, getd. rewrite C, D. unfold getd. rewrite G.
    split; [reflexivity|]. intros freq omM pars method colored [x [I X]]. unfold plot_sds.
    destruct (forallb fisnan omM) eqn:F; [|reflexivity]. rewrite forallb_forall in F. specialize (F x I). destruct x; try discriminate. congruence.
  Qed.
End W.

(** ** All results *)

Lemma results_separate : forall v0 result e v r, first_event result = Ok e -> jin e "g0" = Ok true ->
  plot_results_v0 v0 result = Ok (v, r) -> r = result.
Proof.
  intros v0 result e v r F G H. unfold plot_results_v0 in H. rewrite F in H. cbn [bind] in H. rewrite G in H. cbn [bind] in H.
  destruct (jget (JDict result) "config") as [c|]; cbn [bind] in H; [|discriminate]. destruct c; try discriminate.
  destruct (if truthy _ then _ else _); cbn [bind] in H; [congruence|discriminate].
Qed.

Lemma results_simultaneous : forall v0 result e v r, first_event result = Ok e -> jin e "g0" = Ok false ->
  NoDup (map fst result) -> plot_results_v0 v0 result = Ok (v, r) ->
  dget String.eqb r "v0" = None /\ forall k, k <> "v0" -> dget String.eqb r k = dget String.eqb result k.
Proof.
  intros v0 result e v r F G N H. unfold plot_results_v0 in H. rewrite F in H. cbn [bind] in H. rewrite G in H. cbn [bind] in H.
  destruct (jget (JDict result) "config") as [c|]; cbn [bind] in H; [|discriminate]. destruct c; try discriminate.
  destruct (if truthy _ then _ else _); cbn [bind] in H; [|discriminate].
  assert (r = dpop String.eqb result "v0") by congruence. subst r. split.
  - now apply (dget_dpop_eq _ string_eqb_spec).
  - intros k K. now apply (dget_dpop_neq _ string_eqb_spec).
Qed.

(** ** Simultaneous inversion *)
Open Scope R_scope.

Lemma gmean_single : forall rlm x, 0 < x -> gmean rlm [FNum x] None true 5 = Ok (Some x).
Proof.
  intros rlm x H. unfold gmean, gstat. cbn [map bind log_masked]. destruct (Rlt_dec 0 x) as [_|N]; [|contradiction].
  unfold robust_stat, weighted_stat, average. cbn -[INR IZR exp ln Rdiv]. do 2 f_equal.
  replace (INR 1) with 1 by reflexivity. replace ((ln x + 0) / 1) with (ln x) by field. now apply exp_ln.
Qed.

Lemma single_robust : forall rlm (freq value : list R), (forall x, In x value -> 0 < x) ->
  List.length freq = List.length value ->
  single_points rlm freq (map FNum value) None true = Ok (combine freq (map Some value)).
Proof.
  intros rlm freq value P L. unfold single_points, single_means.
  assert (M : mapM (fun x => gmean rlm [x] None true 5) (map FNum value) = Ok (map Some value)).
  { clear L. induction value as [|x l IH]; [reflexivity|]. cbn [map mapM]. rewrite gmean_single by (apply P; now left). cbn [bind].
    rewrite IH by (intros; apply P; now right). reflexivity. }
  rewrite M. cbn [bind]. rewrite map_length, L, Nat.eqb_refl. reflexivity.
Qed.

Lemma single_plain : forall rlm (freq : list R) (value : list pyf) ws, List.length freq <> 1%nat ->
  single_points rlm freq value ws false = Err ValueError.
Proof.
  intros rlm freq value ws L. unfold single_points, single_means. unfold gmean, gstat. cbn [bind].
  cbn [List.length]. destruct (Nat.eqb_spec (List.length freq) 1); [contradiction|reflexivity].
Qed.
