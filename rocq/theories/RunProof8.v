(** Lemmas about run: what is read for the inversion. *)
From Coq Require Import String List Bool ZArith Arith.
From Verif Require Import Base RunModel RunSpec RunSpec2 RunProof RunProof2 RunProof3.
Import ListNotations.
Open Scope string_scope.
Open Scope list_scope.

Section Run.
  Context {E : Type} (w : world E).

  Lemma load_reads cmd align gw args l :
    load w cmd align gw args = Ok l -> cmd <> "recalc_source" ->
    exists inv0 inv ev0 evs g,
      get args "inventory" = Some inv0 /\ w_inventory w inv0 (getd args "filter_inventory" JNull) = Ok inv /\
      get args "events" = Some ev0 /\
      w_events w (Some inv) ev0 [("filter_events", getd args "filter_events" JNull);
                                 ("resolve_seedid", getd args "resolve_seedid" (JBool false));
                                 ("read_events_kwargs", getd args "read_events_kwargs" (JDict []))] = Ok evs /\
      w_data w gw [("data", getd args "data" JNull); ("client_options", getd args "client_options" JNull);
                   ("plugin", getd args "plugin" JNull); ("cache_waveforms", getd args "cache_waveforms" JNull)] = Ok g /\
      l_inventory l = Some inv /\ l_events l = Some (evs, g).
  Proof.
    intros H N. unfold load in H. apply String.eqb_neq in N. rewrite N in H. cbn [negb orb] in H.
    destruct (load_inventory w args) as [[inv a]|] eqn:LI; cbn [bind fst snd] in H; [|discriminate].
    assert (G0 : forall k, k <> "inventory" -> k <> "filter_inventory" -> get a k = get args k).
    { intros k N1 N2. exact (load_inv_args w _ _ _ k LI N1 N2). }
    assert (G : forall k x, k <> "inventory" -> k <> "filter_inventory" -> getd a k x = getd args k x).
    { intros k x N1 N2. unfold getd. now rewrite G0. }
    unfold load_inventory, popd in LI. destruct (get args "inventory") as [inv0|] eqn:I0; [|discriminate].
    assert (F : getd (dpop String.eqb args "inventory") "filter_inventory" JNull = getd args "filter_inventory" JNull).
    { unfold getd. now rewrite (dget_dpop_neq _ sspec) by discriminate. }
    rewrite F in LI.
    destruct (w_inventory w inv0 _) as [inv1|] eqn:WI; cbn [bind] in LI; [|discriminate]. assert (inv1 = inv) by congruence. subst inv1. clear LI.
    unfold load_events in H. rewrite (G0 "events") in H by discriminate. destruct (get args "events") as [ev0|] eqn:EV; cbn [bind] in H; [|discriminate].
    destruct (w_events _ _ _ _) as [evs|] eqn:WE; cbn [bind] in H; [|discriminate].
    destruct (w_data _ _ _) as [g|] eqn:WD; cbn [bind] in H; [|discriminate]. injection H as <-. cbn [l_inventory l_events].
    exists inv0, inv, ev0, evs, g. cbn [map] in WD. rewrite !G in WE by discriminate. rewrite !G in WD by discriminate. auto 8.
  Qed.

  Lemma arguments_inv align i g args kw a :
    arguments align (Some i) (Some g) args = (kw, a) -> get a "inventory" = Some i /\ get a "get_waveforms" = Some g.
  Proof.
    unfold arguments. intros H. injection H as _ <-. rewrite !get_set. split; reflexivity.
  Qed.

  Lemma data_read cmd conf tut eventid gw pm plots args r e d :
    distinct args -> distinct d -> config_is (w_conf w) conf d -> In cmd inverting ->
    run w cmd conf tut eventid gw pm plots args = Ok (r, e) -> (r, e) <> (JNull, []) ->
    let look k := override d args k in
    exists a evs r0 inv0 inv ev0 evs0 g,
      w_invert w (or_default (look "align_sites") (JBool false)) a (Some evs) = Ok r0 /\
      look "inventory" = Some inv0 /\ w_inventory w inv0 (or_default (look "filter_inventory") JNull) = Ok inv /\
      look "events" = Some ev0 /\
      w_events w (Some inv) ev0 [("filter_events", or_default (look "filter_events") JNull);
                                 ("resolve_seedid", or_default (look "resolve_seedid") (JBool false));
                                 ("read_events_kwargs", or_default (look "read_events_kwargs") (JDict []))] = Ok evs0 /\
      w_data w gw [("data", or_default (look "data") JNull); ("client_options", or_default (look "client_options") JNull);
                   ("plugin", or_default (look "plugin") JNull); ("cache_waveforms", or_default (look "cache_waveforms") JNull)] = Ok g /\
      dget String.eqb a "inventory" = Some inv /\ dget String.eqb a "get_waveforms" = Some g /\
      (eventid = None -> evs = evs0) /\ (forall ev, In ev evs -> In ev evs0).
  Proof.
    intros Da Dd C I H N look. destruct (inverting_cmd cmd I) as (IC & N1 & N2 & N3 & N4).
    destruct (run_prepared_ex w _ _ _ _ _ _ _ _ _ _ IC N1 N2 H N) as (p & P).
    rewrite (run_prepared_by w _ _ _ _ _ _ _ _ _ IC N1 N2 P) in H.
    destruct (run_prepared_steps w _ _ _ _ _ _ _ I H N)
      as (l & inv' & evs0' & g' & evs & kw & a & ri & a2 & r0 & e0 & L & Li & Le & S & A & LI & W & PP).
    rewrite (align_sites_value _ _ _ _ _ _ _ Da Dd C P) in *. fold (look "align_sites") in L, A, W.
    destruct (load_reads _ _ _ _ _ L N3) as (inv0 & inv & ev0 & evs0 & g & Q1 & Q2 & Q3 & Q4 & Q5 & Q6 & Q7).
    assert (inv' = inv) by congruence. assert (evs0' = evs0) by congruence. assert (g' = g) by congruence. subst inv' evs0' g'.
    assert (G0 : forall k, In k data_options -> k <> "align_sites" -> get (dpop String.eqb (p_args p) "align_sites") k = look k).
    { intros k K KN. rewrite (dget_dpop_neq _ sspec) by assumption.
      apply (precedence_other _ _ _ _ _ _ _ Da Dd C P). cbn in K.
      repeat (destruct K as [<-|K]; [split; [discriminate|]; split; [cbn; intuition discriminate|];
                                     split; [cbn; intuition discriminate|right; cbn; intuition discriminate]|]). destruct K. }
    assert (G : forall k x, In k data_options -> k <> "align_sites" -> getd (dpop String.eqb (p_args p) "align_sites") k x = or_default (look k) x).
    { intros k x K KN. unfold getd. now rewrite G0. }
    assert (MI : forall k, In k data_options -> get (if inb String.eqb cmd ["fixed"; "source"]
                     then match ri with Some r => dset String.eqb a2 "input" r | None => a2 end else a2) k = get a k).
    { intros k K. assert (k <> "input" /\ k <> "input_sites") as [K1 K2].
      { cbn in K. repeat (destruct K as [<-|K]; [split; discriminate|]). destruct K. }
      rewrite <- (load_input_args w _ _ _ _ k LI) by assumption. destruct (inb _ _ _); [|reflexivity]. destruct ri; [|reflexivity].
      rewrite get_set. apply String.eqb_neq in K1. now rewrite K1. }
    destruct (arguments_inv _ _ _ _ _ _ A) as [A1 A2].
    eexists _, evs, r0, inv0, inv, ev0, evs0, g. split; [exact W|].
    rewrite !G0 in Q1 by (try discriminate; cbn; tauto). split; [exact Q1|].
    rewrite !G in Q2 by (try discriminate; cbn; tauto). split; [exact Q2|].
    rewrite !G0 in Q3 by (try discriminate; cbn; tauto). split; [exact Q3|].
    rewrite !G in Q4 by (try discriminate; cbn; tauto). split; [exact Q4|].
    rewrite !G in Q5 by (try discriminate; cbn; tauto). split; [exact Q5|].
    split; [rewrite MI by (cbn; tauto); exact A1|]. split; [rewrite MI by (cbn; tauto); exact A2|].
    unfold select_event in S. split.
    - intros ->. congruence.
    - destruct eventid as [id|]; [|intros; congruence]. destruct (String.eqb id ""); [intros; congruence|].
      destruct (filter _ evs0) as [|x xs] eqn:F; [destruct evs0; discriminate|]. injection S as <-.
      intros ev J. rewrite <- F in J. apply filter_In in J. tauto.
  Qed.
End Run.
