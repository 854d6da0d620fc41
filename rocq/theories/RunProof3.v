(** Lemmas about run: what reaches the inversion. *)
From Coq Require Import String List Bool ZArith Arith.
From Verif Require Import Base RunModel RunSpec RunProof RunProof2.
Import ListNotations.
Open Scope string_scope.
Open Scope list_scope.

Section Run.
  Context {E : Type} (w : world E).

  Lemma load_results_args read_json args name j a k :
    load_results read_json args name = Ok (j, a) -> k <> name -> get a k = get args k.
  Proof.
    unfold load_results. intros H N.
    assert (Z : a = dpop String.eqb args name -> get a k = get args k).
    { intros ->. now apply (dget_dpop_neq _ sspec). }
    destruct (get args name) as [[]|]; try discriminate; try (injection H as _ <-; now apply Z).
    destruct (read_json s); cbn in H; [|discriminate]. injection H as _ <-. now apply Z.
  Qed.

  Lemma get_pops_other ks : forall (d : dict) k, ~ In k ks ->
    get (fold_left (fun a k => dpop String.eqb a k) ks d) k = get d k.
  Proof.
    induction ks as [|k0 ks IH]; intros d k N; cbn; [reflexivity|].
    rewrite IH by (intros I; apply N; now right). apply (dget_dpop_neq _ sspec). intros ->. apply N. now left.
  Qed.

  Lemma load_inv_args args i a k :
    load_inventory w args = Ok (i, a) -> k <> "inventory" -> k <> "filter_inventory" -> get a k = get args k.
  Proof.
    unfold load_inventory, popd. intros H N1 N2. destruct (get args "inventory") as [v|]; [|discriminate].
    destruct (w_inventory _ _ _); cbn in H; [|discriminate]. injection H as _ <-.
    rewrite (dget_dpop_neq _ sspec) by assumption. now apply (dget_dpop_neq _ sspec).
  Qed.

  Lemma load_args cmd align gw args l k :
    load w cmd align gw args = Ok l -> ~ In k data_options -> get (l_args l) k = get args k.
  Proof.
    intros H N. unfold load in H.
    set (all := negb (String.eqb cmd "recalc_source")) in H.
    assert (N1 : k <> "inventory") by (intros ->; apply N; cbn; tauto).
    assert (N2 : k <> "filter_inventory") by (intros ->; apply N; cbn; tauto).
    assert (N3 : ~ In k taken_events) by (intros I; apply N; cbn in I |- *; tauto).
    assert (exists i a, (if (all || align)%bool
              then do ia <- load_inventory w args; Ok (Some (fst ia), snd ia)
              else Ok (None, args)) = Ok (i, a) /\ get a k = get args k) as (i & a & Eq & G).
    { destruct (all || align)%bool.
      - destruct (load_inventory w args) as [[i a]|] eqn:LI; cbn in H |- *; [|discriminate].
        exists (Some i), a. split; [reflexivity|]. eapply load_inv_args; eauto.
      - exists None, args. auto. }
    rewrite Eq in H. cbn [bind] in H. destruct all.
    - unfold load_events in H. destruct (get a "events") as [ev|]; cbn [bind] in H; [|discriminate].
      destruct (w_events _ _ _ _) as [evs|]; cbn [bind] in H; [|discriminate].
      destruct (w_data _ _ _) as [g|]; cbn [bind] in H; [|discriminate].
      injection H as <-. cbn [l_args]. rewrite <- G. exact (get_pops_other taken_events a k N3).
    - injection H as <-. exact G.
  Qed.

  Lemma load_all cmd align gw args l :
    load w cmd align gw args = Ok l -> cmd <> "recalc_source" ->
    exists inv evs g, l_inventory l = Some inv /\ l_events l = Some (evs, g).
  Proof.
    intros H N. unfold load in H. apply String.eqb_neq in N. rewrite N in H. cbn [negb orb] in H.
    destruct (load_inventory w args) as [[i a]|]; cbn [bind fst snd] in H; [|discriminate].
    destruct (load_events w gw (Some i) a) as [[[evs g] a2]|]; cbn [bind] in H; [|discriminate].
    injection H as <-. cbn. eauto.
  Qed.

  Lemma load_recalc align gw args l : load w "recalc_source" align gw args = Ok l -> l_events l = None.
  Proof.
    unfold load. streq. cbn [negb orb]. intros H.
    destruct align; [destruct (load_inventory w args) as [[i a]|]; cbn in H; [|discriminate]|]; now injection H as <-.
  Qed.

  Lemma arguments_get align i g args kw a k :
    arguments align i g args = (kw, a) ->
    k <> "inventory" -> k <> "get_waveforms" -> align = false \/ ~ In k align_options -> get a k = get args k.
  Proof.
    unfold arguments. intros H N1 N2 N3. injection H as _ <-.
    apply String.eqb_neq in N1, N2.
    assert (Z : get (if align then fold_left (fun a k => dpop String.eqb a k) align_options args else args) k = get args k).
    { destruct N3 as [->|N3]; [reflexivity|]. destruct align; [|reflexivity]. now apply get_pops_other. }
    unfold align_options in Z.
    destruct i, g; rewrite ?get_set, ?N1, ?N2; exact Z.
  Qed.

  Lemma load_input_args cmd args r a k :
    load_input w cmd args = Ok (r, a) -> k <> "input" -> k <> "input_sites" -> get a k = get args k.
  Proof.
    unfold load_input. intros H N1 N2.
    assert (exists r1 a1, (if inb String.eqb cmd ["fixed"; "source"; "recalc_source"]
              then do ra <- load_results (w_json w) args "input"; Ok (Some (fst ra), snd ra)
              else Ok (None, args)) = Ok (r1, a1) /\ get a1 k = get args k) as (r1 & a1 & Eq & G).
    { destruct (inb _ _ _).
      - destruct (load_results (w_json w) args "input") as [[j a1]|] eqn:LI; cbn in H |- *; [|discriminate].
        exists (Some j), a1. split; [reflexivity|]. eapply load_results_args; eauto.
      - exists None, args. auto. }
    rewrite Eq in H. cbn [bind] in H. destruct (dmem _ _ _); [|injection H as _ <-; exact G].
    destruct (inb _ cmd _); [|injection H as _ <-; exact G].
    destruct (load_results (w_json w) a1 "input_sites") as [[j a2]|] eqn:LI; cbn [bind fst snd] in H; [|discriminate].
    destruct r1; [|discriminate]. destruct (put_sites _ _); cbn [bind] in H; [|discriminate].
    injection H as _ <-. rewrite <- G. eapply load_results_args; eauto.
  Qed.

  Lemma run_cmd cmd conf tut eventid gw pm plots args :
    In cmd commands -> cmd <> "create" ->
    run w cmd conf tut eventid gw pm plots args =
      do m <- merge_conf (w_conf w) conf args;
      match m with
      | None => Ok (JNull, [])
      | Some args =>
          do p <- prepare cmd plots args;
          if String.eqb cmd "plot" then
            do e <- plot_command w (match conf_name conf with Some _ => true | None => false end) eventid (p_args p);
            Ok (JNull, e)
          else run_prepared w cmd eventid pm gw p
      end.
  Proof.
    intros I N. unfold run. rewrite (is_inb _ _ I). cbn [negb]. apply String.eqb_neq in N. now rewrite N.
  Qed.

  Lemma run_prepared_by cmd conf tut eventid gw pm plots args p :
    In cmd commands -> cmd <> "create" -> cmd <> "plot" -> prepared_by (w_conf w) conf cmd plots args p ->
    run w cmd conf tut eventid gw pm plots args = run_prepared w cmd eventid pm gw p.
  Proof.
    intros I N1 N2 (m & M & P). rewrite run_cmd by assumption. rewrite M. cbn [bind]. rewrite P. cbn [bind].
    apply String.eqb_neq in N2. now rewrite N2.
  Qed.

  Lemma run_prepared_ex cmd conf tut eventid gw pm plots args r e :
    In cmd commands -> cmd <> "create" -> cmd <> "plot" ->
    run w cmd conf tut eventid gw pm plots args = Ok (r, e) -> (r, e) <> (JNull, []) ->
    exists p, prepared_by (w_conf w) conf cmd plots args p.
  Proof.
    intros I N1 N2 H N3. rewrite run_cmd in H by assumption.
    destruct (merge_conf _ _ _) as [[m|]|] eqn:M; cbn [bind] in H; try discriminate; [|congruence].
    destruct (prepare cmd plots m) as [p|] eqn:P; cbn [bind] in H; [|discriminate].
    exists p, m. auto.
  Qed.

  Lemma inverting_cmd cmd : In cmd inverting ->
    In cmd commands /\ cmd <> "create" /\ cmd <> "plot" /\ cmd <> "recalc_source" /\ cmd <> "rt".
  Proof.
    intros I. cbn in I. repeat (destruct I as [<-|I]; [cbn; intuition discriminate|]). destruct I.
  Qed.

  (** all steps of a successful inversion *)
  Lemma run_prepared_steps cmd eventid pm gw p r e :
    In cmd inverting -> run_prepared w cmd eventid pm gw p = Ok (r, e) -> (r, e) <> (JNull, []) ->
    let al := getd (p_args p) "align_sites" (JBool false) in
    exists l inv evs0 g evs kw a result_in a2 r0 e0,
      load w cmd (truthy al) gw (dpop String.eqb (p_args p) "align_sites") = Ok l /\
      l_inventory l = Some inv /\ l_events l = Some (evs0, g) /\
      select_event (w_evid w) eventid (Some evs0) = Ok (Some evs) /\
      arguments (truthy al) (Some inv) (Some g) (l_args l) = (kw, a) /\
      load_input w cmd a = Ok (result_in, a2) /\
      w_invert w al (if inb String.eqb cmd ["fixed"; "source"]
                     then match result_in with Some r => dset String.eqb a2 "input" r | None => a2 end
                     else a2) (Some evs) = Ok r0 /\
      postprocess w cmd kw eventid a2 (Some r0) = Ok (Some r, e0).
  Proof.
    intros I H N al. destruct (inverting_cmd cmd I) as (IC & N1 & N2 & N3 & N4).
    unfold run_prepared, popd in H. fold al in H.
    destruct (load w cmd (truthy al) gw _) as [l|ex] eqn:L.
    2:{ destruct ex; congruence. }
    destruct (load_all _ _ _ _ _ L N3) as (inv & evs0 & g & Li & Le).
    rewrite Li, Le in H. cbn [option_map fst snd] in H.
    destruct (select_event _ _ _) as [evs1|] eqn:S; cbn [bind] in H; [|discriminate].
    assert (exists evs, evs1 = Some evs) as (evs & ->).
    { unfold select_event in S. destruct eventid as [id|]; [|injection S as <-; eauto].
      destruct (String.eqb id ""); [injection S as <-; eauto|].
      destruct (filter _ _) as [|x xs]; [destruct evs0; discriminate|]. injection S as <-. eauto. }
    unfold run_loaded in H.
    destruct (arguments _ _ _ _) as [kw a] eqn:A.
    destruct (load_input w cmd a) as [[result_in a2]|] eqn:LI; cbn [bind fst snd] in H; [|discriminate].
    unfold main_result in H. change ["go"; "fixed"; "source"] with inverting in H. rewrite (is_inb _ _ I) in H. cbn zeta in H.
    destruct (dmem _ _ "noplots"); cbn [bind] in H; [discriminate|].
    destruct (w_invert _ _ _ _) as [r0|] eqn:W; cbn [bind] in H; [|discriminate].
    destruct (postprocess _ _ _ _ _ _) as [[r1 e0]|] eqn:PP; cbn [bind fst snd] in H; [|discriminate].
    destruct r1 as [r1|]; [|discriminate].
    destruct (write _ _ _ _); cbn [bind] in H; [|discriminate].
    destruct (print_mags _ _); cbn [bind] in H; [|discriminate].
    injection H as -> _.
    exists l, inv, evs0, g, evs, kw, a, result_in, a2, r0, e0. repeat split; assumption.
  Qed.

  (** an option reaches the inversion *)
  Lemma option_passed cmd p al l inv g kw a result_in a2 gw k :
    load w cmd (truthy al) gw (dpop String.eqb (p_args p) "align_sites") = Ok l ->
    arguments (truthy al) (Some inv) (Some g) (l_args l) = (kw, a) ->
    load_input w cmd a = Ok (result_in, a2) ->
    ~ In k data_options -> (truthy al = false \/ ~ In k align_options) -> k <> "input" -> k <> "input_sites" ->
    get (if inb String.eqb cmd ["fixed"; "source"]
                     then match result_in with Some r => dset String.eqb a2 "input" r | None => a2 end
                     else a2) k = get (p_args p) k.
  Proof.
    intros L A LI N1 N2 N3 N4.
    assert (Z : get a2 k = get (p_args p) k).
    { rewrite (load_input_args _ _ _ _ k LI) by assumption.
      rewrite (arguments_get _ _ _ _ _ _ k A); [|intros ->; apply N1; cbn; tauto|intros ->; apply N1; cbn; tauto|assumption].
      rewrite (load_args _ _ _ _ _ k L) by assumption.
      apply (dget_dpop_neq _ sspec). intros ->. apply N1. cbn. tauto. }
    destruct (inb _ _ _); [|exact Z]. destruct result_in; [|exact Z].
    rewrite get_set. apply String.eqb_neq in N3. now rewrite N3.
  Qed.

  Lemma align_sites_value read conf d cmd plots args p :
    distinct args -> distinct d -> config_is read conf d -> prepared_by read conf cmd plots args p ->
    getd (p_args p) "align_sites" (JBool false) = or_default (override d args "align_sites") (JBool false).
  Proof.
    intros Da Dd C P. unfold getd. rewrite (precedence_other _ _ _ _ _ _ _ Da Dd C P); [reflexivity|].
    split; [discriminate|]. split; [cbn; intuition discriminate|].
    split; [cbn; intuition discriminate|right; cbn; intuition discriminate].
  Qed.

  Lemma inversion_called cmd conf tut eventid gw pm plots args r e d :
    distinct args -> distinct d -> config_is (w_conf w) conf d -> In cmd inverting ->
    run w cmd conf tut eventid gw pm plots args = Ok (r, e) -> (r, e) <> (JNull, []) ->
    let al := or_default (override d args "align_sites") (JBool false) in
    exists a evs r0,
      w_invert w al a (Some evs) = Ok r0 /\
      (truthy al = false -> r = r0) /\
      get a "cmd" = Some (JStr cmd) /\
      forall k, passed_on plots k -> ~ In k data_options -> (truthy al = false \/ ~ In k align_options) ->
                k <> "input" -> k <> "input_sites" -> get a k = override d args k.
  Proof.
    intros Da Dd C I H N al. destruct (inverting_cmd cmd I) as (IC & N1 & N2 & N3 & N4).
    destruct (run_prepared_ex _ _ _ _ _ _ _ _ _ _ IC N1 N2 H N) as (p & P).
    rewrite (run_prepared_by _ _ _ _ _ _ _ _ _ IC N1 N2 P) in H.
    destruct (run_prepared_steps _ _ _ _ _ _ _ I H N)
      as (l & inv & evs0 & g & evs & kw & a & ri & a2 & r0 & e0 & L & Li & Le & S & A & LI & W & PP).
    rewrite (align_sites_value _ _ _ _ _ _ _ Da Dd C P) in *. fold al in L, A, W.
    eexists _, evs, r0. split; [exact W|]. split; [|split].
    - intros F. unfold arguments in A. rewrite F in A. injection A as <- _. cbn [postprocess] in PP.
      apply String.eqb_neq in N3. rewrite N3 in PP. now injection PP as -> _.
    - rewrite (option_passed _ _ _ _ _ _ _ _ _ _ _ "cmd" L A LI); [|cbn; intuition discriminate..].
      exact (cmd_set _ _ _ _ _ _ _ Da Dd C P).
    - intros k K1 K2 K3 K4 K5. rewrite (option_passed _ _ _ _ _ _ _ _ _ _ _ k L A LI K2 K3 K4 K5).
      exact (precedence_other _ _ _ _ _ _ _ Da Dd C P k K1).
  Qed.

  (** ** selection of events *)

  Lemma inversion_selected cmd conf tut id gw pm plots args r e :
    In cmd inverting -> id <> "" ->
    run w cmd conf tut (Some id) gw pm plots args = Ok (r, e) -> (r, e) <> (JNull, []) ->
    exists p l evs0 g a evs r0,
      let al := getd (p_args p) "align_sites" (JBool false) in
      prepared_by (w_conf w) conf cmd plots args p /\
      load w cmd (truthy al) gw (dpop String.eqb (p_args p) "align_sites") = Ok l /\ l_events l = Some (evs0, g) /\
      w_invert w al a (Some evs) = Ok r0 /\ evs <> [] /\
      (forall ev, In ev evs <-> In ev evs0 /\ w_evid w ev = id).
  Proof.
    intros I NE H N. destruct (inverting_cmd cmd I) as (IC & N1 & N2 & N3 & N4).
    destruct (run_prepared_ex _ _ _ _ _ _ _ _ _ _ IC N1 N2 H N) as (p & P).
    rewrite (run_prepared_by _ _ _ _ _ _ _ _ _ IC N1 N2 P) in H.
    destruct (run_prepared_steps _ _ _ _ _ _ _ I H N)
      as (l & inv & evs0 & g & evs & kw & a & ri & a2 & r0 & e0 & L & Li & Le & S & A & LI & W & PP).
    exists p, l, evs0, g. eexists _, evs, r0. cbv zeta. split; [exact P|]. split; [exact L|]. split; [exact Le|].
    split; [exact W|].
    unfold select_event in S. apply String.eqb_neq in NE. rewrite NE in S.
    destruct (filter _ evs0) as [|x xs] eqn:F; [destruct evs0; discriminate|]. injection S as <-.
    split; [discriminate|]. intros ev. rewrite <- F, filter_In. now rewrite String.eqb_eq.
  Qed.

  Lemma selection_missing cmd conf tut id gw pm plots args p l evs g :
    In cmd inverting -> id <> "" ->
    prepared_by (w_conf w) conf cmd plots args p ->
    load w cmd (truthy (getd (p_args p) "align_sites" (JBool false))) gw (dpop String.eqb (p_args p) "align_sites") = Ok l ->
    l_events l = Some (evs, g) -> evs <> [] ->
    (forall ev, In ev evs -> w_evid w ev <> id) ->
    run w cmd conf tut (Some id) gw pm plots args = Err ParseError.
  Proof.
    intros I NE P L Le N0 M. destruct (inverting_cmd cmd I) as (IC & N1 & N2 & N3 & N4).
    rewrite (run_prepared_by _ _ _ _ _ _ _ _ _ IC N1 N2 P). unfold run_prepared, popd. rewrite L, Le.
    cbn [option_map fst snd select_event]. apply String.eqb_neq in NE. rewrite NE.
    destruct (filter _ evs) as [|x xs] eqn:F.
    - destruct evs; [congruence|reflexivity].
    - exfalso. assert (J : In x (filter (fun ev => String.eqb (w_evid w ev) id) evs)) by (rewrite F; now left).
      apply filter_In in J. destruct J as [J1 J2]. apply String.eqb_eq in J2. exact (M x J1 J2).
  Qed.

  Lemma selection_recalc conf tut id gw pm plots args p l :
    id <> "" -> prepared_by (w_conf w) conf "recalc_source" plots args p ->
    load w "recalc_source" (truthy (getd (p_args p) "align_sites" (JBool false))) gw
      (dpop String.eqb (p_args p) "align_sites") = Ok l ->
    run w "recalc_source" conf tut (Some id) gw pm plots args = Err UnboundLocalError.
  Proof.
    intros NE P L. erewrite run_prepared_by; [|cbn; tauto|discriminate|discriminate|exact P].
    unfold run_prepared, popd. rewrite L, (load_recalc _ _ _ _ L). cbn [option_map select_event bind].
    apply String.eqb_neq in NE. now rewrite NE.
  Qed.

  (** ** commands *)

  Lemma unknown_command cmd conf tut eventid gw pm plots args :
    ~ In cmd commands -> run w cmd conf tut eventid gw pm plots args = Err ValueError.
  Proof. intros N. unfold run. now rewrite (not_inb _ _ N). Qed.

  Lemma rt_never conf tut eventid gw pm plots args r e :
    run w "rt" conf tut eventid gw pm plots args = Ok (r, e) -> r = JNull /\ e = [].
  Proof.
    rewrite run_cmd by (cbn; intuition discriminate || discriminate). intros H.
    destruct (merge_conf _ _ _) as [[m|]|]; cbn [bind] in H; try discriminate; [|now injection H as <- <-].
    destruct (prepare "rt" plots m) as [p|]; cbn [bind] in H; [|discriminate].
    streq_in H. cbv iota in H. unfold run_prepared, popd in H.
    destruct (load _ _ _ _ _) as [l|ex].
    - destruct (select_event _ _ _) as [evs|]; cbn [bind] in H; [|discriminate].
      unfold run_loaded in H. destruct (arguments _ _ _ _) as [kw a].
      destruct (load_input _ _ _) as [[ri a2]|]; cbn [bind fst snd] in H; [|discriminate].
      unfold main_result in H. change (inb String.eqb "rt" ["go"; "fixed"; "source"]) with false in H.
      streq_in H. cbv iota in H. cbn [bind postprocess] in H. destruct kw; discriminate.
    - destruct ex; try discriminate; now injection H as <- <-.
  Qed.

  Lemma create_files conf tut eventid gw pm plots args :
    exists e, run w "create" conf tut eventid gw pm plots args = Ok (JNull, Copied "conf.json" (match conf_name conf with Some c => c | None => "conf.json" end) :: e).
  Proof. unfold run, create. cbn. eauto. Qed.
End Run.
