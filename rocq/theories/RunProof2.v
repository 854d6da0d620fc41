(** Lemmas about the preparation of a run, as seen by the user. *)
From Coq Require Import String List Bool ZArith Arith.
From Verif Require Import Base RunModel RunSpec RunProof.
Import ListNotations.
Open Scope string_scope.
Open Scope list_scope.

Section Prepared.
  Context (read : string -> conf_file) (conf : option string) (d : dict) (cmd : string) (plots : json) (args : dict) (p : prepared).
  Hypothesis Da : distinct args.
  Hypothesis Dd : distinct d.
  Hypothesis C : config_is read conf d.
  Hypothesis P : prepared_by read conf cmd plots args p.

  Lemma getd_look m k x : (forall k, get m k = override d args k) -> getd m k x = or_default (override d args k) x.
  Proof. intros H. unfold getd, or_default. now rewrite H. Qed.

  Lemma value_of k : exists prefix,
    prefix_of (or_default (override d args "prefix") JNull) = Ok prefix /\
    get (p_args p) k =
    switch_value plots k (options_value prefix k
      (if inb String.eqb k own_options then None
       else if String.eqb k "cmd" then Some (JStr cmd)
       else mean_value (override d args "mean") k (override d args k))).
  Proof.
    destruct P as (m & M & H). destruct (merged _ _ _ _ _ Da Dd C M) as (Dm & L).
    destruct (prepare_prefix _ _ _ _ H) as (prefix & PP).
    exists prefix. rewrite <- (getd_look m) by exact L. split; [exact PP|].
    rewrite (prepare_get _ _ _ _ _ k Dm H PP). now rewrite !L.
  Qed.

  Lemma not_inb k l : ~ In k l -> inb String.eqb k l = false.
  Proof.
    intros N. destruct (inb String.eqb k l) eqn:I; [|reflexivity]. apply (inb_In _ sspec) in I. tauto.
  Qed.

  Lemma is_inb k l : In k l -> inb String.eqb k l = true.
  Proof. apply (inb_In _ sspec). Qed.

  Lemma options_not k v prefix : ~ In k plot_options -> options_value prefix k v = v.
  Proof. intros N. unfold options_value. destruct prefix; [|reflexivity]. now rewrite (not_inb _ _ N). Qed.

  Lemma mean_not k m v : ~ In k ["plot_results_options"; "plot_sites_options"] -> mean_value m k v = v.
  Proof. intros N. unfold mean_value. now rewrite (not_inb _ _ N). Qed.

  Lemma switch_not k v : plots = JNull \/ ~ In k plot_switches -> switch_value plots k v = v.
  Proof.
    intros [->|N]; [reflexivity|]. unfold switch_value. destruct plots; try reflexivity. now rewrite (not_inb _ _ N).
  Qed.

  Lemma precedence_values :
    p_loggingc p = or_default (override d args "logging") JNull /\
    p_verbose p = or_default (override d args "verbose") (JNum 0) /\
    p_loglevel p = or_default (override d args "loglevel") (JNum 3) /\
    p_indent p = or_default (override d args "indent") JNull.
  Proof.
    destruct P as (m & M & H). destruct (merged _ _ _ _ _ Da Dd C M) as (Dm & L).
    destruct (prepare_ok _ _ _ _ H) as (a & pr & rest & _ & _ & _ & _ & E1 & E2 & E3 & E4 & _).
    rewrite E1, E2, E3, E4. now rewrite !(getd_look m _ _ L).
  Qed.

  Lemma precedence_other k : passed_on plots k -> get (p_args p) k = override d args k.
  Proof.
    intros (N1 & N2 & N3 & N4). destruct (value_of k) as (prefix & _ & ->).
    rewrite switch_not, options_not, (not_inb _ _ N2) by assumption.
    apply String.eqb_neq in N1. rewrite N1. apply mean_not.
    intros I. apply N3. unfold plot_options. cbn in I |- *. tauto.
  Qed.

  Lemma own_not_switch k : In k own_options -> ~ In k plot_switches /\ ~ In k plot_options.
  Proof.
    intros I. cbn in I.
    repeat (destruct I as [<-|I]; [split; cbn; intuition discriminate|]). destruct I.
  Qed.

  Lemma own_taken k : In k own_options -> get (p_args p) k = None.
  Proof.
    intros I. destruct (value_of k) as (prefix & _ & ->). destruct (own_not_switch k I) as (N1 & N2).
    rewrite switch_not by auto. rewrite options_not by assumption. now rewrite (is_inb _ _ I).
  Qed.

  Lemma cmd_set : get (p_args p) "cmd" = Some (JStr cmd).
  Proof.
    destruct (value_of "cmd") as (prefix & _ & ->).
    rewrite switch_not by (right; cbn; intuition discriminate).
    rewrite options_not by (cbn; intuition discriminate). reflexivity.
  Qed.

  Lemma options_not_switch k : In k plot_options -> ~ In k plot_switches /\ ~ In k own_options /\ k <> "cmd".
  Proof.
    intros I. cbn in I.
    repeat (destruct I as [<-|I]; [repeat split; cbn; intuition discriminate|]). destruct I.
  Qed.

  Lemma options_get k : In k plot_options -> exists prefix,
    prefix_of (or_default (override d args "prefix") JNull) = Ok prefix /\
    get (p_args p) k = match prefix with
                       | Some q => prefix_value q (mean_value (override d args "mean") k (override d args k))
                       | None => mean_value (override d args "mean") k (override d args k)
                       end.
  Proof.
    intros I. destruct (value_of k) as (prefix & PP & ->). exists prefix. split; [exact PP|].
    destruct (options_not_switch k I) as (N1 & N2 & N3).
    rewrite switch_not by auto. rewrite (not_inb _ _ N2). apply String.eqb_neq in N3. rewrite N3.
    unfold options_value. now rewrite (is_inb _ _ I).
  Qed.

  Definition prefixed (prefix : option string) (o : dict) : dict :=
    match prefix with
    | Some q => match get o "fname" with Some (JStr f) => dset String.eqb o "fname" (JStr (q ++ f)) | _ => o end
    | None => o
    end.

  Definition meaned (k : string) (o : dict) : dict :=
    if inb String.eqb k ["plot_results_options"; "plot_sites_options"] then
      match override d args "mean" with Some m => dsetdefault String.eqb o "mean" m | None => o end
    else o.

  Lemma options_dict k o : In k plot_options -> override d args k = Some (JDict o) -> exists prefix,
    prefix_of (or_default (override d args "prefix") JNull) = Ok prefix /\
    get (p_args p) k = Some (JDict (prefixed prefix (meaned k o))).
  Proof.
    intros I E. destruct (options_get k I) as (prefix & PP & ->). exists prefix. split; [exact PP|].
    assert (Q : mean_value (override d args "mean") k (override d args k) = Some (JDict (meaned k o))).
    { unfold mean_value, meaned. rewrite E. destruct (inb _ _ _); [|reflexivity].
      now destruct (override d args "mean"). }
    rewrite Q. destruct prefix as [q|]; [|reflexivity]. cbn [prefix_value prefixed].
    now destruct (get (meaned k o) "fname") as [[]|].
  Qed.

  Lemma prefixed_get prefix o e : e <> "fname" -> get (prefixed prefix o) e = get o e.
  Proof.
    intros N. unfold prefixed. destruct prefix as [q|]; [|reflexivity].
    destruct (get o "fname") as [[]|]; try reflexivity. rewrite get_set. apply String.eqb_neq in N. now rewrite N.
  Qed.

  Lemma meaned_get k o e : e <> "mean" \/ ~ In k ["plot_results_options"; "plot_sites_options"] ->
    get (meaned k o) e = get o e.
  Proof.
    intros N. unfold meaned. destruct (inb _ _ _) eqn:I; [|reflexivity].
    destruct (override d args "mean") as [m|]; [|reflexivity].
    destruct N as [N|N]; [|apply (inb_In _ sspec) in I; tauto].
    unfold dsetdefault. destruct (dmem _ _ _); [reflexivity|].
    rewrite get_set. apply String.eqb_neq in N. now rewrite N.
  Qed.

  Lemma meaned_mean k o : In k ["plot_results_options"; "plot_sites_options"] ->
    get (meaned k o) "mean" = match get o "mean" with Some v => Some v | None => override d args "mean" end.
  Proof.
    intros I. unfold meaned. rewrite (is_inb _ _ I).
    destruct (override d args "mean") as [m|]; [|now destruct (get o "mean")].
    unfold dsetdefault, dmem. destruct (get o "mean") eqn:G; [exact G|].
    now rewrite get_set, String.eqb_refl.
  Qed.

  Lemma precedence_options k : In k plot_options ->
    (override d args k = None -> get (p_args p) k = None) /\
    (forall o, override d args k = Some (JDict o) ->
       exists o', get (p_args p) k = Some (JDict o') /\
         forall e, e <> "fname" -> e <> "mean" \/ ~ In k ["plot_results_options"; "plot_sites_options"] ->
                   get o' e = get o e).
  Proof.
    intros I. split.
    - intros E. destruct (options_get k I) as (prefix & _ & ->). rewrite E.
      unfold mean_value. destruct prefix; destruct (inb _ _ _); destruct (override d args "mean"); reflexivity.
    - intros o E. destruct (options_dict k o I E) as (prefix & _ & G). eexists. split; [exact G|].
      intros e N1 N2. rewrite prefixed_get by assumption. now apply meaned_get.
  Qed.

  Lemma mean_passed k o : In k ["plot_results_options"; "plot_sites_options"] ->
    override d args k = Some (JDict o) ->
    exists o', get (p_args p) k = Some (JDict o') /\
      get o' "mean" = match get o "mean" with Some v => Some v | None => override d args "mean" end.
  Proof.
    intros I E. assert (I2 : In k plot_options) by (unfold plot_options; cbn in I |- *; tauto).
    destruct (options_dict k o I2 E) as (prefix & _ & G). eexists. split; [exact G|].
    rewrite prefixed_get by discriminate. now apply meaned_mean.
  Qed.

  Lemma plots_switched b k : plots = JBool b -> In k plot_switches -> get (p_args p) k = Some (JBool b).
  Proof.
    intros E I. destruct (value_of k) as (prefix & _ & ->). rewrite E. cbn [switch_value]. now rewrite (is_inb _ _ I).
  Qed.

  (** ** the prefix *)

  Lemma output_of : exists prefix,
    prefix_of (or_default (override d args "prefix") JNull) = Ok prefix /\
    prefix_output prefix (or_default (override d args "output") JNull) = Ok (p_output p) /\
    p_logfile p = prefix_logfile prefix (or_default (override d args "logfile") JNull).
  Proof.
    destruct P as (m & M & H). destruct (merged _ _ _ _ _ Da Dd C M) as (Dm & L).
    destruct (prepare_ok _ _ _ _ H) as (a & pr & rest & _ & E1 & E2 & E3 & _).
    exists pr. rewrite (getd_look m _ _ L) in E1. rewrite (getd_look m _ _ L) in E2. rewrite (getd_look m _ _ L) in E3. auto.
  Qed.

  Lemma prefix_some q : override d args "prefix" = Some (JStr q) -> q <> "" ->
    prefix_of (or_default (override d args "prefix") JNull) = Ok (Some q).
  Proof. intros -> N. cbn. apply String.eqb_neq in N. unfold prefix_of, truthy. now rewrite N. Qed.

  Lemma prefix_none : no_prefix (override d args "prefix") ->
    prefix_of (or_default (override d args "prefix") JNull) = Ok None.
  Proof. intros [->|[->| ->]]; reflexivity. Qed.

  Lemma prefix_files q : override d args "prefix" = Some (JStr q) -> q <> "" ->
    (forall o, override d args "output" = Some (JStr o) -> p_output p = JStr (q ++ o)) /\
    (forall o, override d args "logfile" = Some (JStr o) -> p_logfile p = JStr (q ++ o)) /\
    (or_default (override d args "output") JNull = JNull -> p_output p = JNull) /\
    (or_default (override d args "logfile") JNull = JNull -> p_logfile p = JNull).
  Proof.
    intros E N. destruct output_of as (pr & PP & PO & PL). rewrite (prefix_some q E N) in PP. injection PP as <-.
    rewrite PL. repeat split.
    - intros o EO. rewrite EO in PO. cbn in PO. now injection PO as <-.
    - intros o EO. rewrite EO. reflexivity.
    - intros EO. rewrite EO in PO. cbn in PO. now injection PO as <-.
    - intros EO. now rewrite EO.
  Qed.

  Lemma prefix_fname q k o : override d args "prefix" = Some (JStr q) -> q <> "" ->
    In k plot_options -> override d args k = Some (JDict o) ->
    exists o', get (p_args p) k = Some (JDict o') /\
      (forall f, get o "fname" = Some (JStr f) -> get o' "fname" = Some (JStr (q ++ f))) /\
      (get o "fname" = None -> get o' "fname" = None).
  Proof.
    intros E N I EK. destruct (options_dict k o I EK) as (pr & PP & G).
    rewrite (prefix_some q E N) in PP. injection PP as <-.
    eexists. split; [exact G|]. cbn [prefixed]. rewrite (meaned_get k o "fname") by (left; discriminate).
    split.
    - intros f ->. now rewrite get_set, String.eqb_refl.
    - intros F. rewrite F. now rewrite (meaned_get k o "fname") by (left; discriminate).
  Qed.

  Lemma no_prefix_files : no_prefix (override d args "prefix") ->
    p_output p = or_default (override d args "output") JNull /\
    p_logfile p = or_default (override d args "logfile") JNull /\
    (forall k o, In k plot_options -> override d args k = Some (JDict o) ->
       exists o', get (p_args p) k = Some (JDict o') /\ get o' "fname" = get o "fname").
  Proof.
    intros E. destruct output_of as (pr & PP & PO & PL). rewrite (prefix_none E) in PP. injection PP as <-.
    cbn in PO, PL. injection PO as PO. split; [symmetry; exact PO|]. split.
    - rewrite PL. now destruct (or_default (override d args "logfile") JNull).
    - intros k o I EK. destruct (options_dict k o I EK) as (pr & PP & G).
      rewrite (prefix_none E) in PP. injection PP as <-. eexists. split; [exact G|].
      cbn [prefixed]. apply meaned_get. left. discriminate.
  Qed.
End Prepared.

(** ** the preparation succeeds *)

Lemma default_mean_total args key m : (get args key = None \/ exists o, get args key = Some (JDict o)) ->
  exists a, default_mean args key m = Ok a.
Proof. unfold default_mean. intros [->|(o & ->)]; eauto. Qed.

Lemma prefix_plots_total q : forall ts args,
  NoDup (map options_key ts) ->
  (forall k, In k (map options_key ts) -> get args k = None \/
     exists o, get args k = Some (JDict o) /\ (get o "fname" = None \/ exists s, get o "fname" = Some (JStr s))) ->
  exists a, prefix_plots q ts args = Ok a.
Proof.
  induction ts as [|t ts IH]; intros args ND H; cbn; [eauto|].
  inversion ND as [|? ? NI ND']; subst.
  assert (exists a, prefix_plot q t args = Ok a) as (a & Ea).
  { unfold prefix_plot. destruct (H (options_key t) (or_introl eq_refl)) as [->|(o & -> & [->|(s & ->)])]; cbn; eauto. }
  rewrite Ea. cbn [bind]. apply IH; [assumption|].
  intros k I. rewrite (prefix_plot_get _ _ _ _ k Ea).
  destruct (String.eqb_spec k (options_key t)) as [->|N]; [tauto|]. apply H. now right.
Qed.

Lemma prepare_total cmd plots m :
  distinct m -> well_formed (get m) -> (plots = JNull \/ exists b, plots = JBool b) ->
  exists p, prepare cmd plots m = Ok p.
Proof.
  intros D (W1 & W2 & W3) WP. unfold prepare.
  assert (exists a, pass_mean m = Ok a) as (a & Ea).
  { unfold pass_mean. destruct (get m "mean") as [v|]; [|eauto].
    destruct (default_mean_total m "plot_results_options" v) as (a1 & E1).
    { destruct (W3 "plot_results_options") as [G|(o & G & _)]; [cbn; tauto| |]; eauto. }
    rewrite E1. cbn [bind]. apply default_mean_total. rewrite (default_mean_get _ _ _ _ _ E1). streq.
    destruct (W3 "plot_sites_options") as [G|(o & G & _)]; [cbn; tauto| |]; eauto. }
  rewrite Ea. cbn [bind].
  assert (G : forall k, k <> "cmd" -> inb String.eqb k ["plot_results_options"; "plot_sites_options"] = false ->
                          get (dset String.eqb a "cmd" (JStr cmd)) k = get m k).
  { intros k N I. rewrite get_set. apply String.eqb_neq in N. rewrite N.
    rewrite (pass_mean_get _ _ _ Ea). unfold mean_value. now rewrite I. }
  assert (exists pr, prefix_of (getd (dset String.eqb a "cmd" (JStr cmd)) "prefix" JNull) = Ok pr) as (pr & Epr).
  { unfold getd. rewrite G by (discriminate || reflexivity). unfold prefix_of.
    destruct W1 as [->|[->|(s & ->)]]; cbn; eauto. destruct (negb _); eauto. }
  rewrite Epr. cbn [bind].
  assert (exists o, prefix_output pr (getd (dset String.eqb a "cmd" (JStr cmd)) "output" JNull) = Ok o) as (o & Eo).
  { unfold getd. rewrite G by (discriminate || reflexivity). unfold prefix_output.
    destruct pr as [q|]; destruct W2 as [->|[->|(s & ->)]]; cbn; eauto. }
  rewrite Eo. cbn [bind].
  assert (exists r, prefix_options pr (remaining (dset String.eqb a "cmd" (JStr cmd))) = Ok r) as (r & Er).
  { unfold prefix_options. destruct pr as [q|]; [|eauto]. apply prefix_plots_total.
    - rewrite option_keys. exact plot_options_nodup.
    - rewrite option_keys. intros k I. unfold remaining.
      rewrite get_pops by (apply (dset_nodup _ sspec); eapply pass_mean_distinct; eauto).
      destruct (options_not_switch k I) as (_ & N2 & N3). change taken with own_options.
      rewrite (not_inb _ _ N2), get_set. apply String.eqb_neq in N3. rewrite N3.
      rewrite (pass_mean_get _ _ k Ea). unfold mean_value.
      destruct (W3 k I) as [E|(oo & E & F)].
      + left. rewrite E. destruct (inb _ _ _); [|reflexivity]. now destruct (get m "mean").
      + right. rewrite E. destruct (inb _ _ _); [|eauto]. destruct (get m "mean") as [v|]; [|eauto].
        eexists. split; [reflexivity|]. unfold dsetdefault. destruct (dmem _ _ _); [exact F|].
        rewrite get_set. streq. exact F. }
  rewrite Er. cbn [bind]. destruct WP as [->|(b & ->)]; cbn; eauto.
Qed.

Lemma prepared_total read conf d cmd plots args :
  distinct args -> distinct d -> config_is read conf d ->
  well_formed (override d args) -> (plots = JNull \/ exists b, plots = JBool b) ->
  exists p, prepared_by read conf cmd plots args p.
Proof.
  intros Da Dd C W WP.
  assert (exists m, merge_conf read conf args = Ok (Some m)) as (m & M).
  { unfold merge_conf, conf_name. destruct conf as [c|]; [|eauto]. cbn [config_is] in C.
    destruct (inb String.eqb c _) eqn:I; [eauto|].
    destruct C as [[C _]|[_ ->]]; [|eauto]. apply (inb_In _ sspec) in C. congruence. }
  destruct (merged _ _ _ _ _ Da Dd C M) as (Dm & L).
  destruct (prepare_total cmd plots m Dm) as (p & Hp); [|assumption|exists p, m; auto].
  destruct W as (W1 & W2 & W3). repeat split; try (rewrite L; assumption).
  intros k I. rewrite L. now apply W3.
Qed.
