(** Lemmas about the preparation of a run. *)
From Coq Require Import String List Bool ZArith Arith.
From Verif Require Import Base RunModel RunSpec.
Import ListNotations.
Open Scope string_scope.
Open Scope list_scope.

Notation get := (dget String.eqb).
Notation sspec := string_eqb_spec.

Lemma get_set (d : dict) k k2 v : get (dset String.eqb d k v) k2 = if String.eqb k2 k then Some v else get d k2.
Proof.
  destruct (String.eqb_spec k2 k) as [->|N].
  - apply (dget_dset_eq _ sspec).
  - now apply (dget_dset_neq _ sspec).
Qed.

Lemma get_pop (d : dict) k k2 : distinct d -> get (dpop String.eqb d k) k2 = if String.eqb k2 k then None else get d k2.
Proof.
  intros D. destruct (String.eqb_spec k2 k) as [->|N].
  - now apply (dget_dpop_eq _ sspec).
  - now apply (dget_dpop_neq _ sspec).
Qed.

Lemma get_pops ks : forall (d : dict) k2, distinct d ->
  get (fold_left (fun a k => dpop String.eqb a k) ks d) k2 = if inb String.eqb k2 ks then None else get d k2.
Proof.
  induction ks as [|k ks IH]; intros d k2 D; cbn; [reflexivity|].
  rewrite IH by now apply (dpop_nodup String.eqb). unfold inb. rewrite get_pop by assumption.
  destruct (String.eqb k2 k); cbn; [|reflexivity]. now destruct (existsb _ ks).
Qed.

Lemma pops_distinct ks : forall (d : dict), distinct d -> distinct (fold_left (fun a k => dpop String.eqb a k) ks d).
Proof.
  induction ks as [|k ks IH]; intros d D; cbn; [assumption|].
  apply IH. now apply (dpop_nodup String.eqb).
Qed.

Lemma get_update (d a : dict) k : distinct a -> get (dupdate String.eqb d a) k = override d a k.
Proof.
  intros D. unfold override. destruct (get a k) as [v|] eqn:G.
  - apply (dupdate_get_in _ sspec); [assumption|]. now apply (dget_In _ sspec).
  - apply (dupdate_get_other _ sspec). now apply (dget_None _ sspec).
Qed.

Lemma merged read conf args d m :
  distinct args -> distinct d -> config_is read conf d -> merge_conf read conf args = Ok (Some m) ->
  distinct m /\ forall k, get m k = override d args k.
Proof.
  intros A D C M. unfold merge_conf, conf_name in M.
  assert (Z : d = [] -> m = args -> distinct m /\ forall k, get m k = override d args k).
  { intros -> ->. split; [assumption|]. intros k. unfold override. cbn. now destruct (get args k). }
  destruct conf as [c|]; cbn [config_is] in C.
  - destruct (inb String.eqb c _) eqn:I.
    + injection M as <-. apply (inb_In _ sspec) in I. destruct C as [[_ C]|[C _]]; [now apply Z|tauto].
    + destruct C as [[C _]|[_ C]].
      { apply (inb_In _ sspec) in C. congruence. }
      rewrite C in M. injection M as <-. split.
      * now apply (dupdate_nodup _ sspec).
      * intros k. now apply get_update.
  - injection M as <-. now apply Z.
Qed.

(** ** the mean *)

Definition mean_value (m : option json) (k : string) (v : option json) : option json :=
  if inb String.eqb k ["plot_results_options"; "plot_sites_options"] then
    match m, v with
    | Some m, Some (JDict d) => Some (JDict (dsetdefault String.eqb d "mean" m))
    | _, _ => v
    end
  else v.

Lemma default_mean_get args key m a k :
  default_mean args key m = Ok a ->
  get a k = if String.eqb k key then match get args k with
                                     | Some (JDict d) => Some (JDict (dsetdefault String.eqb d "mean" m))
                                     | v => v end
            else get args k.
Proof.
  unfold default_mean. intros H. destruct (String.eqb_spec k key) as [E|N].
  - rewrite E. destruct (get args key) as [[]|] eqn:G; try discriminate; injection H as <-.
    + rewrite get_set, String.eqb_refl. reflexivity.
    + exact G.
  - destruct (get args key) as [[]|]; try discriminate; injection H as <-; [|reflexivity].
    rewrite get_set. apply String.eqb_neq in N. now rewrite N.
Qed.

Lemma default_mean_distinct args key m a : distinct args -> default_mean args key m = Ok a -> distinct a.
Proof.
  unfold default_mean. intros D H. destruct (get args key) as [[]|]; try discriminate; injection H as <-; [|assumption].
  now apply (dset_nodup _ sspec).
Qed.

Lemma pass_mean_get args a k : pass_mean args = Ok a -> get a k = mean_value (get args "mean") k (get args k).
Proof.
  unfold pass_mean, mean_value. destruct (get args "mean") as [m|] eqn:M.
  - intros H. destruct (default_mean args "plot_results_options" m) as [a1|] eqn:H1; cbn in H; [|discriminate].
    rewrite (default_mean_get _ _ _ _ k H), (default_mean_get _ _ _ _ k H1). cbn [inb existsb].
    destruct (String.eqb_spec k "plot_results_options") as [->|N1]; cbn [orb].
    + streq. destruct (get args "plot_results_options") as [[]|]; reflexivity.
    + destruct (String.eqb k "plot_sites_options"); cbn [orb]; [|reflexivity].
      destruct (get args k) as [[]|]; reflexivity.
  - intros [= <-]. now destruct (inb _ _ _).
Qed.

Lemma pass_mean_distinct args a : distinct args -> pass_mean args = Ok a -> distinct a.
Proof.
  unfold pass_mean. intros D. destruct (get args "mean") as [m|]; [|now intros [= <-]].
  intros H. destruct (default_mean args "plot_results_options" m) as [a1|] eqn:H1; cbn in H; [|discriminate].
  eapply default_mean_distinct; [|exact H]. eapply default_mean_distinct; eauto.
Qed.

(** ** the prefix of plots *)

Definition prefix_value (p : string) (v : option json) : option json :=
  match v with
  | Some (JDict d) => match get d "fname" with
                      | Some (JStr f) => Some (JDict (dset String.eqb d "fname" (JStr (p ++ f))))
                      | _ => v
                      end
  | _ => v
  end.

Lemma prefix_plot_get p t args a k :
  prefix_plot p t args = Ok a ->
  get a k = if String.eqb k (options_key t) then prefix_value p (get args k) else get args k.
Proof.
  unfold prefix_plot. intros H. destruct (String.eqb_spec k (options_key t)) as [E|N].
  - rewrite E. unfold prefix_value. destruct (get args (options_key t)) as [[]|] eqn:G; try discriminate.
    + destruct (get d "fname") as [f|] eqn:F.
      * destruct f; cbn in H; try discriminate. injection H as <-. rewrite get_set, String.eqb_refl. reflexivity.
      * injection H as <-. exact G.
    + injection H as <-. exact G.
  - destruct (get args (options_key t)) as [[]|]; try discriminate; [|now injection H as <-].
    destruct (get d "fname") as [f|]; [|now injection H as <-].
    destruct f; cbn in H; try discriminate. injection H as <-. rewrite get_set.
    apply String.eqb_neq in N. now rewrite N.
Qed.

Lemma prefix_plot_distinct p t args a : distinct args -> prefix_plot p t args = Ok a -> distinct a.
Proof.
  unfold prefix_plot. intros D H. destruct (get args (options_key t)) as [[]|]; try discriminate; [|now injection H as <-].
  destruct (get d "fname") as [f|]; [|now injection H as <-].
  destruct f; cbn in H; try discriminate. injection H as <-. now apply (dset_nodup _ sspec).
Qed.

Lemma prefix_plots_get p k : forall ts args a,
  NoDup (map options_key ts) -> prefix_plots p ts args = Ok a ->
  get a k = if inb String.eqb k (map options_key ts) then prefix_value p (get args k) else get args k.
Proof.
  induction ts as [|t ts IH]; intros args a ND H; cbn in *; [now injection H as <-|].
  destruct (prefix_plot p t args) as [a1|] eqn:H1; cbn in H; [|discriminate].
  inversion ND as [|? ? NI ND']; subst.
  rewrite (IH _ _ ND' H), (prefix_plot_get _ _ _ _ k H1).
  destruct (String.eqb_spec k (options_key t)) as [->|N]; cbn [orb]; [|reflexivity].
  destruct (inb String.eqb (options_key t) (map options_key ts)) eqn:I; [|reflexivity].
  apply (inb_In _ sspec) in I. tauto.
Qed.

Lemma prefix_plots_distinct p : forall ts args a, distinct args -> prefix_plots p ts args = Ok a -> distinct a.
Proof.
  induction ts as [|t ts IH]; intros args a D H; cbn in H; [now injection H as <-|].
  destruct (prefix_plot p t args) as [a1|] eqn:H1; cbn in H; [|discriminate].
  eapply IH; [|exact H]. eapply prefix_plot_distinct; eauto.
Qed.

Lemma option_keys : map options_key plottargets = plot_options.
Proof. reflexivity. Qed.

Lemma switch_keys : map (fun t => ("plot_" ++ t)%string) plottargets = plot_switches.
Proof. reflexivity. Qed.

Lemma plot_options_nodup : NoDup plot_options.
Proof.
  unfold plot_options. repeat constructor; cbn; intuition discriminate.
Qed.

(** ** switches *)

Lemma set_plots_get b k : forall ts args,
  get (set_plots b ts args) k =
  if inb String.eqb k (map (fun t => ("plot_" ++ t)%string) ts) then Some (JBool b) else get args k.
Proof.
  induction ts as [|t ts IH]; intros args; cbn [set_plots map]; [reflexivity|].
  rewrite IH, get_set. unfold inb. cbn [existsb].
  destruct (String.eqb k _); cbn [orb]; [|reflexivity]. now destruct (existsb _ _).
Qed.

Lemma set_plots_distinct b : forall ts args, distinct args -> distinct (set_plots b ts args).
Proof.
  induction ts as [|t ts IH]; intros args D; cbn; [assumption|].
  apply IH. now apply (dset_nodup _ sspec).
Qed.

(** ** all together *)

Definition switch_value (plots : json) (k : string) (v : option json) : option json :=
  match plots with JBool b => if inb String.eqb k plot_switches then Some (JBool b) else v | _ => v end.

Definition options_value (prefix : option string) (k : string) (v : option json) : option json :=
  match prefix with
  | Some p => if inb String.eqb k plot_options then prefix_value p v else v
  | None => v
  end.

Lemma switch_plots_get plots args a k : switch_plots plots args = Ok a -> get a k = switch_value plots k (get args k).
Proof.
  destruct plots; cbn [switch_plots switch_value]; try discriminate; intros H; [now injection H as <-|].
  assert (E : a = set_plots b plottargets args) by congruence.
  now rewrite E, set_plots_get, switch_keys.
Qed.

Lemma prefix_options_get prefix args a k :
  prefix_options prefix args = Ok a -> get a k = options_value prefix k (get args k).
Proof.
  destruct prefix as [p|]; cbn [prefix_options options_value]; [|now intros [= <-]].
  intros H. rewrite (prefix_plots_get p k _ _ _ ltac:(rewrite option_keys; exact plot_options_nodup) H).
  now rewrite option_keys.
Qed.

Lemma prepare_ok cmd plots args p :
  prepare cmd plots args = Ok p ->
  exists a prefix rest,
    pass_mean args = Ok a /\
    prefix_of (getd args "prefix" JNull) = Ok prefix /\
    prefix_output prefix (getd args "output" JNull) = Ok (p_output p) /\
    p_logfile p = prefix_logfile prefix (getd args "logfile" JNull) /\
    p_loggingc p = getd args "logging" JNull /\
    p_verbose p = getd args "verbose" (JNum 0) /\
    p_loglevel p = getd args "loglevel" (JNum 3) /\
    p_indent p = getd args "indent" JNull /\
    prefix_options prefix (remaining (dset String.eqb a "cmd" (JStr cmd))) = Ok rest /\
    switch_plots plots rest = Ok (p_args p).
Proof.
  unfold prepare. intros H.
  destruct (pass_mean args) as [a|] eqn:PM; cbn [bind] in H; [|discriminate].
  assert (G : forall k x, k <> "cmd" -> inb String.eqb k ["plot_results_options"; "plot_sites_options"] = false ->
                          getd (dset String.eqb a "cmd" (JStr cmd)) k x = getd args k x).
  { intros k x N I. unfold getd. rewrite get_set. apply String.eqb_neq in N. rewrite N.
    rewrite (pass_mean_get _ _ _ PM). unfold mean_value. now rewrite I. }
  rewrite !G in H by (discriminate || reflexivity).
  destruct (prefix_of _) as [prefix|] eqn:PP; cbn [bind] in H; [|discriminate].
  destruct (prefix_output _ _) as [o|] eqn:PO; cbn [bind] in H; [|discriminate].
  destruct (prefix_options _ _) as [rest|] eqn:PR; cbn [bind] in H; [|discriminate].
  destruct (switch_plots _ _) as [rest2|] eqn:PS; cbn [bind] in H; [|discriminate].
  injection H as <-. exists a, prefix, rest. cbn [p_output p_logfile p_loggingc p_verbose p_loglevel p_indent p_args].
  repeat split; assumption.
Qed.

Lemma prepare_get cmd plots args p prefix k :
  distinct args -> prepare cmd plots args = Ok p -> prefix_of (getd args "prefix" JNull) = Ok prefix ->
  get (p_args p) k =
  switch_value plots k (options_value prefix k
    (if inb String.eqb k own_options then None
     else if String.eqb k "cmd" then Some (JStr cmd) else mean_value (get args "mean") k (get args k))).
Proof.
  intros D H PP. destruct (prepare_ok _ _ _ _ H) as (a & pr & rest & PM & PP2 & _ & _ & _ & _ & _ & _ & PR & PS).
  rewrite PP in PP2. injection PP2 as <-.
  rewrite (switch_plots_get _ _ _ k PS), (prefix_options_get _ _ _ k PR).
  unfold remaining. rewrite get_pops.
  - change taken with own_options. rewrite get_set, (pass_mean_get _ _ k PM). reflexivity.
  - apply (dset_nodup _ sspec). eapply pass_mean_distinct; eauto.
Qed.

Lemma prepare_distinct cmd plots args p : distinct args -> prepare cmd plots args = Ok p -> distinct (p_args p).
Proof.
  intros D H. destruct (prepare_ok _ _ _ _ H) as (a & pr & rest & PM & PP2 & _ & _ & _ & _ & _ & _ & PR & PS).
  assert (DR : distinct rest).
  { destruct pr as [q|]; cbn [prefix_options] in PR.
    - eapply prefix_plots_distinct; [|exact PR]. apply pops_distinct. apply (dset_nodup _ sspec).
      eapply pass_mean_distinct; eauto.
    - injection PR as <-. apply pops_distinct. apply (dset_nodup _ sspec). eapply pass_mean_distinct; eauto. }
  destruct plots; cbn [switch_plots] in PS; try discriminate; [injection PS as <-; assumption|].
  assert (E : p_args p = set_plots b plottargets rest) by congruence.
  rewrite E. now apply set_plots_distinct.
Qed.

Lemma prepare_prefix cmd plots args p :
  prepare cmd plots args = Ok p -> exists prefix, prefix_of (getd args "prefix" JNull) = Ok prefix.
Proof. intros H. destruct (prepare_ok _ _ _ _ H) as (a & pr & rest & PM & PP & _). eauto. Qed.
