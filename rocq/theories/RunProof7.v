(** Lemmas about run in terms of values which count as false, and the printing of
    magnitudes. *)
From Coq Require Import String Ascii List Bool ZArith Arith.
From Verif Require Import Base PyStr StatProof CmdProof RunModel RunSpec RunProof RunProof2 RunProof3 RunProof4 RunSpec2 RunProof5 RunProof6.
Import ListNotations.
Open Scope string_scope.
Open Scope list_scope.

Lemma truthy_off v : truthy v = false <-> off v.
Proof.
  unfold off. split.
  - destruct v as [|[]|z|s|[]|[]|n]; cbn [truthy]; try discriminate; intros H; cbn [List.length Nat.eqb negb] in H; try discriminate.
    + now left.
    + right. now left.
    + destruct (Z.eqb z 0) eqn:Z0; [|discriminate]. apply Z.eqb_eq in Z0 as ->. do 2 right. now left.
    + destruct (String.eqb s "") eqn:S0; [|discriminate]. apply String.eqb_eq in S0 as ->. do 3 right. now left.
    + do 4 right. now left.
    + do 5 right. now left.
  - intros H. repeat (destruct H as [<-|H]; [reflexivity|]). destruct H.
Qed.

Lemma truthy_on v : truthy v = true <-> ~ off v.
Proof. rewrite <- truthy_off. destruct (truthy v); split; intros; [discriminate|reflexivity|discriminate|exfalso; auto]. Qed.

Section Run.
  Context {E : Type} (w : world E).

  Lemma inversion_called_off cmd conf tut eventid gw pm plots args r e d :
    distinct args -> distinct d -> config_is (w_conf w) conf d -> In cmd inverting ->
    run w cmd conf tut eventid gw pm plots args = Ok (r, e) -> (r, e) <> (JNull, []) ->
    let al := or_default (override d args "align_sites") (JBool false) in
    exists a evs r0,
      w_invert w al a (Some evs) = Ok r0 /\
      (off al -> r = r0) /\
      get a "cmd" = Some (JStr cmd) /\
      forall k, passed_on plots k -> ~ In k data_options -> (off al \/ ~ In k align_options) ->
                k <> "input" -> k <> "input_sites" -> get a k = override d args k.
  Proof.
    intros Da Dd C I H N al. destruct (inversion_called w _ _ _ _ _ _ _ _ _ _ _ Da Dd C I H N) as (a & evs & r0 & A & B & G & K).
    exists a, evs, r0. split; [exact A|]. split; [intros X; apply B; now apply truthy_off|]. split; [exact G|].
    intros k P D [X|X]; apply K; auto. left. now apply truthy_off.
  Qed.

  Lemma none_go_off conf tut gw plots args d p l o :
    distinct args -> distinct d -> config_is (w_conf w) conf d ->
    prepared_by (w_conf w) conf "go" plots args p ->
    off (or_default (override d args "align_sites") (JBool false)) ->
    override d args "noplots" = None ->
    load w "go" false gw (dpop String.eqb (p_args p) "align_sites") = Ok l ->
    (forall al a evs, w_invert w al a evs = Ok JNull) ->
    p_output p = o -> (o = JNull \/ exists s, o = JStr s) ->
    exists e, run w "go" conf tut None gw false plots args = Ok (JNull, e) /\
      forall x, In x e -> x = Printed JNull \/ exists s, o = JStr s /\ x = Written s JNull (p_indent p).
  Proof. intros Da Dd C P A. apply truthy_off in A. exact (none_go w _ _ _ _ _ _ _ _ _ Da Dd C P A). Qed.

  Lemma plot_drawn_on result eventid args e :
    plot w result eventid args = Ok e ->
    (forall x, In x e -> exists name f o, x = Plotted name f o /\
       offered result eventid name /\ ~ off (value args ("plot_" ++ name)%string (JBool false)) /\
       as_wished (w_format w) result eventid args name f o /\ w_image w name result f o = Ok tt) /\
    (forall name, offered result eventid name -> ~ off (value args ("plot_" ++ name)%string (JBool false)) ->
       exists f o, In (Plotted name f o) e) /\
    NoDup (map plot_name e).
  Proof.
    intros H. destruct (plot_drawn w _ _ _ _ H) as (A & B & C). split; [|split; [|exact C]].
    - intros x I. destruct (A x I) as (name & f & o & X & O & T & K). exists name, f, o.
      split; [exact X|]. split; [exact O|]. split; [now apply truthy_on|exact K].
    - intros name O T. apply B; [exact O|now apply truthy_on].
  Qed.

  Lemma plot_title_on result id args o t :
    ~ off (value args "plot_eventresult" (JBool false)) ->
    value args "plot_eventresult_options" (JDict []) = JDict o -> dget String.eqb o "title" = Some t ->
    forall e, plot w result (Some id) args <> Ok e.
  Proof. intros T. apply truthy_on in T. exact (plot_title w result id args o t T). Qed.

  Lemma aligned_on cmd conf tut eventid gw pm plots args r e d :
    distinct args -> distinct d -> config_is (w_conf w) conf d -> In cmd calculating ->
    run w cmd conf tut eventid gw pm plots args = Ok (r, e) -> (r, e) <> (JNull, []) ->
    let al := or_default (override d args "align_sites") (JBool false) in
    ~ off al ->
    exists p r0 kw r1 a e0 rest,
      prepared_by (w_conf w) conf cmd plots args p /\
      start w cmd (override d args) al r0 /\
      align_keywords (override d args) kw /\ w_align w r0 kw = Ok r1 /\ recorded r1 kw r /\
      plot w r eventid a = Ok e0 /\ plot_arguments (p_args p) a /\ e = e0 ++ rest.
  Proof. intros Da Dd C I H N al A. apply truthy_on in A. exact (aligned w _ _ _ _ _ _ _ _ _ _ _ Da Dd C I H N A). Qed.

  Lemma recalculated_off conf tut eventid gw pm plots args r e d :
    distinct args -> distinct d -> config_is (w_conf w) conf d ->
    run w "recalc_source" conf tut eventid gw pm plots args = Ok (r, e) -> (r, e) <> (JNull, []) ->
    let al := or_default (override d args "align_sites") (JBool false) in
    off al ->
    exists p r0 kw r1 a e0 rest,
      prepared_by (w_conf w) conf "recalc_source" plots args p /\
      start w "recalc_source" (override d args) al r0 /\
      source_keywords (override d args) kw /\ w_source w r0 kw = Ok r1 /\ recorded r1 kw r /\
      plot w r eventid a = Ok e0 /\ plot_arguments (p_args p) a /\ e = e0 ++ rest.
  Proof. intros Da Dd C H N al A. apply truthy_off in A. exact (recalculated w _ _ _ _ _ _ _ _ _ _ Da Dd C H N A). Qed.

  (** ** magnitudes *)

  Lemma mags_total r : printable r -> exists e2, print_mags true r = Ok e2.
  Proof.
    intros (d & -> & P). cbn [print_mags jin bind]. destruct (dmem String.eqb d "events") eqn:M; [|eauto].
    unfold dmem in M. destruct (dget String.eqb d "events") as [x|] eqn:D; [|discriminate].
    destruct (P x eq_refl) as (evs & -> & F). cbn [jget]. rewrite D. cbn [bind].
    clear D M P. induction evs as [|[id y] evs IH]; [cbn; eauto|].
    destruct IH as (e2 & IH); [intros i z I; apply (F i z); now right|].
    destruct (F id y ltac:(now left)) as (ev & -> & MW). cbn [mapM fst snd]. unfold print_mag1 at 1. cbn [jin bind jget].
    unfold dmem. destruct (dget String.eqb ev "Mw") as [m|] eqn:D.
    - destruct (MW m eq_refl) as (z & ->). cbn [bind]. rewrite IH. cbn [bind]. eauto.
    - cbn [bind]. rewrite IH. cbn [bind]. eauto.
  Qed.

  Lemma run_print_mag cmd conf tut eventid gw plots args r e :
    In cmd calculating -> run w cmd conf tut eventid gw false plots args = Ok (r, e) -> (r, e) <> (JNull, []) ->
    printable r ->
    exists e2, run w cmd conf tut eventid gw true plots args = Ok (r, e ++ e2) /\ magnitudes true r e2.
  Proof.
    intros I H N PR. destruct (calculating_cmd cmd I) as (IC & N1 & N2 & N3).
    destruct (run_prepared_ex w _ _ _ _ _ _ _ _ _ _ IC N1 N2 H N) as (p & P).
    rewrite (run_prepared_by w _ _ _ _ _ _ _ _ _ IC N1 N2 P) in H. rewrite (run_prepared_by w _ _ _ _ _ _ _ _ _ IC N1 N2 P).
    destruct (mags_total r PR) as (e2 & M2). exists e2. split; [|exact (mags_printed _ _ _ M2)].
    unfold run_prepared in *. destruct (popd _ _ _) as [al a]. destruct (load w cmd (truthy al) gw a) as [l|x].
    - destruct (select_event _ _ _) as [ev|]; cbn [bind] in *; [|discriminate].
      unfold run_loaded in *. destruct (arguments _ _ _ _) as [kw a2].
      destruct (load_input w cmd a2) as [ia|]; cbn [bind] in *; [|discriminate].
      destruct (main_result w cmd al (fst ia) (snd ia) ev) as [r0|]; cbn [bind] in *; [|discriminate].
      destruct (postprocess w cmd kw eventid (snd ia) r0) as [[o e0]|]; cbn [bind fst snd] in *; [|discriminate].
      destruct o as [r1|]; [|discriminate].
      destruct (write w _ _ r1) as [e1|]; cbn [bind] in *; [|discriminate]. cbn [print_mags bind] in H.
      assert (r1 = r) as -> by congruence. assert (e = e0 ++ e1 ++ []) as -> by congruence.
      rewrite M2. cbn [bind]. now rewrite app_nil_r, app_assoc.
    - exfalso. apply N. destruct x; congruence.
  Qed.
End Run.
