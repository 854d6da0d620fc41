(** Lemmas about run: the command plot, alignment, recalculation and output. *)
From Coq Require Import String Ascii List Bool ZArith Arith.
From Verif Require Import Base PyStr StatProof CmdProof RunModel RunSpec RunProof RunProof2 RunProof3 RunProof4 RunSpec2 RunProof5.
Import ListNotations.
Open Scope string_scope.
Open Scope list_scope.

Lemma load_results_inv rj args name j a :
  load_results rj args name = Ok (j, a) ->
  exists v, get args name = Some v /\ content rj v j /\ a = dpop String.eqb args name.
Proof.
  unfold load_results. intros H. destruct (get args name) as [v|]; [|discriminate]. exists v. split; [reflexivity|].
  destruct v; try discriminate; cbn [content].
  - injection H as <- <-. auto.
  - injection H as <- <-. auto.
  - destruct (rj s); cbn [bind] in H; [|discriminate]. injection H as <- <-. auto.
  - injection H as <- <-. auto.
  - injection H as <- <-. auto.
  - injection H as <- <-. auto.
Qed.

Lemma load_results_missing rj args name : get args name = None \/ get args name = Some JNull -> load_results rj args name = Err ParseError.
Proof. unfold load_results. now intros [-> | ->]. Qed.

Lemma conf_name_given conf : conf_given conf -> exists c, conf = Some c /\ conf_name conf = Some c.
Proof.
  destruct conf as [c|]; cbn [conf_given]; [|tauto]. intros N. exists c. split; [reflexivity|]. cbn [conf_name].
  now rewrite not_inb.
Qed.

Lemma conf_name_not conf : ~ conf_given conf -> conf_name conf = None.
Proof.
  destruct conf as [c|]; [|reflexivity]. cbn [conf_given conf_name]. intros N.
  destruct (inb String.eqb c ["None"; "none"; "null"; ""]) eqn:B; [reflexivity|]. exfalso. apply N. intros I.
  rewrite (is_inb _ _ I) in B. discriminate.
Qed.

Lemma merge_readable read conf d args : config_is read conf d -> exists m, merge_conf read conf args = Ok (Some m).
Proof.
  intros C. unfold merge_conf. destruct conf as [c|]; cbn [config_is conf_name] in *; [|eauto].
  destruct C as [[I _]|[N R]].
  - rewrite (is_inb _ _ I). eauto.
  - rewrite (not_inb _ _ N), R. eauto.
Qed.

Lemma stations_split v : stations v (match v with
       | JStr s => match split_on ","%char s with
                   | [_] => JStr s
                   | l => JList (map JStr l)
                   end
       | v => v
       end).
Proof.
  destruct v; try reflexivity. cbn [stations].
  assert (L : forall l, listing l = join (String ","%char "") l).
  { intros l. induction l as [|x [|y l] IH]; try reflexivity. cbn [listing] in *. rewrite IH. reflexivity. }
  assert (NC : forall x, has_char ","%char x = false -> ~ comma x).
  { intros x H (a & b & ->). rewrite has_char_app in H. apply orb_false_iff in H. destruct H as [_ H]. discriminate. }
  pose proof (split_parts_free ","%char s) as F. pose proof (join_split ","%char s) as J.
  destruct (split_on ","%char s) as [|x [|y l]] eqn:S.
  - now apply split_on_ne in S.
  - left. cbn in J. subst x. split; [|reflexivity]. apply NC. rewrite Forall_forall in F. apply F. now left.
  - right. split.
    + exists x, (join (String ","%char "") (y :: l)). rewrite <- J. reflexivity.
    + exists (x :: y :: l). split; [reflexivity|]. split; [now rewrite L|]. intros z I.
      apply NC. rewrite Forall_forall in F. now apply F.
Qed.

Lemma update_config_recorded r1 kw r : NoDup (map fst kw) -> update_config r1 kw = Ok r -> recorded r1 kw r.
Proof.
  intros N H. unfold update_config in H. destruct r1 as [| | | | |d1|]; try discriminate. rewrite getd_value in H.
  destruct (value d1 "config" (JDict [])) as [| | | | |c1|] eqn:V; try discriminate.
  assert (r = JDict (dset String.eqb d1 "config" (JDict (dupdate String.eqb c1 kw)))) by congruence. subst r.
  exists d1, (dset String.eqb d1 "config" (JDict (dupdate String.eqb c1 kw))), c1, (dupdate String.eqb c1 kw).
  split; [reflexivity|]. split; [reflexivity|]. split; [exact V|]. split.
  - split; [now rewrite (dget_dset_eq _ string_eqb_spec)|]. intros k K. now rewrite (dget_dset_neq _ string_eqb_spec).
  - intros k. now apply get_update.
Qed.

Section Run.
  Context {E : Type} (w : world E).

  (** ** the command plot *)
  Lemma plot_input_shown b eventid args shown a :
    plot_input w b eventid args = Ok (shown, a) ->
    exists x file, get args "input" = Some x /\ content (w_json w) x file /\ shown_of file shown eventid a /\
      if b : bool then a = dpop String.eqb args "input"
      else exists c, jget file "config" = Ok (JDict c) /\ a = dupdate String.eqb c (dpop String.eqb args "input").
  Proof.
    unfold plot_input. intros H. destruct (load_results _ _ _) as [[file a0]|] eqn:L; cbn [bind] in H; [|discriminate].
    destruct (load_results_inv _ _ _ _ _ L) as (x & G & C & ->). exists x, file. split; [exact G|]. split; [exact C|].
    set (a0 := dpop String.eqb args "input") in *.
    assert (Z : exists r2 a2, (if b then do r <- jset file "config" (JDict a0); Ok (r, a0)
              else do c <- jget file "config";
                   match c with
                   | JDict c => let c := dupdate String.eqb c a0 in
                                do r <- jset file "config" (JDict c); Ok (r, c)
                   | _ => Err AttributeError
                   end) = Ok (r2, a2) /\ jset file "config" (JDict a2) = Ok r2 /\
              (if b then a2 = a0 else exists c, jget file "config" = Ok (JDict c) /\ a2 = dupdate String.eqb c a0)).
    { destruct b.
      - destruct (jset file "config" (JDict a0)) as [r|] eqn:J; cbn [bind] in *; [|discriminate]. exists r, a0. auto.
      - destruct (jget file "config") as [c|] eqn:JG; cbn [bind] in *; [|discriminate].
        destruct c as [| | | | |c|]; try discriminate. cbv zeta in *.
        destruct (jset file "config" _) as [r|] eqn:J; cbn [bind] in *; [|discriminate]. exists r, (dupdate String.eqb c a0). eauto. }
    destruct Z as (r2 & a2 & EQ & J & A). cbv beta iota in H. cbv beta iota zeta in EQ, H. rewrite EQ in H. cbn [bind] in H. clear EQ.
    destruct file as [| | | | |fd|]; try discriminate. cbn [jset] in J. assert (r2 = JDict (dset String.eqb fd "config" (JDict a2))) by congruence. subst r2. clear J.
    destruct eventid as [id|].
    - cbn [jget] in H. rewrite (dget_dset_neq _ string_eqb_spec) in H by discriminate.
      destruct (get fd "events") as [evs|] eqn:GE; cbn [bind] in H; [|discriminate].
      destruct (jget evs id) as [ev|] eqn:GI; cbn [bind jset] in H; [|discriminate].
      assert (shown = JDict (dset String.eqb (dset String.eqb fd "config" (JDict a2)) "events" (JDict [(id, ev)])) /\ a = a2) as (-> & ->)
        by (split; congruence).
      split; [|exact A]. eexists fd, _. split; [reflexivity|]. split; [reflexivity|].
      rewrite (dget_dset_neq _ string_eqb_spec), (dget_dset_eq _ string_eqb_spec) by discriminate. split; [reflexivity|]. split.
      + intros k K1 K2. now rewrite !(dget_dset_neq _ string_eqb_spec).
      + destruct evs as [| | | | |evs|]; try discriminate. cbn [jget] in GI. destruct (get evs id) as [ev2|] eqn:GG; [|discriminate].
        assert (ev2 = ev) by congruence. subst ev2. exists evs, ev.
        split; [exact GE|]. split; [exact GG|]. now rewrite (dget_dset_eq _ string_eqb_spec).
    - cbn [bind] in H. assert (shown = JDict (dset String.eqb fd "config" (JDict a2)) /\ a = a2) as (-> & ->) by (split; congruence).
      split; [|exact A]. eexists fd, _. split; [reflexivity|]. split; [reflexivity|].
      rewrite (dget_dset_eq _ string_eqb_spec). split; [reflexivity|]. split.
      + intros k K1 K2. now rewrite (dget_dset_neq _ string_eqb_spec).
      + now rewrite (dget_dset_neq _ string_eqb_spec).
  Qed.

  Lemma plot_command_run conf tut eventid gw pm plots args d j e :
    distinct args -> distinct d -> config_is (w_conf w) conf d ->
    run w "plot" conf tut eventid gw pm plots args = Ok (j, e) ->
    exists p x file shown a,
      prepared_by (w_conf w) conf "plot" plots args p /\
      override d args "input" = Some x /\ content (w_json w) x file /\ shown_of file shown eventid a /\
      plot w shown eventid a = Ok e /\ j = JNull /\
      (conf_given conf -> forall k, k <> "input" -> get a k = get (p_args p) k) /\
      (~ conf_given conf -> exists c, jget file "config" = Ok (JDict c) /\
         forall k, k <> "input" -> get a k = override c (p_args p) k).
  Proof.
    intros Da Dd C H. rewrite run_cmd in H by (cbn; tauto || discriminate).
    destruct (merge_readable _ _ _ args C) as (m & M). rewrite M in H. cbn [bind] in H.
    destruct (prepare "plot" plots m) as [p|] eqn:P; cbn [bind] in H; [|discriminate]. streq_in H. cbv iota in H.
    assert (PB : prepared_by (w_conf w) conf "plot" plots args p) by (exists m; auto).
    destruct (plot_command _ _ _ _) as [e1|] eqn:PC; cbn [bind] in H; [|discriminate]. injection H as <- <-.
    unfold plot_command in PC.
    destruct (plot_input _ _ _ _) as [[shown a]|] eqn:PI; cbn [bind] in PC; [|discriminate].
    destruct (plot_input_shown _ _ _ _ _ PI) as (x & file & G & CT & S & A).
    exists p, x, file, shown, a. split; [exact PB|].
    split. { rewrite <- G. symmetry. apply (precedence_other _ _ _ _ _ _ _ Da Dd C PB). apply pass_input. now left. }
    split; [exact CT|]. split; [exact S|]. split; [exact PC|]. split; [reflexivity|].
    assert (D1 : distinct (p_args p)).
    { refine (prepare_distinct _ _ _ _ _ P). destruct (merged _ _ _ _ _ Da Dd C M) as [DM _]. exact DM. }
    split.
    - intros CG k K. destruct (conf_name_given _ CG) as (c & _ & CN). rewrite CN in A. subst a.
      now apply (dget_dpop_neq _ sspec).
    - intros CG. rewrite (conf_name_not _ CG) in A. destruct A as (c & JC & ->). exists c. split; [exact JC|].
      intros k K. rewrite get_update by (apply (pops_distinct ["input"]); exact D1).
      unfold override. now rewrite (dget_dpop_neq _ sspec).
  Qed.

  (** ** alignment, recalculation, output *)

  Lemma calculating_cmd cmd : In cmd calculating -> In cmd commands /\ cmd <> "create" /\ cmd <> "plot" /\ cmd <> "rt".
  Proof. intros I. cbn in I. repeat (destruct I as [<-|I]; [cbn; intuition discriminate|]). destruct I. Qed.

  Lemma run_steps cmd eventid pm gw p r e :
    run_prepared w cmd eventid pm gw p = Ok (r, e) -> (r, e) <> (JNull, []) ->
    let al := getd (p_args p) "align_sites" (JBool false) in
    exists l evs kw a ri a2 r0 e0 e1 e2,
      load w cmd (truthy al) gw (dpop String.eqb (p_args p) "align_sites") = Ok l /\
      arguments (truthy al) (l_inventory l) (option_map snd (l_events l)) (l_args l) = (kw, a) /\
      load_input w cmd a = Ok (ri, a2) /\ main_result w cmd al ri a2 evs = Ok (Some r0) /\
      postprocess w cmd kw eventid a2 (Some r0) = Ok (Some r, e0) /\
      write w (p_output p) (p_indent p) r = Ok e1 /\ print_mags pm r = Ok e2 /\ e = e0 ++ e1 ++ e2.
  Proof.
    intros H N al. unfold run_prepared, popd in H. fold al in H.
    destruct (load w cmd (truthy al) gw _) as [l|ex] eqn:L.
    2:{ destruct ex; congruence. }
    destruct (select_event _ _ _) as [evs|] eqn:S; cbn [bind] in H; [|discriminate].
    unfold run_loaded in H.
    destruct (arguments _ _ _ _) as [kw a] eqn:A.
    destruct (load_input w cmd a) as [[ri a2]|] eqn:LI; cbn [bind fst snd] in H; [|discriminate].
    destruct (main_result _ _ _ _ _ _) as [r0|] eqn:M; cbn [bind] in H; [|discriminate].
    destruct (postprocess _ _ _ _ _ _) as [[r1 e0]|] eqn:PP; cbn [bind fst snd] in H; [|discriminate].
    destruct r1 as [r1|]; [|discriminate].
    destruct (write _ _ _ _) as [e1|] eqn:W; cbn [bind] in H; [|discriminate].
    destruct (print_mags _ _) as [e2|] eqn:PM; cbn [bind] in H; [|discriminate].
    assert (r1 = r /\ e = e0 ++ e1 ++ e2) as [-> ->] by (split; congruence).
    destruct r0 as [r0|].
    - exists l, evs, kw, a, ri, a2, r0, e0, e1, e2. repeat split; assumption.
    - cbn [postprocess] in PP. destruct kw; discriminate.
  Qed.

  Lemma al_get align i g args kw a cmd ri a2 k :
    arguments align i g args = (kw, a) -> load_input w cmd a = Ok (ri, a2) ->
    k <> "inventory" -> k <> "get_waveforms" -> k <> "input" -> k <> "input_sites" ->
    align = false \/ ~ In k align_options -> get a2 k = get args k.
  Proof.
    intros A L N1 N2 N3 N4 N5. rewrite (load_input_args _ _ _ _ _ k L) by assumption. now apply (arguments_get _ _ _ _ _ _ k A).
  Qed.

  Lemma plot_arguments_passed cmd p al l kw a ri a2 gw :
    load w cmd (truthy al) gw (dpop String.eqb (p_args p) "align_sites") = Ok l ->
    arguments (truthy al) (l_inventory l) (option_map snd (l_events l)) (l_args l) = (kw, a) ->
    load_input w cmd a = Ok (ri, a2) -> plot_arguments (p_args p) a2.
  Proof.
    intros L A LI k I.
    assert (Z : ~ In k (data_options ++ align_options ++ ["input"; "input_sites"])).
    { cbn in I |- *. repeat (destruct I as [<-|I]; [intuition discriminate|]). destruct I. }
    rewrite (al_get _ _ _ _ _ _ _ _ _ k A LI).
    - rewrite (load_args _ _ _ _ _ _ k L) by (intros J; apply Z, in_app_iff; now left).
      apply (dget_dpop_neq _ sspec). intros ->. apply Z. cbn. tauto.
    - intros ->. apply Z. cbn. tauto.
    - intros ->. apply Z. cbn. tauto.
    - intros ->. apply Z. cbn. tauto.
    - intros ->. apply Z. cbn. tauto.
    - right. intros J. apply Z. apply in_app_iff. right. apply in_app_iff. now left.
  Qed.

  Lemma pass_align plots k : In k align_options -> passed_on plots k /\ ~ In k data_options /\ k <> "align_sites".
  Proof.
    intros I. cbn in I. repeat (destruct I as [<-|I]; [repeat split; try (right; cbn; intuition discriminate); cbn; intuition discriminate|]).
    destruct I.
  Qed.

  Lemma align_option conf d cmd plots args p al gw l k :
    distinct args -> distinct d -> config_is (w_conf w) conf d -> prepared_by (w_conf w) conf cmd plots args p ->
    load w cmd al gw (dpop String.eqb (p_args p) "align_sites") = Ok l ->
    In k align_options -> get (l_args l) k = override d args k.
  Proof.
    intros Da Dd C P L I. destruct (pass_align plots k I) as (P1 & P2 & P3).
    rewrite (load_args _ _ _ _ _ _ k L P2), (dget_dpop_neq _ sspec) by assumption.
    exact (precedence_other _ _ _ _ _ _ _ Da Dd C P k P1).
  Qed.

  Lemma align_arguments_keywords look a : (forall k, In k align_options -> get a k = look k) -> align_keywords look (align_arguments a).
  Proof.
    intros H. unfold align_keywords, source_keywords, align_arguments.
    assert (Z : forall k x, In k align_options -> getd a k x = or_default (look k) x).
    { intros k x I. unfold getd. now rewrite (H k I). }
    rewrite !Z by (cbn; tauto).
    split; [split; reflexivity|]. split; [reflexivity|]. eexists. split; [reflexivity|].
    pose proof (stations_split (or_default (look "align_sites_station") JNull)) as S.
    destruct (or_default (look "align_sites_station") JNull); exact S.
  Qed.

  Lemma start_of conf d cmd plots args p gw l kw a ri a2 evs r0 al :
    distinct args -> distinct d -> config_is (w_conf w) conf d -> prepared_by (w_conf w) conf cmd plots args p ->
    load w cmd (truthy al) gw (dpop String.eqb (p_args p) "align_sites") = Ok l ->
    arguments (truthy al) (l_inventory l) (option_map snd (l_events l)) (l_args l) = (kw, a) ->
    load_input w cmd a = Ok (ri, a2) -> main_result w cmd al ri a2 evs = Ok (Some r0) ->
    start w cmd (override d args) al r0.
  Proof.
    intros Da Dd C P L A LI M. split.
    - intros I. unfold main_result in M. change ["go"; "fixed"; "source"] with inverting in M. rewrite (is_inb _ _ I) in M.
      cbv zeta in M. destruct (dmem _ _ "noplots"); [discriminate|].
      destruct (w_invert w al _ evs) as [r|] eqn:W; cbn [bind] in M; [|discriminate]. assert (r = r0) by congruence. subst r. eauto.
    - intros -> IS. unfold main_result in M. change (inb String.eqb "recalc_source" ["go"; "fixed"; "source"]) with false in M.
      streq_in M. cbv iota in M. injection M as ->.
      assert (Z : forall k, In k ["input"; "input_sites"] -> get a k = override d args k).
      { intros k I. rewrite (arguments_get _ _ _ _ _ _ k A).
        - rewrite (load_args _ _ _ _ _ _ k L).
          + rewrite (dget_dpop_neq _ sspec).
            * apply (precedence_other _ _ _ _ _ _ _ Da Dd C P). now apply pass_input.
            * intros ->. cbn in I. intuition discriminate.
          + cbn in I. destruct I as [<-|[<-|[]]]; cbn; intuition discriminate.
        - intros ->. cbn in I. intuition discriminate.
        - intros ->. cbn in I. intuition discriminate.
        - right. cbn in I. destruct I as [<-|[<-|[]]]; cbn; intuition discriminate. }
      unfold load_input in LI. change (inb String.eqb "recalc_source" ["fixed"; "source"; "recalc_source"]) with true in LI.
      cbv iota in LI. destruct (load_results _ _ _) as [[j a1]|] eqn:LR; cbn [bind fst snd] in LI; [|discriminate].
      destruct (load_results_inv _ _ _ _ _ LR) as (x & G & CT & ->).
      unfold dmem in LI. rewrite (dget_dpop_neq _ sspec) in LI by discriminate.
      rewrite (Z "input_sites" ltac:(cbn; tauto)), IS in LI. cbv iota in LI. assert (j = r0) by congruence. subst j.
      exists x. split; [|exact CT]. rewrite <- G. symmetry. apply Z. now left.
  Qed.

  Lemma aligned cmd conf tut eventid gw pm plots args r e d :
    distinct args -> distinct d -> config_is (w_conf w) conf d -> In cmd calculating ->
    run w cmd conf tut eventid gw pm plots args = Ok (r, e) -> (r, e) <> (JNull, []) ->
    let al := or_default (override d args "align_sites") (JBool false) in
    truthy al = true ->
    exists p r0 kw r1 a e0 rest,
      prepared_by (w_conf w) conf cmd plots args p /\
      start w cmd (override d args) al r0 /\
      align_keywords (override d args) kw /\ w_align w r0 kw = Ok r1 /\ recorded r1 kw r /\
      plot w r eventid a = Ok e0 /\ plot_arguments (p_args p) a /\ e = e0 ++ rest.
  Proof.
    intros Da Dd C I H N al T. destruct (calculating_cmd cmd I) as (IC & N1 & N2 & N3).
    destruct (run_prepared_ex _ _ _ _ _ _ _ _ _ _ _ IC N1 N2 H N) as (p & P).
    rewrite (run_prepared_by _ _ _ _ _ _ _ _ _ _ IC N1 N2 P) in H.
    destruct (run_steps _ _ _ _ _ _ _ H N) as (l & evs & kw & a & ri & a2 & r0 & e0 & e1 & e2 & L & A & LI & M & PP & _ & _ & EE).
    rewrite (align_sites_value _ _ _ _ _ _ _ Da Dd C P) in *. fold al in L, A, M.
    pose proof (start_of _ _ _ _ _ _ _ _ _ _ _ _ _ _ _ Da Dd C P L A LI M) as ST.
    pose proof (plot_arguments_passed _ _ _ _ _ _ _ _ _ L A LI) as PA.
    unfold arguments in A. rewrite T in A. assert (kw = Some (align_arguments (l_args l))) by congruence. subst kw. clear A.
    cbn [postprocess] in PP.
    destruct (w_align w r0 _) as [r1|] eqn:WA; cbn [bind] in PP; [|discriminate].
    destruct (update_config r1 _) as [r2|] eqn:U; cbn [bind] in PP; [|discriminate].
    destruct (plot w r2 eventid a2) as [e3|] eqn:PL; cbn [bind] in PP; [|discriminate].
    assert (r2 = r /\ e3 = e0) as [-> ->] by (split; congruence).
    exists p, r0, (align_arguments (l_args l)), r1, a2, e0, (e1 ++ e2).
    split; [exact P|]. split; [exact ST|]. split.
    { apply align_arguments_keywords. intros k K. exact (align_option _ _ _ _ _ _ _ _ _ _ Da Dd C P L K). }
    split; [exact WA|]. split; [|repeat split; auto]. apply update_config_recorded; [|exact U].
    cbn. repeat constructor; cbn; intuition discriminate.
  Qed.

  Lemma recalculated conf tut eventid gw pm plots args r e d :
    distinct args -> distinct d -> config_is (w_conf w) conf d ->
    run w "recalc_source" conf tut eventid gw pm plots args = Ok (r, e) -> (r, e) <> (JNull, []) ->
    let al := or_default (override d args "align_sites") (JBool false) in
    truthy al = false ->
    exists p r0 kw r1 a e0 rest,
      prepared_by (w_conf w) conf "recalc_source" plots args p /\
      start w "recalc_source" (override d args) al r0 /\
      source_keywords (override d args) kw /\ w_source w r0 kw = Ok r1 /\ recorded r1 kw r /\
      plot w r eventid a = Ok e0 /\ plot_arguments (p_args p) a /\ e = e0 ++ rest.
  Proof.
    intros Da Dd C H N al T. destruct (calculating_cmd "recalc_source" ltac:(cbn; tauto)) as (IC & N1 & N2 & N3).
    destruct (run_prepared_ex _ _ _ _ _ _ _ _ _ _ _ IC N1 N2 H N) as (p & P).
    rewrite (run_prepared_by _ _ _ _ _ _ _ _ _ _ IC N1 N2 P) in H.
    destruct (run_steps _ _ _ _ _ _ _ H N) as (l & evs & kw & a & ri & a2 & r0 & e0 & e1 & e2 & L & A & LI & M & PP & _ & _ & EE).
    rewrite (align_sites_value _ _ _ _ _ _ _ Da Dd C P) in *. fold al in L, A, M.
    pose proof (start_of _ _ _ _ _ _ _ _ _ _ _ _ _ _ _ Da Dd C P L A LI M) as ST.
    pose proof (plot_arguments_passed _ _ _ _ _ _ _ _ _ L A LI) as PA.
    assert (Z : forall k, In k align_options -> get a2 k = override d args k).
    { intros k K. rewrite (al_get _ _ _ _ _ _ _ _ _ k A LI); try (intros ->; cbn in K; intuition discriminate); [|now left].
      exact (align_option _ _ _ _ _ _ _ _ _ _ Da Dd C P L K). }
    unfold arguments in A. rewrite T in A. assert (kw = None) by congruence. subst kw. clear A.
    cbn [postprocess] in PP. streq_in PP. cbv iota in PP. unfold popd in PP. cbv zeta in PP.
    match type of PP with context [w_source w r0 ?l] => set (kw := l) in * end.
    destruct (w_source w r0 kw) as [r1|] eqn:WA; cbn [bind] in PP; [|discriminate].
    destruct (update_config r1 _) as [r2|] eqn:U; cbn [bind] in PP; [|discriminate].
    destruct (plot w r2 eventid _) as [e3|] eqn:PL; cbn [bind] in PP; [|discriminate].
    assert (r2 = r /\ e3 = e0) as [-> ->] by (split; congruence).
    eexists p, r0, kw, r1, _, e0, (e1 ++ e2).
    split; [exact P|]. split; [exact ST|]. split.
    { unfold source_keywords, kw. cbn [dget]. streq. cbv iota. unfold getd.
      rewrite (dget_dpop_neq _ sspec) by discriminate. rewrite !Z by (cbn; tauto). split; reflexivity. }
    split; [exact WA|]. split.
    { apply update_config_recorded; [|exact U]. cbn. repeat constructor; cbn; intuition discriminate. }
    split; [exact PL|]. split; [|exact EE].
    intros k K. assert (NK : k <> "seismic_moment_method" /\ k <> "seismic_moment_options").
    { cbn in K. repeat (destruct K as [<-|K]; [split; discriminate|]). destruct K. }
    rewrite !(dget_dpop_neq _ sspec) by tauto. now apply PA.
  Qed.

  Lemma write_output output indent r e : write w output indent r = Ok e -> output_of (w_lower w) output indent r e.
  Proof.
    unfold write, output_of. destruct output; try discriminate; intros H.
    - injection H as <-. auto.
    - destruct (String.eqb_spec s "stdout") as [->|N].
      + injection H as <-. auto.
      + destruct (inb String.eqb (w_lower w s) ["none"; "null"; ""]) eqn:B.
        * apply (inb_In _ sspec) in B. injection H as <-. auto.
        * injection H as <-. right. right. split; [assumption|]. split; [|reflexivity]. intros I.
          rewrite (is_inb _ _ I) in B. discriminate.
  Qed.

  Lemma mags_printed pm r e : print_mags pm r = Ok e -> magnitudes pm r e.
  Proof.
    unfold print_mags, magnitudes. destruct pm; [|congruence]. intros H.
    destruct (jin r "events") as [b|] eqn:J; cbn [bind] in H; [|discriminate]. pose proof (jin_has _ _ _ J) as HE.
    destruct b.
    - right. destruct (jget r "events") as [evs|] eqn:G; cbn [bind] in H; [|discriminate].
      destruct evs as [| | | | |evs|]; try discriminate. destruct r as [| | | | |d|]; try discriminate. cbn [jget] in G.
      destruct (get d "events") as [v|] eqn:GE; [|discriminate]. assert (v = JDict evs) by congruence. subst v.
      exists d, evs. split; [reflexivity|]. split; [exact GE|]. clear GE G J HE. revert e H.
      induction evs as [|[id ev] evs IH]; intros e H; cbn [mapM] in H.
      + injection H as <-. constructor.
      + destruct (print_mag1 _ _) as [x|] eqn:P1; cbn [bind] in H; [|discriminate].
        destruct (mapM _ evs) as [xs|] eqn:M; cbn [bind] in H; [|discriminate]. injection H as <-.
        constructor; [|now apply IH]. cbn [fst snd] in *. unfold print_mag1 in P1.
        destruct ev as [| | | | |ev|]; try discriminate. exists ev. split; [reflexivity|]. cbn [jin bind] in P1. unfold dmem in P1.
        destruct (get ev "Mw") as [m|] eqn:GM; cbn [jget] in P1; [rewrite GM in P1; cbn [bind] in P1|congruence].
        destruct m; try discriminate; congruence.
    - left. split; [|congruence]. intros X. apply HE in X. discriminate.
  Qed.

  Lemma plotted_only cmd kw eventid a r0 r e :
    postprocess w cmd kw eventid a (Some r0) = Ok (Some r, e) -> forall x, In x e -> exists name f o, x = Plotted name f o.
  Proof.
    unfold postprocess. intros H.
    assert (Z : forall r a e, plot w r eventid a = Ok e -> forall x, In x e -> exists name f o, x = Plotted name f o).
    { intros r1 a1 e1 P x I. destruct (plot_drawn _ _ _ _ _ P) as [D _]. destruct (D x I) as (n & f & o & -> & _). eauto. }
    destruct kw as [kw|].
    - destruct (w_align _ _ _) as [r1|]; cbn [bind] in H; [|discriminate].
      destruct (update_config _ _) as [r2|]; cbn [bind] in H; [|discriminate].
      destruct (plot _ _ _ _) as [e2|] eqn:P; cbn [bind] in H; [|discriminate]. assert (e2 = e) by congruence. subst. eapply Z; eauto.
    - destruct (String.eqb cmd "recalc_source").
      + unfold popd in H. cbv zeta in H. destruct (w_source _ _ _) as [r1|]; cbn [bind] in H; [|discriminate].
        destruct (update_config _ _) as [r2|]; cbn [bind] in H; [|discriminate].
        destruct (plot _ _ _ _) as [e2|] eqn:P; cbn [bind] in H; [|discriminate]. assert (e2 = e) by congruence. subst. eapply Z; eauto.
      + assert (e = []) by congruence. subst. intros x [].
  Qed.

  Lemma run_output cmd conf tut eventid gw pm plots args r e p :
    In cmd calculating -> prepared_by (w_conf w) conf cmd plots args p ->
    run w cmd conf tut eventid gw pm plots args = Ok (r, e) -> (r, e) <> (JNull, []) ->
    exists e0 e1 e2, e = e0 ++ e1 ++ e2 /\ (forall x, In x e0 -> exists name f o, x = Plotted name f o) /\
      output_of (w_lower w) (p_output p) (p_indent p) r e1 /\ magnitudes pm r e2.
  Proof.
    intros I P H N. destruct (calculating_cmd cmd I) as (IC & N1 & N2 & N3).
    rewrite (run_prepared_by _ _ _ _ _ _ _ _ _ _ IC N1 N2 P) in H.
    destruct (run_steps _ _ _ _ _ _ _ H N) as (l & evs & kw & a & ri & a2 & r0 & e0 & e1 & e2 & L & A & LI & M & PP & W & PM & EE).
    exists e0, e1, e2. split; [exact EE|]. split; [exact (plotted_only _ _ _ _ _ _ _ PP)|].
    split; [exact (write_output _ _ _ _ W)|exact (mags_printed _ _ _ PM)].
  Qed.

  (** ** missing files *)

  Lemma conf_unreadable cmd c tut eventid gw pm plots args :
    In cmd commands -> cmd <> "create" -> conf_given (Some c) -> w_conf w c = CfgError ->
    run w cmd (Some c) tut eventid gw pm plots args = Ok (JNull, []).
  Proof.
    intros I N G R. rewrite run_cmd by assumption. destruct (conf_name_given _ G) as (c2 & E2 & CN). injection E2 as <-.
    unfold merge_conf. now rewrite CN, R.
  Qed.

  Lemma load_fails cmd conf tut eventid gw pm plots args p x :
    In cmd commands -> cmd <> "create" -> cmd <> "plot" -> prepared_by (w_conf w) conf cmd plots args p ->
    load w cmd (truthy (getd (p_args p) "align_sites" (JBool false))) gw (dpop String.eqb (p_args p) "align_sites") = Err x ->
    (~ exit x -> run w cmd conf tut eventid gw pm plots args = Ok (JNull, [])) /\
    (exit x -> run w cmd conf tut eventid gw pm plots args = Err x).
  Proof.
    intros I N1 N2 P L. rewrite (run_prepared_by _ _ _ _ _ _ _ _ _ _ I N1 N2 P). unfold run_prepared, popd. rewrite L.
    unfold exit. split.
    - intros X. destruct x; try reflexivity; exfalso; apply X; auto.
    - intros [-> | ->]; reflexivity.
  Qed.

  Lemma inventory_fails cmd conf tut eventid gw pm plots args d x :
    distinct args -> distinct d -> config_is (w_conf w) conf d -> In cmd inverting ->
    override d args "inventory" = None \/ (forall i f, w_inventory w i f = Err x) ->
    (exists p, prepared_by (w_conf w) conf cmd plots args p) -> ~ exit x ->
    run w cmd conf tut eventid gw pm plots args = Ok (JNull, []).
  Proof.
    intros Da Dd C I F (p & P) X. destruct (inverting_cmd cmd I) as (IC & N1 & N2 & N3 & N4).
    set (al := truthy (getd (p_args p) "align_sites" (JBool false))).
    assert (L : exists y, load w cmd al gw (dpop String.eqb (p_args p) "align_sites") = Err y /\ ~ exit y).
    { unfold load. apply String.eqb_neq in N3. rewrite N3. cbn [negb orb]. unfold load_inventory.
      rewrite (dget_dpop_neq _ sspec) by discriminate.
      rewrite (precedence_other _ _ _ _ _ _ _ Da Dd C P "inventory")
        by (repeat split; try (right; cbn; intuition discriminate); cbn; intuition discriminate).
      destruct F as [-> | F].
      - exists KeyError. split; [reflexivity|]. intros [Y|Y]; discriminate.
      - destruct (override d args "inventory").
        + unfold popd. rewrite F. exists x. auto.
        + exists KeyError. split; [reflexivity|]. intros [Y|Y]; discriminate. }
    destruct L as (y & L & Y). now apply (load_fails cmd conf tut eventid gw pm plots args p y IC N1 N2 P L).
  Qed.

  Lemma input_missing cmd conf tut gw pm plots args d p l :
    distinct args -> distinct d -> config_is (w_conf w) conf d -> In cmd ["fixed"; "source"; "recalc_source"] ->
    prepared_by (w_conf w) conf cmd plots args p ->
    load w cmd (truthy (getd (p_args p) "align_sites" (JBool false))) gw (dpop String.eqb (p_args p) "align_sites") = Ok l ->
    override d args "input" = None \/ override d args "input" = Some JNull ->
    run w cmd conf tut None gw pm plots args = Err ParseError.
  Proof.
    intros Da Dd C I P L M.
    assert (IC : In cmd commands /\ cmd <> "create" /\ cmd <> "plot").
    { cbn in I. repeat (destruct I as [<-|I]; [cbn; intuition discriminate|]). destruct I. }
    destruct IC as (IC & N1 & N2).
    rewrite (run_prepared_by _ _ _ _ _ _ _ _ _ _ IC N1 N2 P). unfold run_prepared, popd. rewrite L. cbn [select_event bind].
    unfold run_loaded. destruct (arguments _ _ _ _) as [kw a] eqn:A.
    assert (Z : get a "input" = override d args "input").
    { rewrite (arguments_get _ _ _ _ _ _ "input" A); [|discriminate|discriminate|right; cbn; intuition discriminate].
      rewrite (load_args _ _ _ _ _ _ "input" L) by (cbn; intuition discriminate).
      rewrite (dget_dpop_neq _ sspec) by discriminate.
      apply (precedence_other _ _ _ _ _ _ _ Da Dd C P). apply pass_input. now left. }
    unfold load_input. rewrite (is_inb _ _ I). rewrite load_results_missing by (now rewrite Z). reflexivity.
  Qed.

  Lemma plot_input_missing conf tut eventid gw pm plots args d p :
    distinct args -> distinct d -> config_is (w_conf w) conf d ->
    prepared_by (w_conf w) conf "plot" plots args p ->
    override d args "input" = None \/ override d args "input" = Some JNull ->
    run w "plot" conf tut eventid gw pm plots args = Err ParseError.
  Proof.
    intros Da Dd C P M. rewrite run_cmd by (cbn; tauto || discriminate).
    pose proof (precedence_other _ _ _ _ _ _ _ Da Dd C P "input" (pass_input plots "input" ltac:(now left))) as Z.
    destruct P as (m & MC & P). rewrite MC. cbn [bind]. rewrite P. cbn [bind]. streq. cbv iota.
    unfold plot_command, plot_input. rewrite load_results_missing by (now rewrite Z). reflexivity.
  Qed.

  Lemma created conf tut eventid gw pm plots args :
    exists e, run w "create" conf tut eventid gw pm plots args = Ok (JNull, e) /\
      exists dest, (conf_given conf -> conf = Some dest) /\ (~ conf_given conf -> dest = "conf.json") /\
        forall x, In x e <-> x = Copied "conf.json" dest \/
          (tut = true /\ exists src, In src ["example_events.xml"; "example_inventory.xml"; "example_data.mseed"] /\
                                    x = Copied src (w_join w dest src)).
  Proof.
    unfold run. cbn [inb existsb commands]. change (negb (inb String.eqb "create" commands)) with false. cbv iota.
    streq. cbv iota. eexists. split; [reflexivity|].
    exists (match conf_name conf with Some c => c | None => "conf.json" end). split; [|split].
    - intros G. destruct (conf_name_given _ G) as (c & -> & ->). reflexivity.
    - intros G. now rewrite (conf_name_not _ G).
    - intros x. unfold create. split.
      + intros [<-|I]; [now left|]. right. destruct tut; [|destruct I]. split; [reflexivity|].
        apply in_map_iff in I. destruct I as (src & <- & I). eauto.
      + intros [->|(Ht & src0 & I & ->)]; [now left|]. right. rewrite Ht.
        exact (in_map (fun src => Copied src (w_join w _ src)) _ _ I).
  Qed.
End Run.
