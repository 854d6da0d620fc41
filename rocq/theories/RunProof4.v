(** Lemmas about run: site responses of another file, runs without results. *)
From Coq Require Import String List Bool ZArith Arith.
From Verif Require Import Base RunModel RunSpec RunProof RunProof2 RunProof3.
Import ListNotations.
Open Scope string_scope.
Open Scope list_scope.

(** ** replacing site responses *)

Lemma events_sites_get sevs : forall d d2 id,
  mapM (fun kv => do e <- event_sites sevs (fst kv) (snd kv); Ok (fst kv, e)) d = Ok d2 ->
  match get d id with
  | None => get d2 id = None
  | Some e => exists e2, get d2 id = Some e2 /\ event_sites sevs id e = Ok e2
  end.
Proof.
  induction d as [|[k e] d IH]; intros d2 id H; cbn in H.
  - injection H as <-. reflexivity.
  - destruct (event_sites sevs k e) as [e2|] eqn:EE; cbn in H; [|discriminate].
    destruct (mapM _ d) as [d3|] eqn:M; cbn in H; [|discriminate]. injection H as <-. cbn [dget].
    destruct (String.eqb_spec id k) as [->|N]; [eauto|]. exact (IH d3 id eq_refl).
Qed.

Lemma put_sites_ok r s r2 :
  put_sites (JDict r) s = Ok r2 ->
  exists R d2, jget s "R" = Ok R /\ r2 = JDict d2 /\ get d2 "R" = Some R /\
    (forall k, k <> "R" -> k <> "events" -> get d2 k = get r k).
Proof.
  unfold put_sites. intros H. destruct (jget s "R") as [R|] eqn:JR; cbn [bind jset] in H; [|discriminate].
  destruct (jin (JDict _) "events") as [b1|]; cbn [bind] in H; [|discriminate].
  destruct (if b1 then jin s "events" else Ok false) as [b2|]; cbn [bind] in H; [|discriminate].
  exists R. destruct b2.
  - destruct (jget (JDict _) "events") as [evs|]; cbn [bind] in H; [|discriminate].
    destruct (jget s "events") as [sevs|]; cbn [bind] in H; [|discriminate].
    destruct (events_sites sevs evs) as [e2|]; cbn [bind jset] in H; [|discriminate].
    injection H as <-. eexists. split; [reflexivity|]. split; [reflexivity|]. split.
    + rewrite !get_set. reflexivity.
    + intros k N1 N2. rewrite !get_set. apply String.eqb_neq in N1, N2. now rewrite N1, N2.
  - injection H as <-. eexists. split; [reflexivity|]. split; [reflexivity|]. split.
    + rewrite get_set. reflexivity.
    + intros k N1 N2. rewrite get_set. apply String.eqb_neq in N1. now rewrite N1.
Qed.

(** the events: same ids, other entries unchanged *)
Lemma put_sites_events r s d2 evs id e :
  put_sites (JDict r) s = Ok (JDict d2) -> get r "events" = Some (JDict evs) -> get evs id = Some (JDict e) ->
  exists evs2 e2, get d2 "events" = Some (JDict evs2) /\ get evs2 id = Some (JDict e2) /\
    (forall k, k <> "R" -> get e2 k = get e k) /\
    match jget s "events" with
    | Ok (JDict sevs) => match get sevs id with
                         | Some (JDict se) => if dmem String.eqb se "R" then get e2 "R" = Some (JDict se)
                                              else get e2 "R" = get e "R"
                         | _ => get e2 "R" = get e "R"
                         end
    | _ => get e2 "R" = get e "R"
    end.
Proof.
  intros H G1 G2. unfold put_sites in H.
  destruct (jget s "R") as [R|] eqn:JR; cbn [bind jset] in H; [|discriminate].
  cbn [jin] in H. unfold dmem at 1 in H. rewrite get_set in H. streq_in H. cbv iota in H. rewrite G1 in H. cbn [bind] in H.
  destruct s as [| | | | |s|]; try discriminate. cbn [jin bind jget] in *. unfold dmem in H at 1.
  destruct (get s "events") as [sevs|].
  - cbn [bind] in H. rewrite get_set in H. streq_in H. cbv iota in H. rewrite G1 in H. cbn [bind events_sites] in H.
    destruct (mapM _ evs) as [evs2|] eqn:M; cbn [bind jset] in H; [|discriminate].
    injection H as <-. pose proof (events_sites_get sevs evs evs2 id M) as Z. rewrite G2 in Z.
    destruct Z as (e2 & G3 & EE). unfold event_sites in EE.
    destruct sevs as [| | | | |sevs|]; cbn [jin bind] in EE; try discriminate.
    unfold dmem in EE at 1. cbn [jget] in EE. destruct (get sevs id) as [se|]; cbn [bind] in EE.
    + destruct se as [| | | | |se|]; cbn [jin bind] in EE; try discriminate.
      destruct (dmem String.eqb se "R").
      * cbn [jset] in EE. injection EE as <-. eexists _, _. rewrite get_set. split; [reflexivity|].
        split; [exact G3|]. split.
        -- intros k N. rewrite get_set. apply String.eqb_neq in N. now rewrite N.
        -- now rewrite get_set.
      * injection EE as <-. eexists _, _. rewrite get_set. split; [reflexivity|]. split; [exact G3|]. auto.
    + injection EE as <-. eexists _, _. rewrite get_set. split; [reflexivity|]. split; [exact G3|]. auto.
  - cbn [bind] in H. injection H as <-. exists evs, e. rewrite get_set. streq. cbv iota. auto.
Qed.

Section Run.
  Context {E : Type} (w : world E).

  Lemma load_results_content args name v j :
    get args name = Some v -> content (w_json w) v j ->
    load_results (w_json w) args name = Ok (j, dpop String.eqb args name).
  Proof.
    intros G C. unfold load_results. rewrite G. destruct v; cbn in C; try tauto; subst; try reflexivity.
    now rewrite C.
  Qed.

  Lemma load_input_sites cmd a x jx y jy :
    In cmd ["source"; "recalc_source"] ->
    get a "input" = Some x -> content (w_json w) x jx ->
    get a "input_sites" = Some y -> content (w_json w) y jy ->
    load_input w cmd a =
      do r <- put_sites jx jy; Ok (Some r, dpop String.eqb (dpop String.eqb a "input") "input_sites").
  Proof.
    intros I G1 C1 G2 C2. unfold load_input. rewrite (is_inb cmd ["source"; "recalc_source"] I).
    rewrite is_inb by (cbn in I |- *; tauto).
    rewrite (load_results_content _ _ _ _ G1 C1). cbn [bind fst snd].
    assert (G3 : get (dpop String.eqb a "input") "input_sites" = Some y).
    { rewrite (dget_dpop_neq _ sspec) by discriminate. exact G2. }
    unfold dmem. rewrite G3. cbv iota. rewrite (load_results_content _ _ _ _ G3 C2). reflexivity.
  Qed.

  Lemma load_input_plain cmd a x jx :
    In cmd ["fixed"; "source"; "recalc_source"] ->
    get a "input" = Some x -> content (w_json w) x jx -> get a "input_sites" = None ->
    load_input w cmd a = Ok (Some jx, dpop String.eqb a "input").
  Proof.
    intros I G1 C1 G2. unfold load_input. rewrite (is_inb _ _ I).
    rewrite (load_results_content _ _ _ _ G1 C1). cbn [bind fst snd].
    unfold dmem. rewrite (dget_dpop_neq _ sspec) by discriminate. now rewrite G2.
  Qed.

  Lemma load_input_ignored cmd a x jx y :
    cmd = "fixed" -> get a "input" = Some x -> content (w_json w) x jx -> get a "input_sites" = Some y ->
    load_input w cmd a = Ok (Some jx, dpop String.eqb a "input").
  Proof.
    intros -> G1 C1 G2. unfold load_input. cbn [inb existsb]. streq. cbn [orb].
    rewrite (load_results_content _ _ _ _ G1 C1). cbn [bind fst snd].
    unfold dmem. rewrite (dget_dpop_neq _ sspec) by discriminate. rewrite G2. reflexivity.
  Qed.

  Lemma pass_input plots k : In k ["input"; "input_sites"] -> passed_on plots k.
  Proof.
    intros I. cbn in I. repeat (destruct I as [<-|I]; [repeat split; try (right; cbn; intuition discriminate); cbn; intuition discriminate|]).
    destruct I.
  Qed.

  (** what the command source uses *)
  Lemma source_input conf tut eventid gw pm plots args r e d x jx :
    distinct args -> distinct d -> config_is (w_conf w) conf d ->
    run w "source" conf tut eventid gw pm plots args = Ok (r, e) -> (r, e) <> (JNull, []) ->
    override d args "input" = Some x -> content (w_json w) x jx ->
    exists al a evs r0 inp,
      w_invert w al a (Some evs) = Ok r0 /\ get a "input" = Some inp /\
      (override d args "input_sites" = None -> inp = jx) /\
      (forall y jy, override d args "input_sites" = Some y -> content (w_json w) y jy -> put_sites jx jy = Ok inp).
  Proof.
    intros Da Dd C H N EX CX.
    destruct (inverting_cmd "source" ltac:(cbn; tauto)) as (IC & N1 & N2 & N3 & N4).
    destruct (run_prepared_ex _ _ _ _ _ _ _ _ _ _ _ IC N1 N2 H N) as (p & P).
    rewrite (run_prepared_by _ _ _ _ _ _ _ _ _ _ IC N1 N2 P) in H.
    destruct (run_prepared_steps w "source" eventid pm gw p r e ltac:(cbn; tauto) H N)
      as (l & inv & evs0 & g & evs & kw & a & ri & a2 & r0 & e0 & L & Li & Le & S & A & LI & W & PP).
    assert (Z : forall k, In k ["input"; "input_sites"] -> get a k = override d args k).
    { intros k I.
      rewrite (arguments_get _ _ _ _ _ _ k A).
      - rewrite (load_args _ _ _ _ _ _ k L).
        + rewrite (dget_dpop_neq _ sspec).
          * apply (precedence_other _ _ _ _ _ _ _ Da Dd C P). now apply pass_input.
          * intros ->. cbn in I. intuition discriminate.
        + cbn in I. destruct I as [<-|[<-|[]]]; cbn; intuition discriminate.
      - intros ->. cbn in I. intuition discriminate.
      - intros ->. cbn in I. intuition discriminate.
      - right. cbn in I. destruct I as [<-|[<-|[]]]; cbn; intuition discriminate. }
    pose proof (Z "input" ltac:(cbn; tauto)) as Z1. pose proof (Z "input_sites" ltac:(cbn; tauto)) as Z2.
    rewrite EX in Z1.
    destruct ri as [inp|].
    2:{ exfalso. unfold load_input in LI. cbn [inb existsb] in LI. streq_in LI. cbn [orb] in LI.
        rewrite (load_results_content _ _ _ _ Z1 CX) in LI. cbn [bind fst snd] in LI.
        destruct (dmem _ _ _); [|discriminate].
        destruct (load_results _ _ _) as [[]|]; cbn [bind] in LI; [|discriminate].
        destruct (put_sites _ _); discriminate. }
    change (inb String.eqb "source" ["fixed"; "source"]) with true in W. cbv iota in W.
    eexists _, _, evs, r0, inp. split; [exact W|]. split; [now rewrite get_set, String.eqb_refl|]. split.
    - intros EY. rewrite EY in Z2. rewrite (load_input_plain "source" a x jx) in LI by (cbn; tauto || assumption).
      now injection LI as <- _.
    - intros y jy EY CY. rewrite EY in Z2.
      rewrite (load_input_sites "source" a x jx y jy) in LI by (cbn; tauto || assumption).
      destruct (put_sites jx jy) as [r1|]; cbn [bind] in LI; [|discriminate]. now injection LI as -> _.
  Qed.

  (** ** runs without result *)

  Lemma none_go conf tut gw plots args d p l o :
    distinct args -> distinct d -> config_is (w_conf w) conf d ->
    prepared_by (w_conf w) conf "go" plots args p ->
    truthy (or_default (override d args "align_sites") (JBool false)) = false ->
    override d args "noplots" = None ->
    load w "go" false gw (dpop String.eqb (p_args p) "align_sites") = Ok l ->
    (forall al a evs, w_invert w al a evs = Ok JNull) ->
    p_output p = o -> (o = JNull \/ exists s, o = JStr s) ->
    exists e, run w "go" conf tut None gw false plots args = Ok (JNull, e) /\
      forall x, In x e -> x = Printed JNull \/ exists s, o = JStr s /\ x = Written s JNull (p_indent p).
  Proof.
    intros Da Dd C P AL NP L WI PO TO.
    erewrite run_prepared_by; [|cbn; tauto|discriminate|discriminate|exact P].
    unfold run_prepared, popd. rewrite (align_sites_value _ _ _ _ _ _ _ Da Dd C P), AL, L.
    destruct (load_all _ _ _ _ _ _ L ltac:(discriminate)) as (inv & evs0 & g & Li & Le).
    rewrite Li, Le. cbn [option_map fst snd select_event bind]. unfold run_loaded. rewrite AL.
    destruct (arguments _ _ _ _) as [kw a] eqn:A.
    assert (LI : load_input w "go" a = Ok (None, a)).
    { unfold load_input. change (inb String.eqb "go" ["fixed"; "source"; "recalc_source"]) with false.
      change (inb String.eqb "go" ["source"; "recalc_source"]) with false. cbn [bind]. now destruct (dmem _ _ _). }
    rewrite LI. cbn [bind fst snd]. unfold main_result.
    change (inb String.eqb "go" ["go"; "fixed"; "source"]) with true.
    change (inb String.eqb "go" ["fixed"; "source"]) with false. cbv iota zeta.
    assert (NP2 : get a "noplots" = None).
    { rewrite (arguments_get _ _ _ _ _ _ "noplots" A); [|discriminate|discriminate|now left].
      rewrite (load_args _ _ _ _ _ _ "noplots" L) by (cbn; intuition discriminate).
      rewrite (dget_dpop_neq _ sspec) by discriminate.
      rewrite (precedence_other _ _ _ _ _ _ _ Da Dd C P); [exact NP|].
      repeat split; try (right; cbn; intuition discriminate); cbn; intuition discriminate. }
    unfold dmem. rewrite NP2. cbv iota. rewrite WI. cbn [bind].
    unfold arguments in A. injection A as <- _. cbn [postprocess]. streq. cbv iota. cbn [bind fst snd app print_mags].
    rewrite PO. destruct TO as [->|(s & ->)]; cbn [write bind].
    - exists []. split; [reflexivity|]. intros x [].
    - destruct (String.eqb s "stdout"); cbn [bind].
      + eexists. split; [reflexivity|]. cbn. intros x [<-|[]]. now left.
      + destruct (inb _ _ _); cbn [bind].
        * eexists. split; [reflexivity|]. cbn. intros x [].
        * eexists. split; [reflexivity|]. cbn. intros x [<-|[]]. right. eauto.
  Qed.
End Run.

(** ** command line *)

Lemma cmdline_get args a k o :
  distinct args -> distinct o -> getd args "overwrite_conf" (JDict []) = JDict o -> cmdline_args args = Ok a ->
  k <> "overwrite_conf" -> get a k = override args o k.
Proof.
  intros D Do G H N. unfold cmdline_args, popd in H. rewrite G in H. cbn [update_pairs bind] in H. injection H as <-.
  rewrite get_update by assumption. unfold override. destruct (get o k); [reflexivity|].
  now apply (dget_dpop_neq _ sspec).
Qed.

(** as a list of pairs *)
Lemma pairs_read l : mapM update_pair (map (fun kv : string * json => JList [JStr (fst kv); snd kv]) l) = Ok l.
Proof. induction l as [|[k v] l IH]; [reflexivity|]. cbn [map mapM update_pair bind fst snd]. rewrite IH. reflexivity. Qed.

Lemma cmdline_pairs args l :
  distinct args -> distinct l ->
  getd args "overwrite_conf" (JDict []) = JList (map (fun kv : string * json => JList [JStr (fst kv); snd kv]) l) ->
  exists a, cmdline_args args = Ok a /\ forall k, k <> "overwrite_conf" -> get a k = override args l k.
Proof.
  intros D Do G. unfold cmdline_args, popd. rewrite G. cbn [update_pairs]. rewrite pairs_read. cbn [bind].
  eexists. split; [reflexivity|]. intros k N.
  rewrite get_update by assumption. unfold override. destruct (get l k); [reflexivity|].
  now apply (dget_dpop_neq _ sspec).
Qed.

Lemma cmdline_refused args :
  (forall o, getd args "overwrite_conf" (JDict []) = o ->
     (forall d, o <> JDict d) -> (forall l, o <> JList l) -> (forall s, o <> JStr s) -> cmdline_args args = Err TypeError) /\
  (forall s, getd args "overwrite_conf" (JDict []) = JStr s -> s <> "" -> cmdline_args args = Err ValueError) /\
  (forall l r, getd args "overwrite_conf" (JDict []) = JList (JList l :: r) -> List.length l <> 2%nat ->
     cmdline_args args = Err ValueError) /\
  (forall k v r, getd args "overwrite_conf" (JDict []) = JList (JList [k; v] :: r) ->
     (exists l, k = JList l) \/ (exists d, k = JDict d) -> cmdline_args args = Err TypeError).
Proof.
  unfold cmdline_args, popd. split; [|split; [|split]].
  - intros o -> D L S. destruct o; cbn [update_pairs bind]; try reflexivity; exfalso;
      solve [eapply D; reflexivity | eapply L; reflexivity | eapply S; reflexivity].
  - intros s -> N. destruct s as [|c s]; [congruence|]. cbn. reflexivity.
  - intros l r -> N. cbn [update_pairs mapM update_pair bind].
    destruct l as [|x [|y [|z l]]]; cbn in N |- *; try reflexivity; [|congruence|]; destruct x; reflexivity.
  - intros k v r -> [(l & ->)|(d & ->)]; reflexivity.
Qed.
