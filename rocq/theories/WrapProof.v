(** Proofs about the order of events and their separate inversion (C65, C63, C66). *)
From Coq Require Import String List Bool Reals Lra Lia ZArith Arith Permutation Sorting.Sorted.
From Verif Require Import Base Pyf PySort SortModel SortProof StatModel StatSpec CollectModel CollectSpec
  SourceProof3 InvProof2 WrapModel WrapSpec.
Import ListNotations.
Open Scope string_scope.
Open Scope list_scope.
Open Scope R_scope.

(** ** C65 *)
Section Order.
  Context {Ev : Type}.
  Variable time : Ev -> option Z.
  Variable same : Ev -> Ev -> bool.
  Notation pairs := (time_event_pairs time).

  Lemma pairs_in events t ev : In (t, ev) (pairs events) <-> In ev events /\ time ev = Some t.
  Proof.
    induction events as [|e events IH]; cbn [time_event_pairs]; [cbn; tauto|].
    destruct (time e) as [s|] eqn:E; cbn; rewrite ?IH; split.
    - intros [Q|Q]; [injection Q as -> ->; auto|tauto].
    - intros [[->|I] Q]; [left; congruence|tauto].
    - tauto.
    - intros [[->|I] Q]; [congruence|tauto].
  Qed.

  Lemma pairs_snd events : map snd (pairs events) = filter (located time) events.
  Proof.
    induction events as [|e events IH]; cbn [time_event_pairs filter]; [reflexivity|].
    unfold located at 1. destruct (time e); cbn; now rewrite IH.
  Qed.

  (** different events at the same time somewhere in the list *)
  Lemma clash_spec events : clash same (pairs events) = true <->
    exists l1 a l2 b l3 t, events = l1 ++ a :: l2 ++ b :: l3 /\ time a = Some t /\ time b = Some t /\ same a b = false.
  Proof.
    induction events as [|e events IH]; cbn [time_event_pairs].
    - cbn. split; [discriminate|]. intros (l1 & a & l2 & b & l3 & t & E & _). destruct l1; discriminate.
    - assert (REST : (exists l1 a l2 b l3 t, events = l1 ++ a :: l2 ++ b :: l3 /\ time a = Some t /\ time b = Some t /\ same a b = false) ->
        exists l1 a l2 b l3 t, e :: events = l1 ++ a :: l2 ++ b :: l3 /\ time a = Some t /\ time b = Some t /\ same a b = false).
      { intros (l1 & a & l2 & b & l3 & t & E & H). exists (e :: l1), a, l2, b, l3, t. split; [cbn; now rewrite E|exact H]. }
      destruct (time e) as [s|] eqn:T.
      + cbn [clash]. rewrite orb_true_iff, IH, existsb_exists. split.
        * intros [((t & b) & I & Q)|Q]; [|auto]. apply pairs_in in I. destruct I as [I TB].
          unfold incomparable in Q. cbn [fst snd] in Q. apply andb_true_iff in Q. destruct Q as [Q1 Q2].
          apply Z.eqb_eq in Q1. subst t. apply negb_true_iff in Q2. apply in_split in I. destruct I as (l2 & l3 & ->).
          exists [], e, l2, b, l3, s. auto.
        * intros (l1 & a & l2 & b & l3 & t & E & TA & TB & S). destruct l1 as [|x l1].
          -- cbn in E. injection E as -> ->. left. exists (t, b). split; [apply pairs_in; split; [apply in_elt|exact TB]|].
             unfold incomparable. cbn [fst snd]. rewrite S. assert (s = t) by congruence. subst. now rewrite Z.eqb_refl.
          -- cbn in E. injection E as -> ->. right. exists l1, a, l2, b, l3, t. auto.
      + rewrite IH. split; [auto|]. intros (l1 & a & l2 & b & l3 & t & E & TA & TB & S). destruct l1 as [|x l1].
        * cbn in E. injection E as -> ->. congruence.
        * cbn in E. injection E as -> ->. exists l1, a, l2, b, l3, t. auto.
  Qed.

  Lemma sort_events_ok events :
    (forall l1 a l2 b l3 t, events = l1 ++ a :: l2 ++ b :: l3 -> time a = Some t -> time b = Some t -> same a b = true) ->
    (exists ev, In ev events /\ time ev <> None) ->
    exists l, sort_events time same events = Ok l /\
      Permutation l (filter (located time) events) /\ StronglySorted (not_after time) l.
  Proof.
    intros NC (ev & I & T). unfold sort_events.
    destruct (clash same (pairs events)) eqn:C.
    { apply clash_spec in C. destruct C as (l1 & a & l2 & b & l3 & t & E & TA & TB & S).
      rewrite (NC _ _ _ _ _ _ E TA TB) in S. discriminate. }
    set (leb := fun a b : Z * Ev => Z.leb (fst a) (fst b)).
    assert (P : Permutation (pysort leb (pairs events)) (pairs events)) by apply pysort_perm.
    assert (SS : StronglySorted (fun a b => leb a b = true) (pysort leb (pairs events))).
    { apply pysort_sorted; unfold leb; intros; rewrite ?Z.leb_le in *; lia. }
    destruct (pysort leb (pairs events)) as [|p l] eqn:E.
    { exfalso. destruct (time ev) as [t|] eqn:TE; [|congruence].
      assert (Q : In (t, ev) (pairs events)) by now apply pairs_in.
      apply (Permutation_in _ (Permutation_sym P)) in Q. destruct Q. }
    exists (map snd (p :: l)). split; [reflexivity|]. split.
    - rewrite <- pairs_snd. now apply Permutation_map.
    - assert (SUB : forall q, In q (p :: l) -> time (snd q) = Some (fst q)).
      { intros [t e] Q. apply (Permutation_in _ P) in Q. now apply pairs_in in Q. }
      clear E P. revert SUB SS. generalize (p :: l). clear. intros l. induction l as [|p l IH]; intros SUB SS; cbn; [constructor|].
      inversion SS as [|? ? SS' F]; subst. constructor; [apply IH; [intros; apply SUB; now right|exact SS']|].
      apply Forall_forall. intros e I. apply in_map_iff in I. destruct I as (q & <- & I).
      rewrite Forall_forall in F. specialize (F q I). unfold leb in F. apply Z.leb_le in F.
      unfold not_after. rewrite (SUB p), (SUB q) by (cbn; auto). exact F.
  Qed.

  Lemma sort_events_distinct events :
    NoDup (map time (filter (located time) events)) -> (exists ev, In ev events /\ time ev <> None) ->
    exists l, sort_events time same events = Ok l /\
      Permutation l (filter (located time) events) /\ StronglySorted (before time) l.
  Proof.
    intros ND EX. destruct (sort_events_ok events) as (l & S & P & SS); [|exact EX|].
    - intros l1 a l2 b l3 t -> TA TB. exfalso.
      assert (F : filter (located time) (l1 ++ a :: l2 ++ b :: l3) =
        filter (located time) l1 ++ a :: filter (located time) l2 ++ b :: filter (located time) l3).
      { rewrite filter_app. cbn [filter]. unfold located at 2. rewrite TA. rewrite filter_app. cbn [filter].
        unfold located at 3. now rewrite TB. }
      rewrite F, map_app in ND. cbn [map] in ND. apply NoDup_remove_2 in ND.
      apply ND. apply in_or_app. right. rewrite map_app. apply in_or_app. right. cbn. left. congruence.
    - exists l. split; [exact S|]. split; [exact P|].
      assert (NL : NoDup (map time l)).
      { apply (Permutation_NoDup (Permutation_map time (Permutation_sym P))). exact ND. }
      clear - SS NL. induction SS as [|a l SS IH F]; [constructor|]. cbn in NL. inversion NL as [|? ? NI NL']; subst.
      constructor; [auto|]. rewrite Forall_forall in *. intros b I. specialize (F b I).
      unfold not_after, before in *. destruct (time a) as [s|] eqn:A; [|contradiction]. destruct (time b) as [t|] eqn:B; [|contradiction].
      assert (s <> t); [|lia]. intros ->. apply NI. rewrite <- B. now apply in_map.
  Qed.

  Lemma sort_events_clash events l1 a l2 b l3 t :
    events = l1 ++ a :: l2 ++ b :: l3 -> time a = Some t -> time b = Some t -> same a b = false ->
    sort_events time same events = Err TypeError.
  Proof.
    intros E TA TB S. unfold sort_events. replace (clash same (pairs events)) with true; [reflexivity|].
    symmetry. apply clash_spec. exists l1, a, l2, b, l3, t. auto.
  Qed.

  Lemma sort_events_none events : (forall ev, In ev events -> time ev = None) ->
    sort_events time same events = Err IndexError.
  Proof.
    intros H. unfold sort_events. replace (pairs events) with (@nil (Z * Ev)); [reflexivity|].
    induction events as [|e events IH]; [reflexivity|]. cbn [time_event_pairs]. rewrite (H e) by now left.
    apply IH. intros. apply H. now right.
  Qed.

  Lemma sort_events_incl events l : sort_events time same events = Ok l ->
    Permutation l (filter (located time) events) /\ l <> [] /\ StronglySorted (not_after time) l.
  Proof.
    intros H. destruct (clash same (pairs events)) eqn:C.
    { unfold sort_events in H. rewrite C in H. discriminate. }
    destruct (existsb (located time) events) eqn:EX.
    - apply existsb_exists in EX. destruct EX as (ev & I & L). unfold located in L.
      destruct (sort_events_ok events) as (l' & S & P & SS).
      + intros l1 a l2 b l3 t E TA TB. destruct (same a b) eqn:Q; [reflexivity|].
        assert (T : clash same (pairs events) = true) by (apply clash_spec; exists l1, a, l2, b, l3, t; auto). congruence.
      + exists ev. split; [exact I|]. destruct (time ev); [discriminate|discriminate].
      + rewrite H in S. injection S as <-. split; [exact P|]. split; [|exact SS]. intros ->.
        apply Permutation_nil in P. assert (Q : In ev (filter (located time) events)).
        { apply filter_In. split; [exact I|]. unfold located. exact L. }
        rewrite P in Q. destruct Q.
    - assert (N : forall ev, In ev events -> time ev = None).
      { intros ev I. destruct (time ev) eqn:T; [|reflexivity].
        assert (Q : existsb (located time) events = true) by (apply existsb_exists; exists ev; split; [exact I|unfold located; now rewrite T]).
        congruence. }
      rewrite (sort_events_none events N) in H. discriminate.
  Qed.
End Order.

(** ** C63 *)
Section Separate.
  Context {Ev : Type}.
  Variable evid : Ev -> string.
  Variable coda_norm : bool.
  Variable invert : list Ev -> res (option ires).

  Lemma put_event_spec st ev r st' : proper r -> put_event evid coda_norm st ev r = Ok st' ->
    ws_freq st' = dget String.eqb (ir_items r) "freq" /\ ws_freq st' <> None /\
    exists d, event_result r (evid ev) d /\ NoDup (map fst d) /\
      ws_events st' = dset String.eqb (ws_events st) (evid ev) d.
  Proof.
    intros (N1 & N2 & _ & _) H. unfold put_event in H.
    destruct (dget String.eqb (ir_items r) "freq") as [f|] eqn:F; [|discriminate].
    set (items := dpop String.eqb (ir_items r) "freq") in *.
    assert (NI : NoDup (map fst items)) by now apply dpop_nodup.
    assert (G : forall k, dget String.eqb items k = if String.eqb k "freq" then None else dget String.eqb (ir_items r) k).
    { intros k. destruct (String.eqb k "freq") eqn:E.
      - apply String.eqb_eq in E. subst. now apply (dget_dpop_eq _ string_eqb_spec).
      - apply (dget_dpop_neq _ string_eqb_spec). now apply String.eqb_neq. }
    assert (X : exists items', NoDup (map fst items') /\
      (forall k, dget String.eqb items' k =
        match dget String.eqb (match dget String.eqb (ir_events r) (evid ev) with Some e => e | None => [] end) k with
        | Some v => Some v
        | None => if String.eqb k "freq" then None else dget String.eqb (ir_items r) k
        end) /\
      (do d <- sort_dict DUMP_ORDER items';
       Ok {| ws_freq := Some f; ws_events := dset String.eqb (ws_events st) (evid ev) d |}) = Ok st').
    { destruct (dget String.eqb (ir_events r) (evid ev)) as [e|] eqn:D; cbn [bind] in H.
      - exists (dupdate String.eqb items e). split; [apply dupdate_nodup; [exact string_eqb_spec|exact NI]|].
        split; [|exact H]. intros k. specialize (N2 _ _ D). destruct (dget String.eqb e k) as [v|] eqn:K.
        + apply (dupdate_get_in _ string_eqb_spec); [exact N2|]. now apply (dget_In _ string_eqb_spec).
        + rewrite (dupdate_get_other _ string_eqb_spec); [apply G|]. now apply (dget_None _ string_eqb_spec).
      - destruct coda_norm; [|discriminate]. exists items. auto. }
    destruct X as (items' & N' & G' & S).
    destruct (sort_dict DUMP_ORDER items') as [d|] eqn:SD; [|discriminate]. cbn [bind] in S. injection S as <-.
    cbn [ws_freq ws_events]. split; [reflexivity|]. split; [discriminate|]. exists d.
    assert (KN : forall k, In k (map fst items') -> In k DUMP_ORDER) by (apply known_sort; eauto).
    destruct (sort_dict_ok DUMP_ORDER items' KN) as (d' & SD' & P & _). rewrite SD in SD'. injection SD' as <-.
    split; [|split; [|reflexivity]].
    - intros k. rewrite (dget_perm d items') by assumption. apply G'.
    - apply (Permutation_NoDup (Permutation_map fst (Permutation_sym P))). exact N'.
  Qed.

  (** each event on its own *)
  Lemma each_event_spec events : NoDup (map evid events) ->
    (forall ev r, In ev events -> invert [ev] = Ok (Some r) -> proper r) ->
    forall st st', (forall ev, In ev events -> ~ In (evid ev) (map fst (ws_events st))) ->
    each_event evid coda_norm invert events st = Ok st' ->
    (forall id, ~ In id (map evid events) -> dget String.eqb (ws_events st') id = dget String.eqb (ws_events st) id) /\
    (forall ev, In ev events ->
       (invert [ev] = Ok None /\ dget String.eqb (ws_events st') (evid ev) = None) \/
       (exists r d, invert [ev] = Ok (Some r) /\ dget String.eqb (ws_events st') (evid ev) = Some d /\
          event_result r (evid ev) d /\ NoDup (map fst d))) /\
    map fst (ws_events st') = map fst (ws_events st) ++
      map evid (filter (fun ev => match invert [ev] with Ok (Some _) => true | _ => false end) events) /\
    (ws_events st' = ws_events st \/ ws_freq st' <> None).
  Proof.
    induction events as [|ev events IH]; intros ND PR st st' DIS H; cbn [each_event] in H.
    - injection H as <-. split; [auto|]. split; [intros ev []|]. split; [cbn; now rewrite app_nil_r|now left].
    - cbn [map] in ND. inversion ND as [|? ? NI ND']; subst.
      destruct (invert [ev]) as [[r|]|] eqn:I; cbn [bind] in H; [| |discriminate].
      + destruct (put_event evid coda_norm st ev r) as [s|] eqn:P; [|discriminate]. cbn [bind] in H.
        apply put_event_spec in P; [|apply (PR ev); [now left|exact I]].
        destruct P as (F1 & F2 & d & E & N & W).
        assert (KS : map fst (ws_events s) = map fst (ws_events st) ++ [evid ev]).
        { rewrite W. specialize (DIS ev (or_introl eq_refl)). clear - DIS.
          induction (ws_events st) as [|[k x] l I]; [reflexivity|]. cbn in *.
          assert (Q : String.eqb (evid ev) k = false) by (apply String.eqb_neq; intuition congruence).
          rewrite Q. cbn. rewrite I; [reflexivity|tauto]. }
        destruct (IH ND' (fun e r0 J => PR e r0 (or_intror J)) s st') with (2 := H) as (I1 & I2 & I3 & I4).
        { intros e J. rewrite KS. intros Q. apply in_app_or in Q. destruct Q as [Q|[Q|[]]].
          - apply (DIS e); [now right|exact Q].
          - apply NI. rewrite Q. now apply in_map. }
        split; [|split; [|split]].
        * intros id Q. cbn in Q. rewrite I1 by tauto. rewrite W. apply (dget_dset_neq _ string_eqb_spec). intros ->. tauto.
        * intros e [<-|J]; [|now apply I2]. right. exists r, d. split; [exact I|]. split; [|auto].
          rewrite I1 by exact NI. rewrite W. apply (dget_dset_eq _ string_eqb_spec).
        * rewrite I3, KS. cbn [filter]. rewrite I. cbn [map]. now rewrite <- app_assoc.
        * right. destruct I4 as [Q|Q]; [|exact Q].
          assert (WF : forall evs a b, each_event evid coda_norm invert evs a = Ok b -> ws_freq a <> None -> ws_freq b <> None).
          { clear - PR. induction evs as [|e evs J]; intros a b K NA; cbn [each_event] in K; [congruence|].
            destruct (invert [e]) as [[r|]|]; cbn [bind] in K; [| |discriminate].
            - destruct (put_event evid coda_norm a e r) as [c|] eqn:P; [|discriminate]. cbn [bind] in K. apply (J c b K).
              unfold put_event in P. destruct (dget String.eqb (ir_items r) "freq"); [|discriminate].
              destruct (match dget String.eqb (ir_events r) (evid e) with Some _ => _ | None => _ end); [|discriminate]. cbn [bind] in P.
              destruct (sort_dict DUMP_ORDER _); [|discriminate]. cbn [bind] in P. injection P as <-. discriminate.
            - apply (J a b K NA). }
          apply (WF _ _ _ H F2).
      + destruct (IH ND' (fun e r0 J => PR e r0 (or_intror J)) st st') with (2 := H) as (I1 & I2 & I3 & I4).
        { intros e J. apply DIS. now right. }
        split; [|split; [|split]].
        * intros id Q. apply I1. cbn in Q. tauto.
        * intros e [<-|J]; [|now apply I2]. left. split; [exact I|]. rewrite I1 by exact NI.
          apply (dget_None _ string_eqb_spec). apply DIS. now left.
        * rewrite I3. cbn [filter]. now rewrite I.
        * exact I4.
  Qed.

  Lemma each_event_none events : (forall ev, In ev events -> invert [ev] = Ok None) ->
    forall st, each_event evid coda_norm invert events st = Ok st.
  Proof.
    induction events as [|ev events IH]; intros H st; cbn [each_event]; [reflexivity|].
    rewrite (H ev) by now left. cbn [bind]. apply IH. intros. apply H. now right.
  Qed.
End Separate.

(** ** the configuration *)
Section Config.
  Context {C : Type}.

  Lemma config_keys (kwargs : list (string * C)) sim mean :
    NoDup (map fst (config_items kwargs sim mean)) /\
    forall k, In k (map fst (config_items kwargs sim mean)) -> In k DUMP_CONFIG.
  Proof.
    unfold config_items.
    set (d := flat_map _ DUMP_CONFIG).
    assert (ND : NoDup DUMP_CONFIG) by (unfold DUMP_CONFIG; repeat constructor; cbn; intuition discriminate).
    assert (K : forall k, In k (map fst d) -> In k DUMP_CONFIG).
    { intros k I. apply in_map_iff in I. destruct I as ([a b] & <- & I). unfold d in I. apply in_flat_map in I.
      destruct I as (x & X & I). destruct (dget String.eqb kwargs x); [|destruct I]. destruct I as [I|[]]. injection I as <- _. exact X. }
    assert (N : NoDup (map fst d)).
    { unfold d. clear K d. revert ND. generalize DUMP_CONFIG. induction l as [|k l IH]; intros ND; [constructor|].
      inversion ND as [|? ? NI ND']; subst. cbn [flat_map]. rewrite map_app.
      destruct (dget String.eqb kwargs k); [|now apply IH]. cbn. constructor; [|now apply IH].
      intros Q. apply NI. apply in_map_iff in Q. destruct Q as ([a b] & <- & I). apply in_flat_map in I.
      destruct I as (x & X & I). destruct (dget String.eqb kwargs x); [|destruct I]. destruct I as [I|[]]. injection I as <- _. exact X. }
    split.
    - apply dset_nodup; [exact string_eqb_spec|]. apply dset_nodup; [exact string_eqb_spec|exact N].
    - intros k I. apply (dset_in_keys _ string_eqb_spec) in I. destruct I as [->|I]; [cbn; tauto|].
      apply (dset_in_keys _ string_eqb_spec) in I. destruct I as [->|I]; [cbn; tauto|auto].
  Qed.

  Lemma config_get (kwargs : list (string * C)) sim mean k :
    dget String.eqb (config_items kwargs sim mean) k =
    if String.eqb k "mean" then Some (CMean mean)
    else if String.eqb k "invert_events_simultaneously" then Some (CBool sim)
    else if inb String.eqb k DUMP_CONFIG then option_map CGiven (dget String.eqb kwargs k) else None.
  Proof.
    unfold config_items. destruct (String.eqb k "mean") eqn:E1.
    { apply String.eqb_eq in E1. subst. apply (dget_dset_eq _ string_eqb_spec). }
    rewrite (dget_dset_neq _ string_eqb_spec) by (now apply String.eqb_neq).
    destruct (String.eqb k "invert_events_simultaneously") eqn:E2.
    { apply String.eqb_eq in E2. subst. apply (dget_dset_eq _ string_eqb_spec). }
    rewrite (dget_dset_neq _ string_eqb_spec) by (now apply String.eqb_neq). clear E1 E2.
    induction DUMP_CONFIG as [|x l IH]; [reflexivity|]. cbn [flat_map inb existsb].
    change (existsb (String.eqb k) l) with (inb String.eqb k l).
    destruct (String.eqb k x) eqn:E.
    - apply String.eqb_eq in E. subst x. cbn [orb]. destruct (dget String.eqb kwargs k) as [c|] eqn:G; cbn [app].
      + cbn [dget]. now rewrite String.eqb_refl.
      + rewrite IH. destruct (inb String.eqb k l); reflexivity.
    - cbn [orb]. destruct (dget String.eqb kwargs x); cbn [app dget]; rewrite ?E; exact IH.
  Qed.

  (** finishing never fails for known keys and keeps the items *)
  Lemma finish_ok (kwargs : list (string * C)) sim mean result :
    NoDup (map fst result) -> (forall k, In k (map fst result) -> In k DUMP_ORDER) ->
    exists r conf, finish kwargs sim mean result = Ok r /\
      (forall k, k <> "config" -> dget String.eqb r k = dget String.eqb result k) /\
      dget String.eqb r "config" = Some (TConf conf) /\
      (forall k, dget String.eqb conf k =
        if String.eqb k "mean" then Some (CMean mean)
        else if String.eqb k "invert_events_simultaneously" then Some (CBool sim)
        else if inb String.eqb k DUMP_CONFIG then option_map CGiven (dget String.eqb kwargs k) else None).
  Proof.
    intros ND KN. unfold finish. destruct (config_keys kwargs sim mean) as [NC KC].
    destruct (sort_dict_ok DUMP_CONFIG _ KC) as (conf & SC & PC & _). rewrite SC. cbn [bind].
    set (full := dset String.eqb result "config" (TConf conf)).
    assert (NF : NoDup (map fst full)) by (apply dset_nodup; [exact string_eqb_spec|exact ND]).
    assert (KF : forall k, In k (map fst full) -> In k DUMP_ORDER).
    { intros k I. apply (dset_in_keys _ string_eqb_spec) in I. destruct I as [->|I]; [cbn; tauto|auto]. }
    destruct (sort_dict_ok DUMP_ORDER full KF) as (r & SR & PR & _). exists r, conf. split; [exact SR|].
    assert (G : forall k, dget String.eqb r k = dget String.eqb full k) by (intros k; now apply dget_perm).
    split; [|split].
    - intros k N. rewrite G. now apply (dget_dset_neq _ string_eqb_spec).
    - rewrite G. apply (dget_dset_eq _ string_eqb_spec).
    - intros k. rewrite (dget_perm conf _ k NC PC). apply config_get.
  Qed.
End Config.
