(** Proofs about invert_wrapper as a whole (C35, C63, C65, C66, C67). *)
From Coq Require Import String List Bool Reals Lra Lia ZArith Arith Permutation Sorting.Sorted.
From Verif Require Import Base Pyf PySort SortModel SortProof StatModel StatSpec StatProof CollectModel CollectSpec
  CollectProof CollectProof2 SourceProof3 InvProof2 WrapModel WrapSpec WrapProof WrapProof2 WrapProof3.
Import ListNotations.
Open Scope string_scope.
Open Scope list_scope.
Open Scope R_scope.

Section W.
  Context {Ev C : Type}.
  Variable time : Ev -> option Z.
  Variable same : Ev -> Ev -> bool.
  Variable evid : Ev -> string.
  Variable rlm : list R -> R * R.
  Variable coda_norm : bool.
  Variable invert : list Ev -> res (option ires).
  Notation wrapper := (invert_wrapper (C := C) time same evid rlm coda_norm invert).
  Notation start := {| ws_freq := None; ws_events := [] |}.

  (** a property of all event results *)
  Lemma each_event_all (P : evdict -> Prop) events :
    (forall ev r, In ev events -> invert [ev] = Ok (Some r) -> proper r) ->
    (forall ev r d, In ev events -> invert [ev] = Ok (Some r) -> event_result r (evid ev) d -> NoDup (map fst d) -> P d) ->
    forall st st', (forall id d, In (id, d) (ws_events st) -> P d) ->
    each_event evid coda_norm invert events st = Ok st' -> forall id d, In (id, d) (ws_events st') -> P d.
  Proof.
    induction events as [|ev events IH]; intros PR HP st st' S H; cbn [each_event] in H; [injection H as <-; exact S|].
    destruct (invert [ev]) as [[r|]|] eqn:I; cbn [bind] in H; [| |discriminate].
    - destruct (put_event evid coda_norm st ev r) as [s|] eqn:PE; [|discriminate]. cbn [bind] in H.
      destruct (put_event_spec evid coda_norm st ev r s) as (_ & _ & d & E & N & W); [apply (PR ev); [now left|exact I]|exact PE|].
      apply (IH (fun e r0 J => PR e r0 (or_intror J)) (fun e r0 d0 J => HP e r0 d0 (or_intror J)) s st'); [|exact H].
      intros id x X. rewrite W in X. apply dset_in in X. destruct X as [[-> ->]|X]; [|now apply (S id)].
      apply (HP ev r); [now left|exact I|exact E|exact N].
    - apply (IH (fun e r0 J => PR e r0 (or_intror J)) (fun e r0 d0 J => HP e r0 d0 (or_intror J)) st st' S H).
  Qed.

  Definition results_proper (events : list Ev) : Prop :=
    forall ev r, In ev events -> invert [ev] = Ok (Some r) -> proper r.

  Lemma event_sites_nodup r id d s : proper r -> event_result r id d -> sget d "R" = Some (VSites s) -> NoDup (map fst s).
  Proof.
    intros (_ & _ & P3 & P4) E G. rewrite (E "R") in G. change (String.eqb "R" "freq") with false in G. cbv iota in G.
    destruct (dget String.eqb (ir_events r) id) as [e|] eqn:D.
    - destruct (dget String.eqb e "R") as [v|] eqn:K; [injection G as ->; now apply (P4 id e)|now apply P3].
    - cbn [dget] in G. now apply P3.
  Qed.

  Lemma in_order events order ev : sort_events time same events = Ok order -> In ev order -> In ev events /\ time ev <> None.
  Proof.
    intros S I. destruct (sort_events_incl time same events order S) as (P & _ & _).
    apply (Permutation_in _ P) in I. apply filter_In in I. destruct I as [I L]. split; [exact I|].
    unfold located in L. destruct (time ev); [discriminate|discriminate].
  Qed.

  (** the stages of separate inversions *)
  Lemma wrapper_separate mean kwargs events r : results_proper events ->
    wrapper false mean kwargs events = Ok (Some r) ->
    exists order st r0 conf, sort_events time same events = Ok order /\
      each_event evid coda_norm invert order start = Ok st /\
      add_means rlm mean st = Ok (Some r0) /\
      (forall id d s, In (id, d) (ws_events st) -> sget d "R" = Some (VSites s) -> NoDup (map fst s)) /\
      (forall k, k <> "config" -> sget r k = sget r0 k) /\
      sget r "config" = Some (TConf conf) /\
      (forall k, sget conf k =
        if String.eqb k "mean" then Some (CMean mean)
        else if String.eqb k "invert_events_simultaneously" then Some (CBool false)
        else if inb String.eqb k DUMP_CONFIG then option_map CGiven (sget kwargs k) else None).
  Proof.
    intros PR H. unfold invert_wrapper in H. destruct (sort_events time same events) as [order|] eqn:S; [|discriminate].
    cbn [bind] in H. destruct (each_event evid coda_norm invert order start) as [st|] eqn:E; [|discriminate]. cbn [bind] in H.
    destruct (add_means rlm mean st) as [[r0|]|] eqn:A; cbn [bind] in H; [|discriminate|discriminate].
    destruct (finish kwargs false mean r0) as [d|] eqn:F; [|discriminate]. cbn [bind] in H. injection H as <-.
    assert (PO : forall ev r, In ev order -> invert [ev] = Ok (Some r) -> proper r).
    { intros ev r I. apply PR. apply (in_order events order ev S I). }
    assert (SN : forall id d s, In (id, d) (ws_events st) -> sget d "R" = Some (VSites s) -> NoDup (map fst s)).
    { intros id x s X. revert s. apply (each_event_all (fun d => forall s, sget d "R" = Some (VSites s) -> NoDup (map fst s)) order PO) with (2 := fun _ _ (f : False) => match f with end) (3 := E) (4 := X).
      intros ev r1 d1 I J K _ s. apply event_sites_nodup with (2 := K). now apply (PO ev). }
    destruct (add_means_spec rlm mean st r0 A SN) as (_ & K1 & K2 & _).
    destruct (finish_ok kwargs false mean r0 K1 K2) as (d' & conf & F' & G1 & G2 & G3).
    rewrite F in F'. injection F' as <-. exists order, st, r0, conf. split; [reflexivity|]. split; [exact E|]. auto 8.
  Qed.

  (** C65: results in the order of time *)
  Lemma result_order mean kwargs events r : results_proper events ->
    NoDup (map evid events) -> wrapper false mean kwargs events = Ok (Some r) ->
    exists order evs, Permutation order (filter (located time) events) /\ StronglySorted (not_after time) order /\
      sget r "events" = Some (TEvents evs) /\
      map fst evs = map evid (filter (fun ev => match invert [ev] with Ok (Some _) => true | _ => false end) order).
  Proof.
    intros PR ND H. destruct (wrapper_separate mean kwargs events r PR H) as (order & st & r0 & conf & S & E & A & SN & G & _).
    destruct (sort_events_incl time same events order S) as (P & _ & SS).
    exists order, (ws_events st). split; [exact P|]. split; [exact SS|].
    destruct (add_means_spec rlm mean st r0 A SN) as (_ & _ & _ & T & _).
    split; [rewrite G by discriminate; exact T|].
    assert (NO : NoDup (map evid order)).
    { apply (Permutation_NoDup (Permutation_map evid (Permutation_sym P))).
      clear - ND. induction events as [|e l IH]; cbn; [constructor|]. cbn in ND. inversion ND; subst.
      destruct (located time e); [|auto]. cbn. constructor; [|auto]. intros Q. apply in_map_iff in Q.
      destruct Q as (x & Q1 & Q2). apply filter_In in Q2. destruct Q2 as [Q2 _].
      match goal with N : ~ _ |- _ => apply N end. rewrite <- Q1. now apply in_map. }
    assert (PO : forall ev r, In ev order -> invert [ev] = Ok (Some r) -> proper r).
    { intros ev r1 I. apply PR. apply (in_order events order ev S I). }
    assert (X := each_event_spec evid coda_norm invert order NO PO start st (fun _ _ f => f) E).
    destruct X as (_ & _ & K & _). exact K.
  Qed.

  (** C63 *)
  Lemma separate_results mean kwargs events r : results_proper events ->
    NoDup (map evid events) -> wrapper false mean kwargs events = Ok (Some r) ->
    exists evs, sget r "events" = Some (TEvents evs) /\
      (forall ev, In ev events -> time ev <> None -> invert [ev] = Ok None -> sget evs (evid ev) = None) /\
      (forall ev ir, In ev events -> time ev <> None -> invert [ev] = Ok (Some ir) ->
         exists d, sget evs (evid ev) = Some d /\ event_result ir (evid ev) d) /\
      (forall ev, In ev events -> time ev = None -> sget evs (evid ev) = None) /\
      (forall id, sget evs id <> None -> exists ev, In ev events /\ id = evid ev).
  Proof.
    intros PR ND H. destruct (wrapper_separate mean kwargs events r PR H) as (order & st & r0 & conf & S & E & A & SN & G & _).
    destruct (sort_events_incl time same events order S) as (P & _ & SS).
    exists (ws_events st). destruct (add_means_spec rlm mean st r0 A SN) as (_ & _ & _ & T & _).
    split; [rewrite G by discriminate; exact T|].
    assert (NF : NoDup (map evid (filter (located time) events)) /\
      forall ev, In ev events -> time ev = None -> ~ In (evid ev) (map evid (filter (located time) events))).
    { clear - ND. induction events as [|e l IH]; cbn; [split; [constructor|intros ? []]|].
      - cbn in ND. inversion ND as [|? ? N1 N2]; subst. destruct (IH N2) as [I1 I2].
        assert (SUB : forall x, In x (map evid (filter (located time) l)) -> In x (map evid l)).
        { intros x Q. apply in_map_iff in Q. destruct Q as (y & <- & Q). apply filter_In in Q. now apply in_map. }
        destruct (located time e) eqn:LE; unfold located in LE; destruct (time e) as [t|] eqn:TE; try discriminate.
        + split; [cbn; constructor; [intros Q; apply N1; now apply SUB|exact I1]|].
          intros ev J TN. destruct J as [<-|J]; [congruence|]. cbn. intros Q. destruct Q as [Q|Q]; [|now apply (I2 ev J TN)].
          apply N1. rewrite Q. now apply in_map.
        + split; [exact I1|]. intros ev J TN. destruct J as [<-|J]; [intros Q; apply N1; now apply SUB|now apply I2]. }
    destruct NF as [NF NN].
    assert (PM := Permutation_map evid P).
    assert (NO : NoDup (map evid order)) by (apply (Permutation_NoDup (Permutation_sym PM)); exact NF).
    assert (PO : forall ev r, In ev order -> invert [ev] = Ok (Some r) -> proper r).
    { intros ev r1 I. apply PR. apply (in_order events order ev S I). }
    assert (IO : forall ev, In ev events -> time ev <> None -> In ev order).
    { intros ev I TN. apply (Permutation_in _ (Permutation_sym P)). apply filter_In. split; [exact I|].
      unfold located. destruct (time ev); congruence. }
    destruct (each_event_spec evid coda_norm invert order NO PO start st (fun _ _ f => f) E) as (K1 & K2 & K3 & _).
    split; [|split; [|split]].
    - intros ev I TN N. destruct (K2 ev (IO ev I TN)) as [[_ Q]|(ir & d & Q & _)]; [exact Q|congruence].
    - intros ev ir I TN N. destruct (K2 ev (IO ev I TN)) as [[Q _]|(ir' & d & Q & Q1 & Q2 & _)]; [congruence|].
      rewrite N in Q. injection Q as <-. eauto.
    - intros ev I TN. rewrite K1; [reflexivity|]. intros Q. apply (NN ev I TN). apply (Permutation_in _ PM Q).
    - intros id Q. assert (J : In id (map evid order)).
      { destruct (in_dec string_dec id (map evid order)) as [J|J]; [exact J|]. elim Q. rewrite K1 by exact J. reflexivity. }
      apply in_map_iff in J. destruct J as (ev & <- & J). exists ev. split; [apply (in_order events order ev S J)|reflexivity].
  Qed.

  (** C66 *)
  Lemma separate_none mean kwargs events :
    (exists l, sort_events time same events = Ok l) ->
    (forall ev, In ev events -> invert [ev] = Ok None) ->
    wrapper false mean kwargs events = Ok None.
  Proof.
    intros (l & S) N. unfold invert_wrapper. rewrite S. cbn [bind]. rewrite each_event_none; [reflexivity|].
    intros ev I. apply N. apply (in_order events l ev S I).
  Qed.

  Lemma simultaneous_none mean kwargs events l : sort_events time same events = Ok l ->
    invert l = Ok None -> wrapper true mean kwargs events = Err TypeError.
  Proof. intros S N. unfold invert_wrapper. rewrite S. cbn [bind]. now rewrite N. Qed.

  (** all g0 are nan *)
  Lemma separate_nan mean kwargs events order st col g0 : sort_events time same events = Ok order ->
    each_event evid coda_norm invert order start = Ok st -> ws_events st <> [] ->
    collect_results (map (fun e => (fst e, Some (snd e))) (ws_events st)) (Some ["g0"; "b"; "error"; "R"]) None = Ok col ->
    dmem String.eqb col "g0" = true -> collected_table col "g0" = Ok g0 -> all_nan g0 = true ->
    wrapper false mean kwargs events = Ok None.
  Proof.
    intros S E NE CO D T A. unfold invert_wrapper. rewrite S. cbn [bind]. rewrite E. cbn [bind]. unfold add_means.
    destruct (ws_events st) as [|x y]; [congruence|]. rewrite CO. cbn [bind]. rewrite D, T. cbn [bind]. now rewrite A.
  Qed.

  (** C67 *)
  Lemma separate_means mean kwargs events r : results_proper events ->
    wrapper false mean kwargs events = Ok (Some r) ->
    exists evs, sget r "events" = Some (TEvents evs) /\ evs <> [] /\
      (exists l, sget r "error" = Some (TMean l) /\ averaged rlm mean (lists_of "error" evs) (lists_of "error" evs) l) /\
      ((exists e, In e evs /\ sget (snd e) "g0" <> None) ->
         (forall c, In c ["g0"; "b"] ->
            exists l, sget r c = Some (TMean l) /\ averaged rlm mean (lists_of "error" evs) (lists_of c evs) l) /\
         exists row x, In row (lists_of "g0" evs) /\ In x row /\ fisnan x = false) /\
      ((forall e, In e evs -> sget (snd e) "g0" = None) -> sget r "g0" = None /\ sget r "b" = None) /\
      ((forall sta, site_lists sta evs = []) -> sget r "R" = None) /\
      ((exists sta, site_lists sta evs <> []) -> exists d, sget r "R" = Some (TSites d) /\
         forall sta, match sget d sta with
                    | None => site_lists sta evs = []
                    | Some l => site_lists sta evs <> [] /\ averaged rlm mean (lists_of "error" evs) (site_lists sta evs) l
                    end).
  Proof.
    intros PR H. destruct (wrapper_separate mean kwargs events r PR H) as (order & st & r0 & conf & S & E & A & SN & G & _).
    destruct (add_means_spec rlm mean st r0 A SN) as (NE & _ & _ & T & _ & ER & G0 & GN & NG & R1 & R2).
    exists (ws_events st). rewrite !G by discriminate. split; [exact T|]. split; [exact NE|]. split; [exact ER|]. split.
    - intros X. split; [|now apply GN]. intros c I. rewrite G; [now apply G0|]. cbn in I. intuition (subst; discriminate).
    - auto.
  Qed.

  (** C35: configuration *)
  Lemma wrapper_config_separate mean kwargs events r : results_proper events ->
    wrapper false mean kwargs events = Ok (Some r) ->
    exists conf, sget r "config" = Some (TConf conf) /\
      (forall k, sget conf k =
        if String.eqb k "mean" then Some (CMean mean)
        else if String.eqb k "invert_events_simultaneously" then Some (CBool false)
        else if inb String.eqb k DUMP_CONFIG then option_map CGiven (sget kwargs k) else None).
  Proof.
    intros PR H. destruct (wrapper_separate mean kwargs events r PR H) as (order & st & r0 & conf & _ & _ & _ & _ & _ & G1 & G2). eauto.
  Qed.

  (** simultaneous inversion: everything is kept, the configuration is added *)
  Lemma wrapper_simultaneous mean kwargs events order ir : sort_events time same events = Ok order ->
    invert order = Ok (Some ir) -> NoDup (map fst (ir_items ir)) -> ~ In "events" (map fst (ir_items ir)) ->
    ~ In "config" (map fst (ir_items ir)) ->
    (forall k, In k (map fst (ir_items ir)) -> In k DUMP_ORDER) ->
    exists r conf, wrapper true mean kwargs events = Ok (Some r) /\
      sget r "events" = Some (TEvents (ir_events ir)) /\
      (forall k v, sget (ir_items ir) k = Some v -> sget r k = Some (TVal v)) /\
      (forall k, sget (ir_items ir) k = None -> k <> "events" -> k <> "config" -> sget r k = None) /\
      sget r "config" = Some (TConf conf) /\
      (forall k, sget conf k =
        if String.eqb k "mean" then Some (CMean mean)
        else if String.eqb k "invert_events_simultaneously" then Some (CBool true)
        else if inb String.eqb k DUMP_CONFIG then option_map CGiven (sget kwargs k) else None).
  Proof.
    intros S I ND NE NC KN.
    assert (KW : map fst (whole (C := C) ir) = map fst (ir_items ir) ++ ["events"]).
    { unfold whole. rewrite map_app, map_map. reflexivity. }
    assert (N1 : NoDup (map fst (whole (C := C) ir))).
    { rewrite KW. apply (Permutation_NoDup (Permutation_cons_append (map fst (ir_items ir)) "events")). now constructor. }
    assert (K1 : forall k, In k (map fst (whole (C := C) ir)) -> In k DUMP_ORDER).
    { intros k Q. rewrite KW in Q. apply in_app_or in Q. destruct Q as [Q|[<-|[]]]; [auto|]. cbn. tauto. }
    assert (GW : forall k, sget (whole (C := C) ir) k =
      match sget (ir_items ir) k with Some v => Some (TVal v) | None => if String.eqb k "events" then Some (TEvents (ir_events ir)) else None end).
    { intros k. unfold whole. clear. induction (ir_items ir) as [|[a b] l IH]; [reflexivity|]. cbn [map app dget fst snd].
      destruct (String.eqb k a); [reflexivity|exact IH]. }
    destruct (finish_ok kwargs true mean (whole ir) N1 K1) as (r & conf & F & G1 & G2 & G3).
    exists r, conf. split; [unfold invert_wrapper; rewrite S; cbn [bind]; rewrite I; cbn [bind]; now rewrite F|].
    split; [|split; [|split; [|auto]]].
    - rewrite G1, GW by discriminate. apply (dget_None _ string_eqb_spec) in NE. now rewrite NE.
    - intros k v Q. rewrite G1, GW, Q; [reflexivity|]. intros ->. apply NC. apply (dget_In _ string_eqb_spec) in Q.
      now apply (in_map fst) in Q.
    - intros k Q Q1 Q2. rewrite G1, GW, Q by exact Q2. apply String.eqb_neq in Q1. now rewrite Q1.
  Qed.

  (** ** success *)
  Lemma put_event_total st ev r : usable coda_norm (evid ev) r -> exists st', put_event evid coda_norm st ev r = Ok st'.
  Proof.
    intros (U1 & U2 & U3 & U4). unfold put_event. destruct (dget String.eqb (ir_items r) "freq") as [f|]; [|congruence].
    assert (K : forall k, In k (map fst (dpop String.eqb (ir_items r) "freq")) -> In k DUMP_ORDER).
    { intros k Q. apply U3. now apply dpop_keys_incl in Q. }
    assert (X : exists items', match dget String.eqb (ir_events r) (evid ev) with
                    | Some d => Ok (dupdate String.eqb (dpop String.eqb (ir_items r) "freq") d)
                    | None => if coda_norm then Ok (dpop String.eqb (ir_items r) "freq") else Err AssertionError
                    end = Ok items' /\ forall k, In k (map fst items') -> In k DUMP_ORDER).
    { destruct (dget String.eqb (ir_events r) (evid ev)) as [e|] eqn:D.
      - eexists. split; [reflexivity|]. intros k Q. apply dupdate_in_keys in Q. destruct Q as [Q|Q]; [now apply K|now apply (U4 e)].
      - destruct U2 as [U2|U2]; [congruence|]. rewrite U2. eauto. }
    destruct X as (items' & -> & K'). cbn [bind]. destruct (sort_dict_ok DUMP_ORDER items' K') as (d & -> & _). cbn [bind]. eauto.
  Qed.

  Lemma each_event_total events :
    (forall ev, In ev events -> invert [ev] = Ok None \/ exists r, invert [ev] = Ok (Some r) /\ usable coda_norm (evid ev) r) ->
    forall st, exists st', each_event evid coda_norm invert events st = Ok st'.
  Proof.
    induction events as [|ev events IH]; intros H st; cbn [each_event]; [eauto|].
    destruct (H ev (or_introl eq_refl)) as [->|(r & -> & U)]; cbn [bind].
    - apply IH. intros e I. apply H. now right.
    - destruct (put_event_total st ev r U) as (s & ->). cbn [bind]. apply IH. intros e I. apply H. now right.
  Qed.
End W.

Definition mean_dec (a b : option string) : {a = b} + {a <> b}.
Proof. decide equality. apply string_dec. Defined.

(** only the collected keys have an influence *)
Definition restrict (d : evdict) : evdict := filter (fun kv => inb String.eqb (fst kv) ["g0"; "b"; "error"; "R"]) d.

Lemma restrict_get d k : In k ["g0"; "b"; "error"; "R"] -> sget (restrict d) k = sget d k.
Proof.
  intros I. unfold restrict. induction d as [|[a b] d IH]; [reflexivity|]. cbn [filter fst].
  destruct (inb String.eqb a ["g0"; "b"; "error"; "R"]) eqn:E.
  - cbn [dget]. destruct (String.eqb k a); [reflexivity|exact IH].
  - cbn [dget]. destruct (String.eqb k a) eqn:K; [|exact IH]. apply String.eqb_eq in K. subst a.
    apply (inb_In _ string_eqb_spec) in I. congruence.
Qed.

Lemma restrict_known d k v : sget (restrict d) k = Some v -> In k ["g0"; "b"; "error"; "R"].
Proof.
  intros H. apply (dget_In _ string_eqb_spec) in H. unfold restrict in H. apply filter_In in H. destruct H as [_ H].
  now apply (inb_In _ string_eqb_spec) in H.
Qed.

Lemma collect_restrict evs :
  collect_results (map (fun e : string * evdict => (fst e, Some (snd e))) evs) (Some ["g0"; "b"; "error"; "R"]) None =
  collect_results (map (fun e : string * evdict => (fst e, Some (restrict (snd e)))) evs) (Some ["g0"; "b"; "error"; "R"]) None.
Proof.
  unfold collect_results. f_equal.
  match goal with |- fold_left _ _ ?a = _ => generalize a end.
  induction evs as [|[id d] evs IH]; intros acc; [reflexivity|]. cbn [map fold_left fst snd].
  assert (E : collect_event None ["g0"; "b"; "error"; "R"] acc (id, Some d) = collect_event None ["g0"; "b"; "error"; "R"] acc (id, Some (restrict d))).
  { unfold collect_event. cbn [fst snd].
    assert (K : forall a c, In c ["g0"; "b"; "error"; "R"] -> collect_key None id d a c = collect_key None id (restrict d) a c).
    { intros a c I. unfold collect_key. destruct a as [a|]; [|reflexivity]. cbn [bind]. unfold dmem.
      rewrite !restrict_get; [reflexivity|exact I|cbn; tauto]. }
    cbn [fold_left]. rewrite !K; [reflexivity|cbn; tauto..]. }
  rewrite E. apply IH.
Qed.

Lemma collect_means_total Nf evs : (forall id d, In (id, d) evs -> mean_values Nf d) ->
  exists col, collect_results (map (fun e : string * evdict => (fst e, Some (snd e))) evs) (Some ["g0"; "b"; "error"; "R"]) None = Ok col.
Proof.
  intros WF. rewrite collect_restrict.
  assert (EQ : map (fun e : string * evdict => (fst e, Some (restrict (snd e)))) evs =
    map (fun e : string * evdict => (fst e, Some (snd e))) (map (fun e => (fst e, restrict (snd e))) evs)).
  { rewrite map_map. apply map_ext. reflexivity. }
  rewrite EQ. apply (collect_total Nf None ltac:(discriminate)). rewrite with_result_some.
  intros id r I. apply in_map_iff in I. destruct I as ([i d] & Q & I). cbn [fst snd] in Q. injection Q as -> <-.
  intros c v G. assert (K := restrict_known d c v G). rewrite restrict_get in G by exact K. destruct (WF id d I) as [W1 W2].
  cbn in K. destruct K as [<-|[<-|[<-|[<-|[]]]]]; cbn.
  - apply (W1 "g0"); [cbn; tauto|exact G].
  - apply (W1 "b"); [cbn; tauto|exact G].
  - apply (W1 "error"); [cbn; tauto|exact G].
  - now apply W2.
Qed.

Section Total.
  Variable rlm : list R -> R * R.
  Context {C : Type}.
  Variable Nf : nat.
  Variable evs : list (string * evdict).
  Hypothesis WF : forall id d, In (id, d) evs -> mean_values Nf d.
  Hypothesis SN : forall id d s, In (id, d) evs -> sget d "R" = Some (VSites s) -> NoDup (map fst s).
  Hypothesis CP : forall id d, In (id, d) evs -> complete d.

  Lemma table_total col c : collect_results (map (fun e : string * evdict => (fst e, Some (snd e))) evs) (Some ["g0"; "b"; "error"; "R"]) None = Ok col ->
    In c ["g0"; "b"; "error"] -> (exists e, In e evs /\ sget (snd e) c <> None) ->
    collected_table col c = Ok (lists_of c evs).
  Proof.
    intros COL I EX. destruct (collected_lists evs col COL c I) as [D T]. apply D in EX.
    destruct (collected_table col c) as [t|x] eqn:E; [destruct (T t eq_refl) as [-> _]; reflexivity|]. exfalso.
    destruct (collect_stages None _ (Some ["g0"; "b"; "error"; "R"]) col COL) as (col1 & E1 & S).
    assert (NE : c <> "eventid") by (cbn in I; intuition (subst; discriminate)).
    assert (NR : c <> "R") by (cbn in I; intuition (subst; discriminate)).
    assert (NV : c <> "v0") by (cbn in I; intuition (subst; discriminate)).
    assert (IK : In c ["g0"; "b"; "error"; "R"]) by (cbn in *; tauto).
    destruct (rows_after None _ keys_nodup c IK NE NR _ _ col1 (init_other (Some ["g0"; "b"; "error"; "R"]) c NR) E1) as (rows & R1 & F).
    unfold with_key in F. rewrite with_result_some in F. unfold collected_table in E. rewrite S, R1 in E.
    unfold dmem in EX. rewrite S, R1 in EX. destruct rows as [|r rows]; [discriminate|]. cbn [rows_opt] in E.
    assert (TO : exists t, table_of (r :: rows) = Ok t); [|destruct TO as (t & TO); rewrite TO in E; discriminate].
    apply mapM_ok. intros v V. 
    assert (exists e, In e (filter (fun e => dmem String.eqb (snd e) c) evs) /\ row_of None c e v) as (e & J & r0 & G & Q).
    { clear - F V. induction F as [|a b l l' H F IH]; [destruct V|]. destruct V as [<-|V]; [exists a; split; [now left|exact H]|].
      destruct (IH V) as (e & J & K). exists e. split; [now right|exact K]. }
    cbn [value_at] in Q. subst r0. apply filter_In in J. destruct e as [id d]. cbn [snd] in *. destruct J as [J _].
    destruct (proj1 (WF id d J) c v I G) as (l & -> & _). eauto.
  Qed.

  Lemma ncols_lists c : In c ["g0"; "b"; "error"] -> (forall id d, In (id, d) evs -> sget d c <> None) ->
    List.length (lists_of c evs) = List.length evs /\ (evs <> [] -> ncols (lists_of c evs) = Nf).
  Proof.
    intros I. clear SN CP. induction evs as [|[id d] l IH]; intros H; [split; [reflexivity|congruence]|].
    destruct (IH (fun i d J => WF i d (or_intror J)) (fun i d J => H i d (or_intror J))) as [L _].
    change (lists_of c ((id, d) :: l)) with (match sget d c with Some (VList q) => [q] | _ => [] end ++ lists_of c l).
    specialize (H id d (or_introl eq_refl)). destruct (sget d c) as [v|] eqn:G; [|congruence].
    destruct (proj1 (WF id d (or_introl eq_refl)) c v I G) as (q & -> & Q).
    cbn [app List.length ncols]. split; [congruence|auto].
  Qed.

  Lemma site_lists_in sta row : In row (site_lists sta evs) -> List.length row = Nf.
  Proof.
    intros I. unfold site_lists in I. apply in_flat_map in I. destruct I as ([id d] & J & I). cbn [snd] in I.
    destruct (site_of d sta) as [q|] eqn:G; [|destruct I]. destruct I as [<-|[]]. unfold site_of in G.
    destruct (sget d "R") as [v|] eqn:GR; [|discriminate]. destruct (proj2 (WF id d J) v GR) as (s & -> & L).
    apply (L sta). now apply (dget_In _ string_eqb_spec).
  Qed.

  Lemma table_of_lists t : table_of (map VList t) = Ok t.
  Proof. unfold table_of. induction t as [|x t IH]; cbn; [reflexivity|]. now rewrite IH. Qed.

  (** plain and robust means never fail; weighted means do not fail if all events have
      all values and the same stations *)
  Lemma add_means_total mean freq :
    (mean = Some "weighted" -> (forall id d, In (id, d) evs -> sget d "g0" <> None) /\
       forall i d j e, In (i, d) evs -> In (j, e) evs -> same_stations d e) ->
    exists o, add_means (C := C) rlm mean {| ws_freq := freq; ws_events := evs |} = Ok o.
  Proof.
    intros WH. unfold add_means. cbn [ws_events ws_freq]. destruct evs as [|e0 evs0] eqn:EV; [eauto|]. rewrite <- EV in *. 
    assert (I0 : In e0 evs) by (rewrite EV; now left). assert (NE : evs <> []) by (rewrite EV; discriminate). clear EV evs0.
    destruct (collect_means_total Nf evs WF) as (col & COL).
    rewrite COL. cbn [bind].
    destruct e0 as [i0 d0].
    assert (ER : collected_table col "error" = Ok (lists_of "error" evs)).
    { apply table_total; [exact COL|cbn; tauto|]. exists (i0, d0). split; [exact I0|]. cbn [snd]. apply (CP i0 d0 I0). }
    destruct (collected_lists evs col COL "g0" ltac:(cbn; tauto)) as [DG _].
    assert (GT : dmem String.eqb col "g0" = true -> collected_table col "g0" = Ok (lists_of "g0" evs) /\ collected_table col "b" = Ok (lists_of "b" evs)).
    { intros Q. apply DG in Q. split; [apply table_total; auto; cbn; tauto|]. apply table_total; [exact COL|cbn; tauto|].
      destruct Q as ([i d] & J & Q). exists (i, d). split; [exact J|]. cbn [snd] in *. now apply (CP i d J). }
    assert (WT : exists ws, weights_of mean col = Ok ws).
    { unfold weights_of. destruct mean as [m|]; [|eauto]. destruct (String.eqb m "weighted"); [|eauto]. rewrite ER. cbn [bind]. eauto. }
    destruct WT as (ws & WT). destruct (weights_robust _ _ _ WT) as [W1 W2]. destruct (robust_of_spec mean) as [_ RB].
    assert (LE := ncols_lists "error" ltac:(cbn; tauto) (fun i d J => proj1 (CP i d J))). destruct LE as [LE1 LE2]. specialize (LE2 NE).
    (* a table with as many rows as events *)
    assert (ML : forall rows, (mean = Some "weighted" -> List.length rows = List.length evs /\ ncols rows = Nf) ->
              exists l, mean_list rlm rows ws (robust_of mean) = Ok l).
    { intros rows Q. destruct (mean_dec mean (Some "weighted")) as [M|M].
      - destruct (Q M) as [Q1 Q2]. destruct (W2 M) as (e & X & ->). rewrite ER in X. injection X as <-.
        rewrite RB by (rewrite M; discriminate). apply mean_list_weighted_total; congruence.
      - rewrite (W1 M). apply mean_list_total. }
    assert (M1 : exists m1, mean_g0 (C := C) rlm col ws (robust_of mean) = Ok m1).
    { unfold mean_g0. destruct (dmem String.eqb col "g0") eqn:D; [|eauto]. destruct (GT eq_refl) as [-> ->]. cbn [bind].
      destruct (ML (lists_of "g0" evs)) as (l & ->).
      { intros M. destruct (ncols_lists "g0" ltac:(cbn; tauto) (proj1 (WH M))) as [A B]. auto. }
      cbn [bind]. destruct (ML (lists_of "b" evs)) as (l2 & ->); [|cbn [bind]; eauto].
      intros M. destruct (ncols_lists "b" ltac:(cbn; tauto)) as [A B]; [|auto].
      intros i d J. apply (CP i d J). now apply (proj1 (WH M) i). }
    assert (M2 : exists m2, mean_error (C := C) rlm col ws (robust_of mean) = Ok m2).
    { unfold mean_error. rewrite ER. cbn [bind]. destruct (ML (lists_of "error" evs)) as (l & ->); [auto|]. cbn [bind]. eauto. }
    assert (M3 : exists m3, mean_sites (C := C) rlm col ws (robust_of mean) = Ok m3).
    { unfold mean_sites. destruct (collected_sites evs col COL SN) as (d & D & V). rewrite D. destruct d as [|s0 d0']; [eauto|].
      set (dd := s0 :: d0') in *.
      assert (ND : NoDup (map fst dd)) by (apply (collected_sites_nodup _ col COL dd D)).
      destruct (mapM_ok (fun sr : string * list rval => do t <- table_of (snd sr); do m <- mean_list rlm t ws (robust_of mean); Ok (fst sr, m)) dd) as (ms & ->); [|cbn [bind]; eauto].
      intros [sta rows] J. cbn [fst snd]. specialize (V sta).
      rewrite (dget_nodup _ string_eqb_spec dd sta rows ND J) in V. destruct V as (N & _ & ->).
      rewrite table_of_lists. cbn [bind]. destruct (ML (site_lists sta evs)) as (l & ->); [|cbn [bind]; eauto].
      intros M. destruct (WH M) as [_ ST].
      assert (EX : exists i d, In (i, d) evs /\ site_of d sta <> None).
      { destruct (site_lists sta evs) as [|q qs] eqn:SL; [now elim N|]. assert (Q : In q (site_lists sta evs)) by (rewrite SL; now left).
        unfold site_lists in Q. apply in_flat_map in Q. destruct Q as ([i d] & Q1 & Q2). exists i, d. split; [exact Q1|]. cbn [snd] in Q2.
        destruct (site_of d sta); [discriminate|destruct Q2]. }
      destruct EX as (i & d & J1 & J2). split.
      - assert (AL : forall j e, In (j, e) evs -> site_of e sta <> None) by (intros j e J3; now apply (ST i d j e)).
        clear - AL. induction evs as [|[j e] l IH]; [reflexivity|].
        change (site_lists sta ((j, e) :: l)) with (match site_of e sta with Some q => [q] | None => [] end ++ site_lists sta l).
        assert (A := AL j e (or_introl eq_refl)). destruct (site_of e sta); [|congruence]. cbn. f_equal. apply IH.
        intros j' e' J. apply (AL j'). now right.
      - assert (Q := site_lists_in sta). destruct (site_lists sta evs) as [|q qs]; [now elim N|]. cbn [ncols]. apply Q. now left. }
    destruct M1 as (m1 & M1), M2 as (m2 & M2), M3 as (m3 & M3).
    destruct (dmem String.eqb col "g0") eqn:D.
    - destruct (GT eq_refl) as [G1 _]. rewrite G1. cbn [bind]. destruct (all_nan _); [eauto|]. rewrite WT. cbn [bind]. rewrite M1. cbn [bind].
      rewrite M2. cbn [bind]. rewrite M3. cbn [bind]. eauto.
    - cbn [bind]. rewrite WT. cbn [bind]. rewrite M1. cbn [bind]. rewrite M2. cbn [bind]. rewrite M3. cbn [bind]. eauto.
  Qed.
End Total.

Section WTotal.
  Context {Ev C : Type}.
  Variable time : Ev -> option Z.
  Variable same : Ev -> Ev -> bool.
  Variable evid : Ev -> string.
  Variable rlm : list R -> R * R.
  Variable coda_norm : bool.
  Variable invert : list Ev -> res (option ires).

  (** C67: complete results are always combined *)
  Lemma wrapper_total Nf mean (kwargs : list (string * C)) events :
    (exists l, sort_events time same events = Ok l) ->
    (forall ev, In ev events -> invert [ev] = Ok None \/
       exists r, invert [ev] = Ok (Some r) /\ usable coda_norm (evid ev) r /\ proper r /\
         forall d, event_result r (evid ev) d -> mean_values Nf d /\ complete d) ->
    (mean = Some "weighted" -> forall ev1 ev2 r1 r2 d1 d2, In ev1 events -> In ev2 events ->
       invert [ev1] = Ok (Some r1) -> invert [ev2] = Ok (Some r2) ->
       event_result r1 (evid ev1) d1 -> event_result r2 (evid ev2) d2 ->
       sget d1 "g0" <> None /\ same_stations d1 d2) ->
    exists o, invert_wrapper time same evid rlm coda_norm invert false mean kwargs events = Ok o.
  Proof.
    intros (order & S) H WH. unfold invert_wrapper. rewrite S. cbn [bind].
    assert (IO : forall ev, In ev order -> In ev events) by (intros ev I; apply (in_order time same events order ev S I)).
    destruct (each_event_total evid coda_norm invert order) with (st := {| ws_freq := None; ws_events := [] |}) as (st & E).
    { intros ev I. destruct (H ev (IO ev I)) as [Q|(r & Q & U & _)]; eauto. }
    rewrite E. cbn [bind].
    assert (PR : forall ev r, In ev order -> invert [ev] = Ok (Some r) -> proper r).
    { intros ev r I Q. destruct (H ev (IO ev I)) as [N|(r' & Q' & _ & P & _)]; [congruence|]. rewrite Q in Q'. now injection Q' as <-. }
    assert (ALL : forall id d, In (id, d) (ws_events st) ->
      exists ev r, In ev events /\ invert [ev] = Ok (Some r) /\ event_result r (evid ev) d).
    { apply (each_event_all evid coda_norm invert (fun d => exists ev r, In ev events /\ invert [ev] = Ok (Some r) /\ event_result r (evid ev) d) order PR) with (3 := E).
      - intros ev r d I J K _. exists ev, r. auto.
      - intros id d []. }
    assert (GET : forall id d, In (id, d) (ws_events st) -> exists r i, proper r /\ event_result r i d /\ mean_values Nf d /\ complete d).
    { intros id d I. destruct (ALL id d I) as (ev & r & J & Q & K). destruct (H ev J) as [N|(r' & Q' & _ & P & V)]; [congruence|].
      rewrite Q in Q'. injection Q' as <-. exists r, (evid ev). destruct (V d K). auto. }
    assert (SN : forall id d s, In (id, d) (ws_events st) -> sget d "R" = Some (VSites s) -> NoDup (map fst s)).
    { intros id d s I G. destruct (GET id d I) as (r & i & P & K & _). now apply (event_sites_nodup r i d). }
    assert (T : exists o, add_means (C := C) rlm mean st = Ok o).
    { destruct st as [f evs]. apply (add_means_total rlm Nf evs); cbn [ws_events] in *; [| exact SN| |].
      - intros id d I. destruct (GET id d I) as (r & i & _ & _ & M & _). exact M.
      - intros id d I. destruct (GET id d I) as (r & i & _ & _ & _ & M). exact M.
      - intros M. split.
        + intros id d I. destruct (ALL id d I) as (ev & r & J & Q & K). apply (WH M ev ev r r d d J J Q Q K K).
        + intros i d j e I1 I2. destruct (ALL i d I1) as (ev1 & r1 & J1 & Q1 & K1). destruct (ALL j e I2) as (ev2 & r2 & J2 & Q2 & K2).
          apply (WH M ev1 ev2 r1 r2 d e J1 J2 Q1 Q2 K1 K2). }
    destruct T as ([r|] & T); rewrite T; cbn [bind]; [|eauto].
    destruct (add_means_spec rlm mean st r T SN) as (_ & K1 & K2 & _).
    destruct (finish_ok kwargs false mean r K1 K2) as (d' & conf & F' & _). rewrite F'. cbn [bind]. eauto.
  Qed.

  (** the result depends on the inversions of single events only *)
  Lemma wrapper_ext invert2 mean (kwargs : list (string * C)) events :
    (forall ev, In ev events -> time ev <> None -> invert2 [ev] = invert [ev]) ->
    invert_wrapper time same evid rlm coda_norm invert2 false mean kwargs events =
    invert_wrapper time same evid rlm coda_norm invert false mean kwargs events.
  Proof.
    intros H. unfold invert_wrapper. destruct (sort_events time same events) as [order|] eqn:S; [|reflexivity]. cbn [bind].
    assert (X : forall st, each_event evid coda_norm invert2 order st = each_event evid coda_norm invert order st); [|now rewrite X].
    assert (IO : forall ev, In ev order -> invert2 [ev] = invert [ev]).
    { intros ev I. destruct (in_order time same events order ev S I). now apply H. }
    clear S. induction order as [|ev order IH]; intros st; cbn [each_event]; [reflexivity|].
    rewrite (IO ev) by now left. destruct (invert [ev]) as [[r|]|]; cbn [bind]; [| |reflexivity].
    - destruct (put_event evid coda_norm st ev r); cbn [bind]; [|reflexivity]. apply IH. intros e I. apply IO. now right.
    - apply IH. intros e I. apply IO. now right.
  Qed.
End WTotal.

(** C66: when there is no result *)
Lemma add_means_none rlm (C : Type) mean st : add_means (C := C) rlm mean st = Ok None ->
  ws_events st = [] \/ forall row x, In row (lists_of "g0" (ws_events st)) -> In x row -> fisnan x = true.
Proof.
  intros H. unfold add_means in H. destruct (ws_events st) as [|e0 evs0] eqn:EV; [now left|]. right. rewrite <- EV in *. clear EV.
  revert H. generalize (ws_events st). intros evs H.
  destruct (collect_results _ _ _) as [col|] eqn:COL; [|discriminate]. cbn [bind] in H.
  destruct (collected_lists evs col COL "g0" ltac:(cbn; tauto)) as [DG TG].
  destruct (dmem String.eqb col "g0") eqn:D.
  - destruct (collected_table col "g0") as [g0|] eqn:G; [|discriminate]. cbn [bind] in H. destruct (all_nan g0) eqn:A.
    + destruct (TG g0 eq_refl) as [-> _]. intros row x I J. unfold all_nan in A. rewrite forallb_forall in A.
      specialize (A row I). rewrite forallb_forall in A. now apply A.
    + exfalso. destruct (weights_of mean col); [|discriminate]. cbn [bind] in H. destruct (mean_g0 _ _ _ _); [|discriminate]. cbn [bind] in H.
      destruct (mean_error _ _ _ _); [|discriminate]. cbn [bind] in H. destruct (mean_sites _ _ _ _); discriminate.
  - cbn [bind] in H. exfalso. destruct (weights_of mean col); [|discriminate]. cbn [bind] in H. destruct (mean_g0 _ _ _ _); [|discriminate]. cbn [bind] in H.
    destruct (mean_error _ _ _ _); [|discriminate]. cbn [bind] in H. destruct (mean_sites _ _ _ _); discriminate.
Qed.

Lemma wrapper_none {Ev C : Type} time same (evid : Ev -> string) rlm coda_norm invert mean (kwargs : list (string * C)) events :
  NoDup (map evid events) -> results_proper invert events ->
  invert_wrapper time same evid rlm coda_norm invert false mean kwargs events = Ok None ->
  forall ev r d l x, In ev events -> time ev <> None -> invert [ev] = Ok (Some r) -> event_result r (evid ev) d ->
    sget d "g0" = Some (VList l) -> In x l -> fisnan x = true.
Proof.
  intros ND PR H ev r d l x I TN Q K G J. unfold invert_wrapper in H.
  destruct (sort_events time same events) as [order|] eqn:S; [|discriminate]. cbn [bind] in H.
  destruct (each_event evid coda_norm invert order _) as [st|] eqn:E; [|discriminate]. cbn [bind] in H.
  destruct (add_means rlm mean st) as [[r0|]|] eqn:A; cbn [bind] in H; [destruct (finish _ _ _ _); discriminate| |discriminate].
  destruct (sort_events_incl time same events order S) as (P & _ & _).
  assert (IO : In ev order).
  { apply (Permutation_in _ (Permutation_sym P)). apply filter_In. split; [exact I|]. unfold located. destruct (time ev); congruence. }
  assert (NO : NoDup (map evid order)).
  { apply (Permutation_NoDup (Permutation_map evid (Permutation_sym P))).
    clear - ND. induction events as [|e q IH]; cbn; [constructor|]. cbn in ND. inversion ND; subst.
    destruct (located time e); [|auto]. cbn. constructor; [|auto]. intros Q. apply in_map_iff in Q.
    destruct Q as (y & Q1 & Q2). apply filter_In in Q2. destruct Q2 as [Q2 _].
    match goal with N : ~ _ |- _ => apply N end. rewrite <- Q1. now apply in_map. }
  assert (PO : forall ev r, In ev order -> invert [ev] = Ok (Some r) -> proper r).
  { intros e r1 I1. apply PR. apply (in_order time same events order e S I1). }
  destruct (each_event_spec evid coda_norm invert order NO PO {| ws_freq := None; ws_events := [] |} st (fun _ _ f => f) E) as (_ & K2 & _).
  destruct (K2 ev IO) as [[N _]|(r1 & d1 & Q1 & G1 & E1 & _)]; [congruence|]. rewrite Q in Q1. injection Q1 as <-.
  apply add_means_none in A. destruct A as [A|A]; [rewrite A in G1; discriminate|].
  apply (A l x); [|exact J]. unfold lists_of. apply in_flat_map. exists (evid ev, d1). split; [now apply (dget_In _ string_eqb_spec)|].
  cbn [snd]. assert (GG : sget d1 "g0" = Some (VList l)) by (rewrite <- G, (E1 "g0"), (K "g0"); reflexivity).
  rewrite GG. now left.
Qed.
