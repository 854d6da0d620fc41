(** Proofs for C138. *)
From Coq Require Import String List Bool Reals ZArith Arith Lra Lia Permutation.
From Verif Require Import Base Pyf PySort SortModel StatModel SiteProof CollectModel WrapModel WrapSpec WrapProof EventModel PairsModel EntryModel EntrySpec.
Import ListNotations.
Open Scope string_scope.
Open Scope list_scope.
Open Scope R_scope.

Lemma origin_counts e o : entry_origin e = Ok o <-> counts (e_pref_origin e) (e_origins e) o.
Proof.
  unfold entry_origin, counts. destruct (e_pref_origin e) as [p|].
  - split; [intros [= ->]; now left|]. intros [[= ->]|([=] & _)]. reflexivity.
  - destruct (e_origins e) as [|x l].
    + split; [discriminate|]. intros [[=]|(_ & r & [=])].
    + split; [intros [= ->]; right; split; eauto|]. intros [[=]|(_ & r & [= -> _])]. reflexivity.
Qed.

Lemma origin_none e x : entry_origin e = Err x <-> x = IndexError /\ nothing (e_pref_origin e) (e_origins e).
Proof.
  unfold entry_origin, nothing. destruct (e_pref_origin e) as [p|].
  - split; [discriminate|]. intros (_ & [=] & _).
  - destruct (e_origins e) as [|y l].
    + split; [intros [= ->]; auto|]. intros (-> & _). reflexivity.
    + split; [discriminate|]. intros (_ & _ & [=]).
Qed.

Lemma magnitude_counts e m : counts (e_pref_mag e) (e_mags e) m -> entry_magnitude e = m.
Proof.
  unfold entry_magnitude, counts. intros [->|(-> & r & ->)]; reflexivity.
Qed.

Lemma magnitude_value e m : entry_magnitude e = Some m <-> counts (e_pref_mag e) (e_mags e) (Some m).
Proof.
  split; [|apply magnitude_counts]. unfold entry_magnitude, counts.
  destruct (e_pref_mag e) as [p|]; [intros ->; now left|].
  destruct (e_mags e) as [|x l]; [discriminate|]. intros ->. right. split; eauto.
Qed.

Lemma magnitude_none e : entry_magnitude e = None <->
  nothing (e_pref_mag e) (e_mags e) \/ counts (e_pref_mag e) (e_mags e) None.
Proof.
  unfold entry_magnitude, nothing, counts. destruct (e_pref_mag e) as [p|].
  - split; [intros ->; right; now left|]. intros [([=] & _)|[[= ->]|([=] & _)]]. reflexivity.
  - destruct (e_mags e) as [|x l]; [split; auto|].
    split; [intros ->; right; right; split; eauto|]. intros [(_ & [=])|[[=]|(_ & r & [= -> _])]]. reflexivity.
Qed.

(** unique ids *)
Lemma event_dict_unique events e : NoDup (map entry_id events) -> In e events ->
  dget String.eqb (event_dict events) (entry_id e) = Some e.
Proof.
  intros ND I. unfold event_dict. rewrite dict_of_nodup by now rewrite map_map.
  induction events as [|x l IH]; [contradiction|]. cbn [map dget]. inversion ND as [|? ? NI ND']; subst.
  destruct I as [->|I]; [now rewrite String.eqb_refl|].
  destruct (String.eqb_spec (entry_id e) (entry_id x)) as [E|E]; [|now apply IH].
  exfalso. apply NI. rewrite <- E. now apply in_map.
Qed.

Lemma catalogue_unique events e : NoDup (map entry_id events) -> In e events ->
  catalogue_magnitude events (entry_id e) = Ok (entry_magnitude e).
Proof. intros ND I. unfold catalogue_magnitude. now rewrite event_dict_unique. Qed.

(** the last one of several events with the same id *)
Lemma event_dict_last events1 e events2 : (forall x, In x events2 -> entry_id x <> entry_id e) ->
  dget String.eqb (event_dict (events1 ++ e :: events2)) (entry_id e) = Some e.
Proof.
  intros H. unfold event_dict, dict_of, dupdate. rewrite map_app, fold_left_app. cbn [map fold_left].
  set (d := fold_left _ (map _ events1) _). clearbody d. cbn [fst snd].
  assert (G : dget String.eqb (dset String.eqb d (entry_id e) e) (entry_id e) = Some e) by apply (dget_dset_eq _ string_eqb_spec).
  revert G. generalize (dset String.eqb d (entry_id e) e). clear d.
  induction events2 as [|x l IH]; intros d G; cbn [map fold_left]; [exact G|].
  apply IH; [intros y I; apply H; now right|]. cbn [fst snd].
  rewrite (dget_dset_neq _ string_eqb_spec); [exact G|]. specialize (H x (or_introl eq_refl)). congruence.
Qed.

Lemma catalogue_last events1 e events2 : (forall x, In x events2 -> entry_id x <> entry_id e) ->
  catalogue_magnitude (events1 ++ e :: events2) (entry_id e) = Ok (entry_magnitude e).
Proof. intros H. unfold catalogue_magnitude. now rewrite event_dict_last. Qed.

(** the loop *)
Lemma log_ok e : has_depth e -> log_event e = Ok tt.
Proof.
  intros (o & z & C & Z). apply origin_counts in C. unfold log_event. rewrite C. cbn [bind]. now rewrite Z.
Qed.

Lemma log_fails e : lacks_depth e -> log_event e = Err TypeError.
Proof.
  intros (o & C & Z). apply origin_counts in C. unfold log_event. rewrite C. cbn [bind]. now rewrite Z.
Qed.

Lemma each_complete coda_norm invert events : Forall has_depth events -> forall st,
  each_entry coda_norm invert events st = each_event entry_id coda_norm invert events st.
Proof.
  induction 1 as [|e l He _ IH]; intros st; [reflexivity|]. cbn [each_entry each_event].
  rewrite (log_ok e He). cbn [bind]. destruct (invert [e]) as [r|x]; [|reflexivity]. cbn [bind].
  destruct r as [r|]; cbn [bind]; [|apply IH]. destruct (put_event _ _ _ _ _) as [s|x]; [|reflexivity]. cbn [bind]. apply IH.
Qed.

Lemma each_stops coda_norm invert events1 e events2 : lacks_depth e -> forall st st1,
  each_entry coda_norm invert events1 st = Ok st1 ->
  each_entry coda_norm invert (events1 ++ e :: events2) st = Err TypeError.
Proof.
  intros L. induction events1 as [|x l IH]; intros st st1 H; cbn [each_entry app] in *.
  - now rewrite (log_fails e L).
  - destruct (log_event x); [|discriminate]. cbn [bind] in *. destruct (invert [x]) as [r|y]; [|discriminate]. cbn [bind] in *.
    destruct (match r with None => _ | Some _ => _ end) as [s|y]; [|discriminate]. cbn [bind] in *. eapply IH; eauto.
Qed.

(** no result at all *)
Lemma each_never coda_norm invert events e : In e events -> lacks_depth e -> forall st st1,
  each_entry coda_norm invert events st <> Ok st1.
Proof.
  intros I L. induction events as [|x l IH]; [contradiction|]. intros st st1 H. cbn [each_entry] in H.
  destruct I as [->|I]; [rewrite (log_fails e L) in H; discriminate|].
  destruct (log_event x); [|discriminate]. cbn [bind] in H. destruct (invert [x]) as [r|y]; [|discriminate]. cbn [bind] in H.
  destruct (match r with None => _ | Some _ => _ end) as [s|y]; [|discriminate]. cbn [bind] in H. eapply IH; eauto.
Qed.

Lemma pairs_origin events p : In p (time_event_pairs entry_time events) -> In (snd p) events /\ entry_time (snd p) <> None.
Proof.
  induction events as [|e l IH]; cbn [time_event_pairs]; [intros []|].
  destruct (entry_time e) as [t|] eqn:E.
  - intros [<-|I]; [cbn; split; [now left|congruence]|]. destruct (IH I). split; [now right|assumption].
  - intros I. destruct (IH I). split; [now right|assumption].
Qed.

Lemma origin_pairs events e : In e events -> entry_time e <> None ->
  exists t, In (t, e) (time_event_pairs entry_time events).
Proof.
  induction events as [|x l IH]; [intros []|]. intros I N. cbn [time_event_pairs]. destruct I as [->|I].
  - destruct (entry_time e) as [t|]; [|congruence]. exists t. now left.
  - destruct (IH I N) as (t & J). destruct (entry_time x); exists t; [now right|exact J].
Qed.

Lemma sorted_origin same events l e : sort_events entry_time same events = Ok l ->
  (In e l <-> In e events /\ exists o, counts (e_pref_origin e) (e_origins e) o).
Proof.
  assert (T : entry_time e <> None <-> exists o, counts (e_pref_origin e) (e_origins e) o).
  { unfold entry_time. split.
    - destruct (entry_origin e) as [o|] eqn:O; [|congruence]. intros _. exists o. now apply origin_counts.
    - intros (o & C). apply origin_counts in C. rewrite C. discriminate. }
  unfold sort_events. destruct (clash _ _); [discriminate|].
  match goal with |- context [pysort ?f ?l] => destruct (pysort f l) as [|p q] eqn:E end; [discriminate|].
  intros [= <-]. change (In e (map snd (p :: q)) <-> In e events /\ exists o, counts (e_pref_origin e) (e_origins e) o).
  rewrite <- T, <- E. split.
  - intros I. apply in_map_iff in I. destruct I as (x & <- & I). apply pysort_in in I. now apply pairs_origin in I.
  - intros (I & N). destruct (origin_pairs events e I N) as (t & J). apply in_map_iff. exists (t, e). split; [reflexivity|].
    now apply pysort_in.
Qed.

(** distances *)
Section Distance.
  Context {T : Type}.
  Variable o : popts T.

  Lemma distance_point channels ori p sta : point_of ori p ->
    entry_distance o channels ori sta = get_distance o channels p sta.
  Proof.
    intros (Ht & Hla & Hlo & Hd). unfold entry_distance, get_distance. rewrite Ht, Hla, Hlo, Hd. reflexivity.
  Qed.

  Lemma distance_lacks channels ori sta : no_exit o -> whole ori = false ->
    exists e, entry_distance o channels ori sta = Err e /\ caught e = true.
  Proof.
    intros (N1 & N2) W. unfold entry_distance.
    destruct (match dget _ _ _ with None => _ | Some _ => _ end) as [c|e] eqn:E.
    - unfold whole in W. destruct (eo_lat ori) as [la|]; [|eauto]. destruct (eo_lon ori) as [lo|]; [|eauto].
      destruct (eo_depth ori) as [z|]; [discriminate|].
      destruct (p_gps o (co_lat c) (co_lon c) la lo) as [h|e] eqn:G; cbn [bind]; [eauto|].
      exists e. split; [reflexivity|]. destruct (N2 _ _ _ _ _ G) as (A & B). destruct e; congruence || reflexivity.
    - assert (C : caught e = true).
      { destruct (dget _ _ _) as [ch|]; [|injection E as <-; reflexivity]. destruct (N1 _ _ _ E) as (A & B).
        destruct e; congruence || reflexivity. }
      rewrite C. eauto.
  Qed.

  Lemma select_whole channels origins pairs : no_exit o ->
    select_entries o channels origins pairs = select_entries o channels origins (filter (whole_pair origins) pairs).
  Proof.
    intros N. induction pairs as [|(ev, sta) l IH]; [reflexivity|]. cbn [filter]. unfold whole_pair at 1. cbn [fst].
    destruct (dget String.eqb origins ev) as [ori|] eqn:D.
    - destruct (whole ori) eqn:W.
      + cbn [select_entries]. rewrite D. rewrite <- IH. reflexivity.
      + cbn [select_entries]. rewrite D. destruct (distance_lacks channels ori sta N W) as (e & -> & C). now rewrite C.
    - cbn [select_entries]. rewrite D. cbn [caught]. exact IH.
  Qed.

  (** origins with all coordinates *)
  Lemma dget_points oris ps ev : Forall2 (fun a b => fst a = fst b /\ point_of (snd a) (snd b)) oris ps ->
    match dget String.eqb oris ev, dget String.eqb ps ev with
    | Some a, Some b => point_of a b
    | None, None => True
    | _, _ => False
    end.
  Proof.
    induction 1 as [|(k, a) (k', b) l l' (E & P) _ IH]; cbn [dget]; [exact I|]. cbn [fst snd] in *. subst k'.
    destruct (String.eqb ev k); [exact P|exact IH].
  Qed.

  Lemma select_points channels oris ps pairs :
    Forall2 (fun a b => fst a = fst b /\ point_of (snd a) (snd b)) oris ps ->
    select_entries o channels oris pairs =
    match select_distance o channels ps pairs with
    | Ok (cs, bs) => Ok (map (fun c => (k_ev c, k_sta c, k_dist c)) cs, bs)
    | Err e => Err e
    end.
  Proof.
    intros F. induction pairs as [|(ev, sta) l IH]; [reflexivity|]. cbn [select_entries select_distance].
    pose proof (dget_points oris ps ev F) as D.
    destruct (dget String.eqb oris ev) as [a|], (dget String.eqb ps ev) as [b|]; try contradiction; [|cbn [caught]; exact IH].
    rewrite (distance_point channels a b sta D). destruct (get_distance o channels b sta) as [(dist, bh)|e]; cbn [bind].
    - rewrite IH. destruct (select_distance o channels ps l) as [(cs, bs)|e]; cbn [bind]; [|reflexivity].
      destruct (too_far o dist); reflexivity.
    - destruct (caught e); [exact IH|reflexivity].
  Qed.
End Distance.
