(** C143: the alignment does not depend on the order of events and stations. *)
From Coq Require Import String List Bool Reals Arith Lia Lra Permutation Relation_Operators Sorted FunctionalExtensionality.
From Verif Require Import Base PySort Pyf StatModel StatProof SiteModel SiteSpec MergeProof SiteProof SiteProof2 SiteProof3 SiteProof4 SiteProof5 SiteProof6 SiteProof7
  SiteProof8 SiteProof9 GaugeSpec GaugeProof GaugeProof2 GaugeProof3 ChosenProof TwiceProof OrderSpec OrderProof OrderProof3.
Import ListNotations.
Open Scope list_scope.
Open Scope R_scope.

(** ** areas *)
Lemma observed_alike E E' ignore i s : (forall ev, In ev E -> exists ev', In ev' E' /\ forall t, response_of ev i t = response_of ev' i t) ->
  observed E ignore i s -> observed E' ignore i s.
Proof. intros H (Hn & ev & Hev & Hr). split; [exact Hn|]. destruct (H ev Hev) as (ev' & Hev' & HR). exists ev'. rewrite <- HR. auto. Qed.

Lemma connected_alike E E' ignore i a b : (forall ev, In ev E -> exists ev', In ev' E' /\ forall t, response_of ev i t = response_of ev' i t) ->
  connected E ignore i a b -> connected E' ignore i a b.
Proof.
  intros H. induction 1 as [a b (Ha & Hb & ev & Hev & Ra & Rb)|a|a u b H1 IH1 H2 IH2].
  - apply rt_step. split; [exact Ha|]. split; [exact Hb|]. destruct (H ev Hev) as (ev' & Hev' & HR). exists ev'. rewrite <- !HR. auto.
  - apply rt_refl.
  - eapply rt_trans; eauto.
Qed.

Section Alike.
Variables (E E' : list evres) (ignore : option (list string)) (i : nat).
Hypothesis H : forall ev, In ev E -> exists ev', In ev' E' /\ forall t, response_of ev i t = response_of ev' i t.
Hypothesis H' : forall ev, In ev E' -> exists ev', In ev' E /\ forall t, response_of ev i t = response_of ev' i t.

Lemma area_alike a : is_area E ignore i a <-> is_area E' ignore i a.
Proof.
  split; intros (N & Ne & HA); (split; [exact N|]); (split; [exact Ne|]); intros s Hs; destruct (HA s Hs) as [HO HC].
  - split; [now apply (observed_alike E E')|]. intros t. rewrite HC. split; [now apply connected_alike|now apply connected_alike].
  - split; [now apply (observed_alike E' E)|]. intros t. rewrite HC. split; [now apply connected_alike|now apply connected_alike].
Qed.

Lemma largest_alike a : is_largest_area E ignore i a <-> is_largest_area E' ignore i a.
Proof. unfold is_largest_area. rewrite area_alike. split; intros [H1 H2]; (split; [exact H1|]); intros b Hb; apply H2; now apply area_alike. Qed.
End Alike.

Lemma Forall2_nth {A B} (P : A -> B -> Prop) (da : A) (db : B) l l' : Forall2 P l l' -> forall k, (k < List.length l)%nat -> P (nth k l da) (nth k l' db).
Proof. induction 1 as [|a b l l' Hab F IH]; intros k Hk; cbn in Hk; [lia|]. destruct k; cbn; [exact Hab|]. apply IH. lia. Qed.

Lemma Forall2_len {A B} (P : A -> B -> Prop) l l' : Forall2 P l l' -> List.length l = List.length l'.
Proof. induction 1; cbn; congruence. Qed.

Lemma Forall2_in {A B} (P : A -> B -> Prop) l l' : Forall2 P l l' -> forall a, In a l -> exists b, In b l' /\ P a b.
Proof. induction 1 as [|a b l l' Hab F IH]; intros x Hx; [destruct Hx|]. destruct Hx as [<-|Hx]; [exists b; cbn; auto|]. destruct (IH x Hx) as (y & Hy & HP). exists y. cbn. auto. Qed.

Lemma Forall2_in2 {A B} (P : A -> B -> Prop) l l' : Forall2 P l l' -> forall b, In b l' -> exists a, In a l /\ P a b.
Proof. induction 1 as [|a b l l' Hab F IH]; intros x Hx; [destruct Hx|]. destruct Hx as [<-|Hx]; [exists a; cbn; auto|]. destruct (IH x Hx) as (y & Hy & HP). exists y. cbn. auto. Qed.

(** ** observations *)
Lemma chunk_swapped b area i k e e' : NoDup (map fst (evR e)) -> same_ev e e' -> (forall s, In s b <-> In s area) ->
  swapped (key_obs area i (k, e)) (key_obs b i (k, e')).
Proof.
  intros N SE HB. apply perm_swapped.
  - unfold key_obs. cbn [fst snd]. etransitivity; [apply Permutation_flat_map, Permutation_map, (proj2 SE)|].
    apply Permutation_refl'. apply flat_map_ext. intros s. rewrite (response_same e e' i s N SE).
    assert (BE : inb String.eqb s b = inb String.eqb s area) by (apply eq_true_iff_eq; rewrite !inb_str; apply HB). now rewrite BE.
  - unfold key_obs. cbn [fst snd]. induction (map fst (evR e)) as [|s l IH]; [constructor|]. inversion N as [|? ? N1 N2]; subst.
    cbn [flat_map]. rewrite map_app. specialize (IH N2).
    assert (Z : forall o, In o (flat_map (fun s0 => if negb (inb String.eqb s0 area) then [] else
      match response_of e i s0 with Some r => [{| oev := k; osta := s0; oval := r |}] | None => [] end) l) -> In (osta o) l).
    { intros o Ho. apply in_flat_map in Ho as (t & Ht & Ho). destruct (negb (inb String.eqb t area)); [destruct Ho|].
      destruct (response_of e i t); [|destruct Ho]. destruct Ho as [<-|[]]. exact Ht. }
    destruct (negb (inb String.eqb s area)); [exact IH|]. destruct (response_of e i s); [|exact IH]. cbn. constructor; [|exact IH].
    intros X. apply in_map_iff in X as (o & Eo & Ho). apply Z in Ho. congruence.
Qed.

Lemma observations_swapped E E' i area b : unique_stations E -> unique_stations E' -> Forall2 same_ev E E' -> (forall s, In s b <-> In s area) ->
  swapped (observations E i area) (observations E' i b).
Proof.
  intros U U' F HB. rewrite (observations_keys E i area U), (observations_keys E' i b U').
  assert (L : List.length E = List.length E') by (eapply Forall2_len; eauto).
  unfold enum. rewrite <- L. generalize 0%nat. clear L. unfold unique_stations in U. clear U'.
  induction F as [|e e' l l' SE F IH]; intros m; cbn; [constructor|].
  inversion U; subst. apply swapped_app; [now apply chunk_swapped|]. now apply IH.
Qed.

Lemma responses_same E E' i s : unique_stations E -> Forall2 same_ev E E' -> responses E i s = responses E' i s.
Proof.
  intros U F. unfold responses. unfold unique_stations in U. induction F as [|e e' l l' SE F IH]; cbn; [reflexivity|].
  inversion U; subst. rewrite (response_same e e' i s) by assumption. now rewrite IH.
Qed.

Section Two.
Variables (pick pick' : list string -> string) (rlm rlm' : list R -> R * R) (lsq lsq' : nat -> list (list (nat * R) * R) -> nat -> R).
Hypothesis pickP : chooses_member pick.
Hypothesis pickP' : chooses_member pick'.
Hypothesis lsqP : least_squares lsq.
Hypothesis lsqP' : least_squares lsq'.
Variables (events events' : list (string * option evres)) (Rm0 Rm1 : option (list (string * list (option R))))
  (station : staopt) (resp : response) (ignore : option (list string)) (Nf : nat).
Hypothesis ND : NoDup (map fst events).
Hypothesis RO : reordered events events'.
Hypothesis WF0 : Forall (well_formed Nf) (map snd (present_events events)).
Hypothesis HG : forall i, (i < Nf)%nat -> complete i (map snd (present_events events)) /\ positive_responses i (map snd (present_events events)).
Let sorted := sort_events events.
Let evs := map snd sorted.
Let sorted' := sort_events events'.
Let evs2 := map snd sorted'.

Lemma sorted_pairs : Forall2 same_pair sorted sorted'.
Proof. now apply sort_reordered. Qed.

Lemma evs_same : Forall2 same_ev evs evs2.
Proof. unfold evs, evs2. pose proof sorted_pairs as F. induction F as [|p q l l' [_ H] F IH]; cbn; constructor; auto. Qed.

Lemma ids_same : map fst sorted' = map fst sorted.
Proof. pose proof sorted_pairs as F. induction F as [|p q l l' [H _] F IH]; cbn; [reflexivity|]. now rewrite H, IH. Qed.

Lemma evs_length : List.length evs2 = List.length evs.
Proof. symmetry. eapply Forall2_len. exact evs_same. Qed.

Lemma unique_evs : unique_stations evs.
Proof. exact (uniq events Nf WF0). Qed.

Lemma wf_evs2 : Forall (well_formed Nf) evs2.
Proof.
  pose proof (WF events Nf WF0 : Forall (well_formed Nf) evs) as W. pose proof evs_same as F.
  induction F as [|e e' l l' H F IH]; constructor; inversion W; subst; [eapply wf_same; eauto|auto].
Qed.

Lemma wf_two : Forall (well_formed Nf) (map snd (present_events events')).
Proof.
  apply Forall_forall. intros ev Hev. apply (evs_In events') in Hev. pose proof wf_evs2 as W. rewrite Forall_forall in W. now apply W.
Qed.

Lemma alike i ev : In ev evs -> exists ev', In ev' evs2 /\ forall t, response_of ev i t = response_of ev' i t.
Proof.
  intros Hev. destruct (Forall2_in _ _ _ evs_same ev Hev) as (ev' & Hev' & SE). exists ev'. split; [exact Hev'|]. intros t. apply response_same; [|exact SE].
  pose proof unique_evs as U. unfold unique_stations in U. rewrite Forall_forall in U. now apply U.
Qed.

Lemma alike' i ev : In ev evs2 -> exists ev', In ev' evs /\ energy_of ev i = energy_of ev' i /\ forall t, response_of ev i t = response_of ev' i t.
Proof.
  intros Hev. destruct (Forall2_in2 _ _ _ evs_same ev Hev) as (ev' & Hev' & SE). exists ev'. split; [exact Hev'|]. split; [symmetry; now apply energy_same|].
  intros t. symmetry. apply response_same; [|exact SE]. pose proof unique_evs as U. unfold unique_stations in U. rewrite Forall_forall in U. now apply U.
Qed.

Lemma good_two i : (i < Nf)%nat -> complete i (map snd (present_events events')) /\ positive_responses i (map snd (present_events events')).
Proof.
  intros Hi. destruct (HG i Hi) as [HC HP]. split.
  - intros ev s Hev Hr. apply (evs_In events') in Hev. destruct (alike' i ev Hev) as (ev' & Hev' & EE & ER). rewrite EE. rewrite ER in Hr.
    apply (HC ev' s); [now apply (evs_In events)|exact Hr].
  - intros ev s r Hev Hr. apply (evs_In events') in Hev. destruct (alike' i ev Hev) as (ev' & Hev' & EE & ER). rewrite ER in Hr.
    apply (HP ev' s r); [now apply (evs_In events)|exact Hr].
Qed.

Lemma largest_two i a : is_largest_area evs ignore i a <-> is_largest_area evs2 ignore i a.
Proof.
  apply largest_alike; [apply alike|]. intros ev Hev. destruct (alike' i ev Hev) as (ev' & H1 & _ & H2). eauto.
Qed.

Variables (out out' : list (string * evres)) (Rm0' Rm1' : list (string * list (option R))).
Hypothesis OK : align_site_responses pick rlm lsq events Rm0 station resp ignore = Ok (out, Rm0').
Hypothesis OK' : align_site_responses pick' rlm' lsq' events' Rm1 station resp ignore = Ok (out', Rm1').

Lemma order_frequency i : (i < Nf)%nat -> forall k, (k < List.length evs)%nat ->
  energy_of (nth k (map snd out) ev0) i = energy_of (nth k (map snd out') ev0) i /\
  forall s, response_of (nth k (map snd out) ev0) i s = response_of (nth k (map snd out') ev0) i s.
Proof.
  intros Hi.
  destruct (align_chosen pick rlm lsq pickP lsqP events Rm0 station resp ignore Nf WF0 out Rm0' OK i Hi (proj1 (HG i Hi)))
    as (E1 & HO1 & HL1 & _ & C1).
  destruct (align_chosen pick' rlm' lsq' pickP' lsqP' events' Rm1 station resp ignore Nf wf_two out' Rm1' OK' i Hi (proj1 (good_two i Hi)))
    as (E2 & HO2 & HL2 & _ & C2).
  rewrite (out_snd events out E1 HO1 HL1). rewrite (out_snd events' out' E2 HO2 HL2). clear HO1 HO2.
  unfold chosen in C1, C2. fold sorted' in C2. fold evs2 in C2. fold sorted in C1. fold evs in C1.
  pose proof evs_length as LL.
  assert (SE : forall k, (k < List.length evs)%nat -> same_ev (nth k evs ev0) (nth k evs2 ev0)).
  { intros k Hk. exact (Forall2_nth same_ev ev0 ev0 _ _ evs_same k Hk). }
  assert (SR : forall k s, (k < List.length evs)%nat -> response_of (nth k evs2 ev0) i s = response_of (nth k evs ev0) i s).
  { intros k s Hk. symmetry. apply response_same; [|now apply SE]. pose proof unique_evs as U. unfold unique_stations in U.
    rewrite Forall_forall in U. apply U. now apply nth_In. }
  assert (SW : forall k, (k < List.length evs)%nat -> energy_of (nth k evs2 ev0) i = energy_of (nth k evs ev0) i).
  { intros k Hk. symmetry. apply energy_same. now apply SE. }
  assert (CS := chosen_same pick pick' evs evs2 ignore i pickP pickP' unique_evs (wf_unique Nf evs2 wf_evs2) evs_same).
  destruct (largest (find_areas pick evs i ignore)) as [area|], (largest (find_areas pick' evs2 i ignore)) as [b|]; try contradiction.
  2:{ intros k Hk. split; [|intros s].
      - rewrite (proj2 (C1 k ""%string Hk)), (proj2 (C2 k ""%string ltac:(lia))). reflexivity.
      - rewrite (proj1 (C1 k s Hk)), (proj1 (C2 k s ltac:(lia))). reflexivity. }
  destruct C1 as (x & rows & r & LA & ER & EA & Hmin & HK). destruct C2 as (x' & rows' & r' & _ & ER' & EA' & Hmin' & HK').
  - rewrite ER in ER'. injection ER' as <-. rename CS into AB.
    assert (SWP := observations_swapped evs evs2 i area b unique_evs (wf_unique Nf evs2 wf_evs2) evs_same AB).
    assert (NS : nstations evs2 i = nstations evs i).
    { apply functional_extensionality. intros s. rewrite (nstations_responses evs2 i s (wf_unique Nf evs2 wf_evs2)), (nstations_responses evs i s unique_evs).
      now rewrite (responses_same evs evs2 i s unique_evs evs_same). }
    rewrite NS in EA'.
    assert (SSE := fun y => sse_swapped station (nstations evs i) r _ _ rows rows' y SWP EA EA').
    assert (Hmin2 : forall z, sse rows x' <= sse rows z) by (intros z; rewrite <- !SSE; apply Hmin').
    assert (UQ := minima_equal station evs ignore i area r rows x x' unique_evs LA EA Hmin Hmin2).
    intros k Hk. destruct (HK k Hk) as [HR HW]. destruct (HK' k ltac:(lia)) as [HR' HW'].
    assert (XS : forall s, response_of (nth k E1 ev0) i s <> None -> x k = x' k).
    { intros s Hs. rewrite HR in Hs. destruct (inb String.eqb s area) eqn:Ea; [|congruence]. apply inb_str in Ea.
      destruct (response_of (nth k evs ev0) i s) as [v|] eqn:EV; [|cbn in Hs; congruence].
      assert (Ho : In {| oev := k; osta := s; oval := v |} (observations evs i area)).
      { apply (observations_response _ _ _ _ unique_evs). exists (nth k evs ev0). cbn. split; [now apply nth_error_nth'|auto]. }
      exact (UQ _ Ho). }
    assert (RE : forall s, response_of (nth k E1 ev0) i s = response_of (nth k E2 ev0) i s).
    { intros s. specialize (XS s). rewrite HR', SR by exact Hk. rewrite HR in XS |- *.
      assert (BE : inb String.eqb s b = inb String.eqb s area) by (apply eq_true_iff_eq; rewrite !inb_str; apply AB). rewrite BE.
      destruct (inb String.eqb s area); [|reflexivity]. destruct (response_of (nth k evs ev0) i s); [|reflexivity]. cbn [option_map] in *.
      rewrite XS by discriminate. reflexivity. }
    split; [|exact RE]. apply option_equal. intros w'. rewrite HW, HW', SW by exact Hk. split; intros (w & s & Hw & Hs & ->); exists w, s.
    + split; [exact Hw|]. rewrite <- RE. split; [exact Hs|]. now rewrite (XS s Hs).
    + rewrite <- RE in Hs. split; [exact Hw|]. split; [exact Hs|]. now rewrite (XS s Hs).
Qed.

Lemma order_values : same_values Nf out out'.
Proof.
  destruct (align_inv pick rlm lsq events Rm0 station resp ignore Nf WF0 out Rm0' OK) as (_ & E1 & _ & _ & _ & _ & _ & HO1 & HL1).
  destruct (align_inv pick' rlm' lsq' events' Rm1 station resp ignore Nf wf_two out' Rm1' OK') as (_ & E2 & _ & _ & _ & _ & _ & HO2 & HL2).
  assert (S1 := out_snd events out E1 HO1 HL1). assert (S2 := out_snd events' out' E2 HO2 HL2).
  assert (TF := order_frequency). rewrite S1, S2 in TF. fold sorted in HO1, HL1. fold sorted' in HO2, HL2. fold evs in HL1. fold evs2 in HL2.
  rewrite ids_same in HO2. rewrite evs_length in HL2. rewrite HO1, HO2. unfold same_values.
  assert (LE : List.length evs = List.length sorted) by (unfold evs; apply map_length).
  apply (Forall2_combine (fun e1 e2 => forall i, (i < Nf)%nat -> energy_of e1 i = energy_of e2 i /\ forall s, response_of e1 i s = response_of e2 i s) ev0);
    [rewrite map_length; lia|rewrite map_length; lia|].
  intros k Hk i Hi. rewrite map_length in Hk. apply TF; [exact Hi|lia].
Qed.

Lemma order_responses i s : (i < Nf)%nat -> responses (map snd out) i s = responses (map snd out') i s.
Proof.
  intros Hi. pose proof order_values as F. unfold same_values in F. clear - F Hi. unfold responses.
  induction F as [|p q l l' [_ H] _ IH]; [reflexivity|]. cbn [map flat_map]. now rewrite (proj2 (H i Hi) s), IH.
Qed.
End Two.

(** the second run returns *)
Lemma order_returns pick rlm lsq : chooses_member pick -> least_squares lsq ->
  forall events events' Rm station resp ignore Nf, NoDup (map fst events) -> reordered events events' ->
  Forall (well_formed Nf) (map snd (present_events events)) ->
  (forall i, (i < Nf)%nat -> complete i (map snd (present_events events)) /\ positive_responses i (map snd (present_events events))) ->
  forall out Rm',
  align_site_responses pick rlm lsq events Rm station resp ignore = Ok (out, Rm') ->
  forall pick' rlm' lsq' Rm1, chooses_member pick' ->
  exists out2 Rm2, align_site_responses pick' rlm' lsq' events' Rm1 station resp ignore = Ok (out2, Rm2).
Proof.
  intros pickP lsqP events events' Rm station resp ignore Nf ND RO WF0 HG out Rm' OK pick' rlm' lsq' Rm1 pickP'.
  set (evs := map snd (sort_events events)). set (evs2 := map snd (sort_events events')).
  assert (W2 := wf_two events events' Nf ND RO WF0). assert (U := unique_evs events Nf WF0).
  assert (U2 := wf_unique Nf evs2 (wf_evs2 events events' Nf ND RO WF0)).
  assert (SM := evs_same events events' ND RO). assert (RI := align_inv pick rlm lsq events Rm station resp ignore Nf WF0 out Rm' OK).
  fold evs in U, SM, RI. fold evs2 in SM.
  apply (align_ok_chosen pick' rlm' lsq' pickP' events' Rm1 station resp ignore Nf W2).
  - intros E. destruct RI as (_ & _ & Hne & _).
    apply Hne. assert (L := evs_length events events' ND RO). fold evs evs2 in L.
    assert (P := Permutation_length (evs_perm events')). fold evs2 in P. rewrite E in P. cbn in P. rewrite <- P in L || rewrite P in L.
    destruct evs; [reflexivity|discriminate].
  - intros i Hi. fold evs2. assert (CS := chosen_same pick pick' evs evs2 ignore i pickP pickP' U U2 SM).
    destruct (align_chosen pick rlm lsq pickP lsqP events Rm station resp ignore Nf WF0 out Rm' OK i Hi (proj1 (HG i Hi)))
      as (E1 & _ & _ & _ & C1). unfold chosen in C1. fold evs in C1. assert (LA0 := largest_area pick pickP evs ignore i U).
    destruct (largest (find_areas pick evs i ignore)) as [area|], (largest (find_areas pick' evs2 i ignore)) as [b|]; try contradiction.
    + destruct C1 as (x & rows & r & LA & ER & EA & _). split; [now exists r|].
      destruct (existsb (norm_station station) area) eqn:EX.
      * apply existsb_exists in EX as (s & Hs & N). exists s. split; [now apply CS|exact N].
      * exfalso. assert (Z := align_rows_unused events station ignore Nf WF0 area i r LA). fold evs in Z. rewrite EA in Z.
        assert (H : forall s, In s area -> norm_station station s = false).
        { intros s Hs. destruct (norm_station station s) eqn:N; [|reflexivity].
          assert (X : existsb (norm_station station) area = true) by (apply existsb_exists; eauto). congruence. }
        apply Z in H. discriminate.
    + intros ev s Hev. destruct (alike' events events' Nf ND RO WF0 i ev Hev) as (ev' & Hev' & _ & ->). fold evs in Hev'.
      assert (OUT := align_outcome pick rlm lsq pickP lsqP events Rm station resp ignore Nf WF0 out Rm' OK i Hi (proj1 (HG i Hi))).
      destruct OUT as (E3 & _ & _ & _ & [[H0 _]|(area & x & rows & r & LA & _)]).
      * fold evs in H0. apply (In_nth _ _ ev0) in Hev' as (k & Hk & <-). apply (H0 k s Hk).
      * exfalso. fold evs in LA. destruct LA as ((_ & Nb & HB) & _). destruct area as [|t area]; [congruence|].
        destruct (HB t (or_introl eq_refl)) as [HO _]. now apply LA0 in HO.
Qed.

Lemma order_same pick rlm lsq : chooses_member pick -> least_squares lsq ->
  forall events events' Rm station resp ignore Nf, NoDup (map fst events) -> reordered events events' ->
  Forall (well_formed Nf) (map snd (present_events events)) ->
  (forall i, (i < Nf)%nat -> complete i (map snd (present_events events)) /\ positive_responses i (map snd (present_events events))) ->
  forall out Rm',
  align_site_responses pick rlm lsq events Rm station resp ignore = Ok (out, Rm') ->
  forall pick' rlm' lsq' Rm1 out2 Rm2, chooses_member pick' -> least_squares lsq' ->
  align_site_responses pick' rlm' lsq' events' Rm1 station resp ignore = Ok (out2, Rm2) ->
  same_values Nf out out2.
Proof.
  intros pickP lsqP events events' Rm station resp ignore Nf ND RO WF0 HG out Rm' OK pick' rlm' lsq' Rm1 out2 Rm2 pickP' lsqP' OK'.
  exact (order_values pick pick' rlm rlm' lsq lsq' pickP pickP' lsqP lsqP' events events' Rm Rm1 station resp ignore Nf ND RO WF0 HG out out2 Rm' Rm2 OK OK').
Qed.

Lemma order_means pick rlm lsq : chooses_member pick -> least_squares lsq ->
  forall events events' Rm station resp ignore Nf, NoDup (map fst events) -> reordered events events' ->
  Forall (well_formed Nf) (map snd (present_events events)) ->
  (forall i, (i < Nf)%nat -> complete i (map snd (present_events events)) /\ positive_responses i (map snd (present_events events))) ->
  forall out Rm',
  align_site_responses pick rlm lsq events Rm station resp ignore = Ok (out, Rm') ->
  forall pick' lsq' out2 Rm2, chooses_member pick' -> least_squares lsq' ->
  align_site_responses pick' rlm lsq' events' Rm station resp ignore = Ok (out2, Rm2) ->
  forall s, dget String.eqb Rm2 s = dget String.eqb Rm' s.
Proof.
  intros pickP lsqP events events' Rm station resp ignore Nf ND RO WF0 HG out Rm' OK pick' lsq' out2 Rm2 pickP' lsqP' OK' s.
  assert (RE := fun i => order_responses pick pick' rlm rlm lsq lsq' pickP pickP' lsqP lsqP' events events' Rm Rm station resp ignore Nf ND RO WF0 HG
    out out2 Rm' Rm2 OK OK' i s).
  destruct (align_means pick rlm lsq pickP events Rm station resp ignore Nf WF0 out Rm' lsqP OK HG s) as [A1 B1].
  destruct (align_means pick' rlm lsq' pickP' events' Rm station resp ignore Nf (wf_two events events' Nf ND RO WF0) out2 Rm2 lsqP' OK'
    (good_two events events' Nf ND RO WF0 HG) s) as [A2 B2].
  destruct (existsb (fun i => match responses (map snd out) i s with [] => false | _ => true end) (seq 0 Nf)) eqn:E.
  - apply existsb_exists in E as (i & Hi & N). apply in_seq in Hi.
    assert (N1 : responses (map snd out) i s <> []) by (intros X; rewrite X in N; discriminate).
    destruct A1 as (l1 & D1 & L1 & G1); [exists i; split; [lia|exact N1]|].
    destruct A2 as (l2 & D2 & L2 & G2); [exists i; split; [lia|rewrite <- RE by lia; exact N1]|].
    rewrite D1, D2. f_equal. apply (nth_ext _ _ None None); [lia|]. intros j Hj.
    destruct (G1 j ltac:(lia)) as [X1 _]. destruct (G2 j ltac:(lia)) as [X2 _]. rewrite <- RE in X2 by lia. rewrite X1 in X2. congruence.
  - assert (Z : forall i, (i < Nf)%nat -> responses (map snd out) i s = []).
    { intros i Hi. destruct (responses (map snd out) i s) eqn:R; [reflexivity|]. exfalso.
      assert (X : existsb (fun i => match responses (map snd out) i s with [] => false | _ => true end) (seq 0 Nf) = true).
      { apply existsb_exists. exists i. split; [apply in_seq; lia|]. now rewrite R. }
      congruence. }
    rewrite B1 by exact Z. rewrite B2; [reflexivity|]. intros i Hi. rewrite <- RE by exact Hi. now apply Z.
Qed.
