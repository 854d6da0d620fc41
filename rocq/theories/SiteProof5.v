(** Normalisation, consistency and areas after the alignment. *)
From Coq Require Import String List Bool Reals Arith Lia Lra Permutation Relation_Operators.
From Verif Require Import Base PySort Pyf StatModel StatProof SiteModel SiteSpec MergeProof SiteProof SiteProof2 SiteProof3 SiteProof4.
Import ListNotations.
Open Scope list_scope.
Open Scope R_scope.

Lemma flat_map_seq {A B} (f : nat -> A -> list B) (l : list A) d :
  flat_map (fun p => f (fst p) (snd p)) (enum l) = flat_map (fun k => f k (nth k l d)) (seq 0 (List.length l)).
Proof.
  unfold enum. assert (G : forall m, flat_map (fun p => f (fst p) (snd p)) (combine (seq m (List.length l)) l) =
    flat_map (fun k => f k (nth (k - m) l d)) (seq m (List.length l))).
  { induction l as [|a l IH]; intros m; cbn; [reflexivity|]. rewrite Nat.sub_diag, IH. f_equal. apply flat_map_ext_in.
    intros k Hk. apply in_seq in Hk. destruct (k - m)%nat eqn:E; [lia|]. replace (k - S m)%nat with n by lia. reflexivity. }
  rewrite G. apply flat_map_ext_in. intros k _. now rewrite Nat.sub_0_r.
Qed.

Lemma responses_seq evs i s :
  responses evs i s = flat_map (fun k => match response_of (nth k evs ev0) i s with Some r => [r] | None => [] end) (seq 0 (List.length evs)).
Proof.
  rewrite <- (flat_map_seq (fun _ ev => match response_of ev i s with Some r => [r] | None => [] end)).
  unfold responses, enum. generalize 0%nat. induction evs as [|e l IH]; intros m; cbn; [reflexivity|]. now rewrite <- IH.
Qed.

Lemma map_flat_map {A B C} (g : B -> C) (f : A -> list B) l : map g (flat_map f l) = flat_map (fun a => map g (f a)) l.
Proof. induction l as [|a l IH]; cbn; [reflexivity|]. now rewrite map_app, IH. Qed.

Lemma station_obs_seq i s evs : flat_map (station_obs i s) (enum evs) =
  flat_map (fun k => station_obs i s (k, nth k evs ev0)) (seq 0 (List.length evs)).
Proof.
  rewrite <- (flat_map_seq (fun k ev => station_obs i s (k, ev))). apply flat_map_ext_in. intros [k ev] _. reflexivity.
Qed.

Lemma responses_In evs i s r : In r (responses evs i s) <-> exists ev, In ev evs /\ response_of ev i s = Some r.
Proof.
  unfold responses. rewrite in_flat_map. split.
  - intros (ev & H & Hr). exists ev. split; [exact H|]. destruct (response_of ev i s); cbn in Hr; [|tauto]. destruct Hr as [->|[]]. reflexivity.
  - intros (ev & H & Hr). exists ev. rewrite Hr. cbn. auto.
Qed.

Section Align.
Variables (pick : list string -> string) (rlm : list R -> R * R) (lsq : nat -> list (list (nat * R) * R) -> nat -> R).
Hypothesis pickP : chooses_member pick.
Hypothesis lsqP : least_squares lsq.
Variables (events : list (string * option evres)) (Rm : option (list (string * list (option R))))
  (station : staopt) (resp : response) (ignore : option (list string)) (Nf : nat).
Let evs0 := map snd (present_events events).
Hypothesis WF0 : Forall (well_formed Nf) evs0.
Variables (out : list (string * evres)) (Rm' : list (string * list (option R))).
Hypothesis OK : align_site_responses pick rlm lsq events Rm station resp ignore = Ok (out, Rm').
Variable i : nat.
Hypothesis Hi : (i < Nf)%nat.
Hypothesis HC : complete i evs0.
Let sorted := sort_events events.
Let evs := map snd sorted.

Lemma area_has_obs area s : is_largest_area evs ignore i area -> In s area ->
  exists o, In o (observations evs i area) /\ osta o = s.
Proof.
  intros ((_ & _ & HA) & _) Hs. destruct (HA s Hs) as ((_ & ev & Hev & Hr) & _).
  apply (In_nth _ _ ev0) in Hev as (k & Hk & E). destruct (response_of ev i s) as [v|] eqn:EV; [|congruence].
  exists {| oev := k; osta := s; oval := v |}. split; [|reflexivity].
  apply (observations_response _ _ _ _ (uniq events Nf WF0)). exists ev. cbn.
  rewrite <- E at 1. split; [now apply nth_error_nth'|]. auto.
Qed.

Lemma positive_obs area o : positive_responses i evs0 -> In o (observations evs i area) -> 0 < oval o.
Proof.
  intros HP Ho. apply (observations_response _ _ _ _ (uniq events Nf WF0)) in Ho as (ev & Hev & _ & Hr).
  eapply HP; [|exact Hr]. apply (evs_In events). now apply nth_error_In in Hev.
Qed.

(** levels of the aligned responses *)
Lemma aligned_levels evs' area x s : List.length evs' = List.length evs -> positive_responses i evs0 -> In s area ->
  (forall k, (k < List.length evs)%nat -> response_of (nth k evs' ev0) i s =
     if inb String.eqb s area then option_map (fun v => v * exp (x k)) (response_of (nth k evs ev0) i s) else None) ->
  map ln (responses evs' i s) = map (lev x) (filter (fun o => String.eqb (osta o) s) (observations evs i area)).
Proof.
  intros L HP Hs HR. rewrite filter_station by (try apply (uniq events Nf WF0); assumption).
  rewrite responses_seq, station_obs_seq, L, !map_flat_map. apply flat_map_ext_in. intros k Hk. apply in_seq in Hk.
  rewrite HR by lia. assert (Hs' := Hs). apply inb_str in Hs'. rewrite Hs'. unfold station_obs. cbn [fst snd].
  destruct (response_of (nth k evs ev0) i s) as [v|] eqn:EV; cbn [option_map]; [|reflexivity]. cbn [map].
  f_equal. unfold lev. cbn [oev oval]. rewrite ln_mult, ln_exp; [ring| |apply exp_pos].
  eapply HP; [|exact EV]. apply (evs_In events). apply nth_In. destruct Hk as [_ Hk]. exact Hk.
Qed.

(** the normalisation of the aligned responses *)
Lemma align_normalised r S : positive_responses i evs0 -> response_at resp i = Ok r ->
  NoDup S -> S <> [] ->
  (forall s, In s S <-> norm_station station s = true /\ exists ev, In ev (map snd out) /\ response_of ev i s <> None) ->
  rsum (map (fun s => mean_ln (responses (map snd out) i s)) S) / INR (List.length S) = ln r.
Proof.
  intros HP HR NDS HneS HS.
  destruct (align_outcome pick rlm lsq pickP lsqP events Rm station resp ignore Nf WF0 out Rm' OK i Hi HC)
    as (evs' & HO & HL & WF' & OC). fold sorted evs in HO, HL.
  assert (ES := out_snd events out evs' HO HL). rewrite ES in *.
  destruct OC as [[H0 _]|(area & x & rows & r' & LA & ER & EA & Hmin & HK)].
  { exfalso. destruct S as [|s S]; [congruence|]. destruct (proj1 (HS s) (or_introl eq_refl)) as (_ & ev & Hev & Hr).
    apply (In_nth _ _ ev0) in Hev as (k & Hk & <-). fold sorted evs in H0. destruct (H0 k s ltac:(lia)) as (_ & E & _). congruence. }
  fold sorted evs in LA, EA, HK. rewrite ER in HR. injection HR as ->.
  assert (CNT := fun o => observations_count evs i area o (uniq events Nf WF0)).
  assert (NE := norm_exact station (nstations evs i) r _ rows x EA CNT Hmin).
  apply align_rows_ok in EA as [_ HneU]. rewrite norm_row_value in NE by assumption.
  rewrite (weighted_groups _ _ _ _ CNT) in NE.
  set (l := observations evs i area) in *.
  assert (PS : Permutation S (sused (final station (nstations evs i) l))).
  { destruct (final_norm station (nstations evs i) l (fun _ => 0)) as (_ & _ & ND & HU & _).
    apply NoDup_Permutation; auto. intros s. rewrite HS, HU. unfold used. split.
    - intros (Hn & ev & Hev & Hr). apply (In_nth _ _ ev0) in Hev as (k & Hk & <-). destruct (HK k ltac:(lia)) as [HKr _].
      rewrite HKr in Hr. destruct (inb String.eqb s area) eqn:Ea; [|congruence]. apply inb_str in Ea.
      destruct (area_has_obs area s LA Ea) as (o & Ho & Es). exists o. split; [|exact Es].
      apply filter_In. split; [exact Ho|]. now rewrite Es.
    - intros (o & Ho & <-). apply filter_In in Ho as [Ho Hn]. split; [exact Hn|].
      apply (observations_response _ _ _ _ (uniq events Nf WF0)) in Ho as (ev & Hev & Ha & Hr).
      assert (Hk : (oev o < List.length evs)%nat) by (apply nth_error_Some; unfold evs, sorted; congruence).
      exists (nth (oev o) evs' ev0). split; [apply nth_In; lia|]. destruct (HK _ Hk) as [HKr _]. rewrite HKr.
      apply inb_str in Ha. rewrite Ha. apply nth_error_nth with (d := ev0) in Hev. fold sorted evs in Hev. rewrite Hev, Hr. discriminate. }
  rewrite (Permutation_length PS). rewrite (rsum_map_perm _ _ _ PS).
  match goal with NE : ?a / ?n - _ = 0 |- ?b / ?n = _ => assert (b = a) as ->; [|lra] end.
  apply rsum_ext. intros s Hs. apply (Permutation_in _ (Permutation_sym PS)) in Hs.
  unfold mean_ln.
  assert (Ea : In s area).
  { apply HS in Hs as (_ & ev & Hev & Hr). apply (In_nth _ _ ev0) in Hev as (k & Hk & <-). destruct (HK k ltac:(lia)) as [HKr _].
    rewrite HKr in Hr. destruct (inb String.eqb s area) eqn:Ea; [|congruence]. now apply inb_str in Ea. }
  assert (AL := aligned_levels evs' area x s HL HP Ea (fun k Hk => proj1 (HK k Hk) s)).
  rewrite AL. fold l. unfold count_of. f_equal. f_equal.
  rewrite <- (map_length ln (responses evs' i s)), AL, map_length. reflexivity.
Qed.

(** consistent responses agree after the alignment *)
Lemma align_consistent (c : string -> R) (rs : string -> R) :
  (forall id, 0 < c id) -> (forall s, 0 < rs s) ->
  (forall id ev s v, In (id, ev) (present_events events) -> response_of ev i s = Some v -> v = c id * rs s) ->
  forall ev1 ev2 s t v1 v2, In ev1 (map snd out) -> In ev2 (map snd out) ->
    response_of ev1 i s = Some v1 -> response_of ev2 i t = Some v2 -> v1 * rs t = v2 * rs s.
Proof.
  intros Hc Hrs Hcons.
  assert (HP : positive_responses i evs0).
  { intros ev s v Hev Hr. unfold evs0 in Hev. apply in_map_iff in Hev as ([id ev'] & <- & Hin). cbn [snd] in Hr.
    rewrite (Hcons id ev' s v Hin Hr). apply Rmult_lt_0_compat; auto. }
  destruct (align_outcome pick rlm lsq pickP lsqP events Rm station resp ignore Nf WF0 out Rm' OK i Hi HC)
    as (evs' & HO & HL & WF' & OC). fold sorted evs in HO, HL.
  assert (ES := out_snd events out evs' HO HL). rewrite ES in *.
  intros ev1 ev2 s t v1 v2 H1 H2 R1 R2.
  apply (In_nth _ _ ev0) in H1 as (k1 & Hk1 & <-). apply (In_nth _ _ ev0) in H2 as (k2 & Hk2 & <-).
  destruct OC as [[H0 _]|(area & x & rows & r & LA & ER & EA & Hmin & HK)].
  { fold sorted evs in H0. destruct (H0 k1 s ltac:(lia)) as (_ & E & _). congruence. }
  fold sorted evs in LA, EA, HK.
  assert (CNT := fun o => observations_count evs i area o (uniq events Nf WF0)).
  set (l := observations evs i area) in *.
  set (x0 := fun k => - ln (c (fst (nth k sorted ("", ev0))))).
  assert (OV : forall o, In o l -> oval o = c (fst (nth (oev o) sorted ("", ev0))) * rs (osta o)).
  { intros o Ho. apply (observations_response _ _ _ _ (uniq events Nf WF0)) in Ho as (ev & Hev & _ & Hr).
    fold sorted evs in Hev. apply nth_error_nth with (d := ev0) in Hev. 
    assert (Hk : (oev o < List.length sorted)%nat).
    { destruct (Nat.lt_ge_cases (oev o) (List.length sorted)) as [|G]; [assumption|]. exfalso.
      unfold evs in Hev. rewrite nth_overflow in Hev by (rewrite map_length; assumption). subst ev. discriminate. }
    apply (Hcons _ ev (osta o)); [|exact Hr].
    assert (In (nth (oev o) sorted ("", ev0)) sorted) by now apply nth_In.
    assert (E : nth (oev o) sorted ("", ev0) = (fst (nth (oev o) sorted ("", ev0)), ev)).
    { assert (M := map_nth snd sorted (""%string, ev0) (oev o)). cbn [snd] in M. fold evs in M.
      rewrite Hev in M. rewrite M. apply surjective_pairing. }
    rewrite <- E. eapply Permutation_in; [apply Permutation_sym, sort_events_perm|exact H]. }
  assert (LV : forall o, In o l -> lev x0 o = ln (rs (osta o))).
  { intros o Ho. unfold lev, x0. rewrite (OV o Ho), ln_mult by auto. ring. }
  assert (EQ : forall o1 o2, In o1 l -> In o2 l -> osta o1 = osta o2 -> lev x o1 = lev x o2).
  { apply (consistent_exact station (nstations evs i) r l rows x x0 EA CNT Hmin).
    intros o1 o2 Ho1 Ho2 E. rewrite !LV by assumption. now rewrite E. }
  set (d := fun o => lev x o - ln (rs (osta o))).
  assert (SE : forall o1 o2, In o1 l -> In o2 l -> oev o1 = oev o2 -> d o1 = d o2).
  { intros o1 o2 Ho1 Ho2 E. unfold d, lev. rewrite (OV o1 Ho1), (OV o2 Ho2), !ln_mult, E by auto. ring. }
  assert (CH : forall a b, connected evs ignore i a b -> In a area -> forall o1 o2, In o1 l -> In o2 l -> osta o1 = a -> osta o2 = b -> d o1 = d o2).
  { assert (HA := proj2 (proj2 (proj1 LA))).
    induction 1 as [a b HE|a|a u b H1 IH1 H2 IH2]; intros Ha o1 o2 Ho1 Ho2 E1 E2.
    - destruct (HA a Ha) as (_ & HB). assert (Hb : In b area) by (apply HB; now apply rt_step).
      destruct HE as (_ & _ & ev & Hev & Ra & Rb).
      apply (In_nth _ _ ev0) in Hev as (k & Hk & Ek).
      destruct (response_of ev i a) as [va|] eqn:Va; [|congruence]. destruct (response_of ev i b) as [vb|] eqn:Vb; [|congruence].
      assert (Hkn : nth_error evs k = Some ev) by (rewrite <- Ek; now apply nth_error_nth').
      assert (Oa : In {| oev := k; osta := a; oval := va |} l).
      { apply (observations_response _ _ _ _ (uniq events Nf WF0)). exists ev. auto. }
      assert (Ob : In {| oev := k; osta := b; oval := vb |} l).
      { apply (observations_response _ _ _ _ (uniq events Nf WF0)). exists ev. auto. }
      transitivity (d {| oev := k; osta := a; oval := va |}).
      { unfold d. rewrite (EQ _ _ Ho1 Oa) by (cbn; assumption). cbn [osta]. now rewrite E1. }
      transitivity (d {| oev := k; osta := b; oval := vb |}); [now apply SE|].
      unfold d. rewrite (EQ _ _ Ho2 Ob) by (cbn; assumption). cbn [osta]. now rewrite E2.
    - unfold d. rewrite (EQ o1 o2) by (assumption || congruence). now rewrite E1, E2.
    - destruct (HA a Ha) as (_ & HB). assert (Hu : In u area) by now apply HB.
      destruct (area_has_obs area u LA Hu) as (o & Ho & Eo).
      transitivity (d o); [now apply IH1|now apply IH2]. }
  assert (OB : forall k s v, (k < List.length evs')%nat -> response_of (nth k evs' ev0) i s = Some v ->
    exists o, In o l /\ osta o = s /\ In s area /\ ln v = lev x o /\ 0 < v).
  { intros k u v Hk Hr. destruct (HK k ltac:(lia)) as [HKr _]. rewrite HKr in Hr.
    destruct (inb String.eqb u area) eqn:Ea; [|discriminate]. apply inb_str in Ea.
    destruct (response_of (nth k evs ev0) i u) as [w|] eqn:EW; [|discriminate]. cbn [option_map] in Hr. apply Some_inj in Hr.
    assert (Ho : In {| oev := k; osta := u; oval := w |} l).
    { apply (observations_response _ _ _ _ (uniq events Nf WF0)). exists (nth k evs ev0). cbn.
      split; [apply nth_error_nth'; fold sorted evs; lia|auto]. }
    exists {| oev := k; osta := u; oval := w |}. split; [exact Ho|]. split; [reflexivity|]. split; [exact Ea|].
    assert (P := positive_obs area _ HP Ho). cbn in P. subst v. split.
    - unfold lev. cbn [oev oval]. rewrite ln_mult, ln_exp; [ring|assumption|apply exp_pos].
    - apply Rmult_lt_0_compat; [assumption|apply exp_pos]. }
  destruct (OB k1 s v1 Hk1 R1) as (o1 & Ho1 & E1 & A1 & L1 & P1). destruct (OB k2 t v2 Hk2 R2) as (o2 & Ho2 & E2 & A2 & L2 & P2).
  assert (CT : connected evs ignore i s t). { destruct LA as ((_ & _ & HA) & _). now apply HA. }
  assert (D := CH s t CT A1 o1 o2 Ho1 Ho2 E1 E2). unfold d in D. rewrite <- L1, <- L2, E1, E2 in D.
  apply ln_inv; try (apply Rmult_lt_0_compat; auto). rewrite !ln_mult by auto. lra.
Qed.

(** what is left after the alignment *)
Lemma align_areas : exists area,
  (is_largest_area evs0 ignore i area \/ area = [] /\ forall s, ~ observed evs0 ignore i s) /\
  forall id ev, In (id, ev) (present_events events) -> exists ev' f, In (id, ev') out /\ 0 < f /\
    (forall s, response_of ev' i s =
       if in_dec string_dec s area then option_map (fun v => v * f) (response_of ev i s) else None) /\
    (forall w', energy_of ev' i = Some w' <->
       exists w s, energy_of ev i = Some w /\ response_of ev' i s <> None /\ w' = w / f).
Proof.
  destruct (align_outcome pick rlm lsq pickP lsqP events Rm station resp ignore Nf WF0 out Rm' OK i Hi HC)
    as (evs' & HO & HL & WF' & OC). fold sorted evs in HO, HL.
  assert (PK : forall id ev, In (id, ev) (present_events events) -> exists k, (k < List.length evs)%nat /\ nth k evs ev0 = ev /\ In (id, nth k evs' ev0) out).
  { intros id ev H. apply (Permutation_in _ (sort_events_perm events)) in H. fold sorted in H.
    apply (In_nth _ _ (""%string, ev0)) in H as (k & Hk & E). exists k.
    assert (Hk' : (k < List.length evs)%nat) by (unfold evs; rewrite map_length; exact Hk).
    split; [exact Hk'|]. split.
    - unfold evs. transitivity (snd (nth k sorted (""%string, ev0))); [exact (map_nth snd sorted (""%string, ev0) k)|now rewrite E].
    - assert (N := out_nth events out evs' k HO HL Hk' ""). 
      assert (F : nth k (map fst (sort_events events)) ""%string = id).
      { transitivity (fst (nth k sorted (""%string, ev0))); [apply (map_nth fst _ (""%string, ev0))|now rewrite E]. }
      rewrite F in N. rewrite <- N. apply nth_In. rewrite HO, combine_length, map_length, HL. unfold evs in *. rewrite map_length in *. lia. }
  destruct OC as [[H0 HN]|(area & x & rows & r & LA & ER & EA & Hmin & HK)].
  - exists []. split.
    + right. split; [reflexivity|]. intros s Hs. apply (HN s). now apply (observed_perm events ignore).
    + intros id ev Hin. destruct (PK id ev Hin) as (k & Hk & <- & Hout). exists (nth k evs' ev0), 1.
      split; [exact Hout|]. split; [lra|]. split.
      * intros s. cbn. fold sorted evs in H0. now destruct (H0 k s Hk) as (_ & -> & _).
      * intros w'. fold sorted evs in H0. split; intros H.
        -- destruct (H0 k ""%string Hk) as (_ & _ & E). congruence.
        -- destruct H as (w & s & _ & Hr & _). destruct (H0 k s Hk) as (_ & E & _). congruence.
  - exists area. split; [left; now apply (is_largest_area_perm events ignore)|].
    intros id ev Hin. destruct (PK id ev Hin) as (k & Hk & <- & Hout). exists (nth k evs' ev0), (exp (x k)).
    fold sorted evs in HK. destruct (HK k Hk) as [HR HW].
    split; [exact Hout|]. split; [apply exp_pos|]. split; [|exact HW].
    intros s. rewrite HR. destruct (inb String.eqb s area) eqn:E; destruct (in_dec string_dec s area) as [Hin'|Hn]; try reflexivity.
    + apply inb_str in E. contradiction.
    + apply inb_str_false in E. contradiction.
Qed.

(** the output has the events of the input in the order of their identifiers *)
Lemma align_ids : map fst out = map fst sorted /\ List.length out = List.length evs0.
Proof.
  destruct (align_outcome pick rlm lsq pickP lsqP events Rm station resp ignore Nf WF0 out Rm' OK i Hi HC)
    as (evs' & HO & HL & WF' & OC). fold sorted evs in HO, HL.
  assert (L : List.length (map fst sorted) = List.length evs') by (rewrite HL; unfold evs; now rewrite !map_length).
  rewrite HO. split.
  - clear - L. revert L. generalize (map fst sorted). induction evs' as [|e es IH]; intros [|a m] L; cbn in *; try discriminate; [reflexivity|].
    f_equal. apply IH. lia.
  - rewrite combine_length, L, Nat.min_id, HL. unfold evs, evs0. rewrite !map_length. symmetry. apply Permutation_length, sort_events_perm.
Qed.
End Align.
