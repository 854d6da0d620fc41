(** Results of the alignment. *)
From Coq Require Import String List Bool Reals Arith Lia Lra Permutation Relation_Operators.
From Verif Require Import Base PySort Pyf StatModel StatProof SiteModel SiteSpec MergeProof SiteProof SiteProof2 SiteProof3.
Import ListNotations.
Open Scope list_scope.
Open Scope R_scope.

Lemma sort_events_perm events : Permutation (present_events events) (sort_events events).
Proof. unfold sort_events, present_events. apply Permutation_sym, pysort_perm. Qed.

Lemma wf_unique Nf evs : Forall (well_formed Nf) evs -> unique_stations evs.
Proof. intros H. eapply Forall_impl; [|exact H]. intros ev (ND & _). exact ND. Qed.

Lemma requested_spec resp i r : response_at resp i = Ok r <-> requested resp i r.
Proof.
  destruct resp as [x|l]; cbn; [split; [intros H; congruence|now intros ->]|].
  destruct (nth_error l i); split; intros H; try discriminate; congruence.
Qed.

Lemma number_of_freqs_wf Nf evs : Forall (well_formed Nf) evs -> evs <> [] -> number_of_freqs evs = Ok (Some Nf).
Proof.
  intros H Hne. destruct evs as [|ev evs]; [congruence|]. unfold number_of_freqs. cbn [fold_left bind].
  inversion H as [|? ? (_ & L & _) H2]; subst. clear H Hne. induction evs as [|e evs IH]; [reflexivity|].
  inversion H2 as [|? ? (_ & L & _) H3]; subst. cbn [fold_left bind]. rewrite L, Nat.eqb_refl. apply IH. assumption.
Qed.

Lemma Some_inj {A} (a b : A) : Some a = Some b -> a = b.
Proof. congruence. Qed.

Lemma combine_snd {A B} (l : list A) (m : list B) : List.length l = List.length m -> map snd (combine l m) = m.
Proof. revert m. induction l as [|x l IH]; intros [|y m] L; cbn in *; try discriminate; [reflexivity|]. f_equal. apply IH. lia. Qed.

Section Align.
Variables (pick : list string -> string) (rlm : list R -> R * R) (lsq : nat -> list (list (nat * R) * R) -> nat -> R).
Hypothesis pickP : chooses_member pick.
Hypothesis lsqP : least_squares lsq.
Variables (events : list (string * option evres)) (Rm : option (list (string * list (option R))))
  (station : staopt) (resp : response) (ignore : option (list string)) (Nf : nat).
Let evs0 := map snd (present_events events).
Hypothesis WF0 : Forall (well_formed Nf) evs0.
Let sorted := sort_events events.
Let evs := map snd sorted.

Lemma evs_perm : Permutation evs0 evs.
Proof. apply Permutation_map, sort_events_perm. Qed.

Lemma evs_In ev : In ev evs <-> In ev evs0.
Proof. split; apply Permutation_in; [apply Permutation_sym|]; apply evs_perm. Qed.

Lemma WF : Forall (well_formed Nf) evs.
Proof. apply Forall_forall. intros ev H. apply evs_In in H. rewrite Forall_forall in WF0. auto. Qed.

Lemma uniq : unique_stations evs.
Proof. eapply wf_unique, WF. Qed.

(** the areas do not depend on the order of the events *)
Lemma observed_perm i s : observed evs ignore i s <-> observed evs0 ignore i s.
Proof. unfold observed. split; intros (H & ev & Hin & Hr); split; auto; exists ev; split; auto; now apply evs_In. Qed.

Lemma common_perm i a b : common_event evs ignore i a b <-> common_event evs0 ignore i a b.
Proof. unfold common_event. split; intros (H1 & H2 & ev & Hin & Hr); split; auto; split; auto; exists ev; split; auto; now apply evs_In. Qed.

Lemma connected_perm i a b : connected evs ignore i a b <-> connected evs0 ignore i a b.
Proof.
  split; induction 1 as [x y H|x|x y z _ H1 _ H2];
  [apply rt_step; now apply common_perm|apply rt_refl|eapply rt_trans; eauto
  |apply rt_step; now apply common_perm|apply rt_refl|eapply rt_trans; eauto].
Qed.

Lemma is_area_perm i a : is_area evs ignore i a <-> is_area evs0 ignore i a.
Proof.
  unfold is_area. split; intros (H1 & H2 & H3); (split; [exact H1|]); (split; [exact H2|]); intros s Hs;
  destruct (H3 s Hs) as [O C]; (split; [now apply observed_perm|]); intros t; rewrite C; [|symmetry]; apply connected_perm.
Qed.

Lemma is_largest_area_perm i a : is_largest_area evs ignore i a <-> is_largest_area evs0 ignore i a.
Proof.
  unfold is_largest_area. rewrite is_area_perm. split; intros [H1 H2]; (split; [exact H1|]); intros b Hb; apply H2; now apply is_area_perm.
Qed.

(** the k-th event of the output *)
Lemma out_nth (out : list (string * evres)) (evs' : list evres) k : out = combine (map fst sorted) evs' -> List.length evs' = List.length evs -> (k < List.length evs)%nat ->
  forall d, nth k out (d, ev0) = (nth k (map fst sorted) d, nth k evs' ev0).
Proof. intros -> L Hk d. apply combine_nth. rewrite L. unfold evs. now rewrite !map_length. Qed.

Lemma out_snd (out : list (string * evres)) (evs' : list evres) : out = combine (map fst sorted) evs' -> List.length evs' = List.length evs -> map snd out = evs'.
Proof. intros -> L. apply combine_snd. rewrite L. unfold evs. now rewrite !map_length. Qed.

Section Success.
Variables (out : list (string * evres)) (Rm' : list (string * list (option R))).
Hypothesis OK : align_site_responses pick rlm lsq events Rm station resp ignore = Ok (out, Rm').

Lemma align_inv : exists sols evs',
  evs <> [] /\
  (forall i, (i < Nf)%nat -> align_freq pick lsq evs station resp ignore i = Ok (nth i sols (None, fun _ => 0))) /\
  List.length sols = Nf /\
  rescale_results evs Nf (fun k i => exp (snd (nth i sols (None, fun _ => 0)) k)) (Some (map fst sols)) = Ok evs' /\
  mean_responses rlm evs' Nf (match Rm with Some m => m | None => [] end) = Ok Rm' /\
  out = combine (map fst sorted) evs' /\ List.length evs' = List.length evs.
Proof.
  unfold align_site_responses in OK. fold sorted in OK. fold evs in OK.
  assert (Hne : evs <> []). { intros E. rewrite E in OK. cbn in OK. discriminate. }
  rewrite (number_of_freqs_wf Nf evs WF Hne) in OK. cbn [bind] in OK.
  destruct (mapM (align_freq pick lsq evs station resp ignore) (seq 0 Nf)) as [sols|] eqn:E; [|discriminate]. cbn [bind] in OK.
  destruct (rescale_results evs Nf _ _) as [evs'|] eqn:ER; [|discriminate]. cbn [bind] in OK.
  destruct (mean_responses rlm evs' Nf _) as [Rm1|] eqn:EM; [|discriminate]. cbn [bind] in OK. injection OK as <- <-.
  exists sols, evs'. split; [exact Hne|]. split; [|split; [|split; [|split; [|split]]]]; auto.
  - intros i Hi. assert (N := mapM_nth _ _ _ i 0%nat (None, fun _ => 0) E). rewrite seq_length, seq_nth in N by assumption. auto.
  - rewrite (mapM_length _ _ _ E). apply seq_length.
  - apply rescale_spec in ER; [|apply WF]. apply ER.
Qed.

(** what happens at frequency i *)
Definition outcome (i : nat) (evs' : list evres) : Prop :=
  (forall k s, (k < List.length evs)%nat -> response_of (nth k evs ev0) i s = None /\ response_of (nth k evs' ev0) i s = None /\
      energy_of (nth k evs' ev0) i = None) /\ (forall s, ~ observed evs ignore i s) \/
  exists area x rows r, is_largest_area evs ignore i area /\ response_at resp i = Ok r /\
    align_rows station (nstations evs i) r (observations evs i area) = Ok rows /\
    (forall y, sse rows x <= sse rows y) /\
    forall k, (k < List.length evs)%nat ->
      (forall s, response_of (nth k evs' ev0) i s =
         if inb String.eqb s area then option_map (fun v => v * exp (x k)) (response_of (nth k evs ev0) i s) else None) /\
      (forall w', energy_of (nth k evs' ev0) i = Some w' <->
         exists w s, energy_of (nth k evs ev0) i = Some w /\ response_of (nth k evs' ev0) i s <> None /\ w' = w / exp (x k)).

Lemma only_at_sols (sols : list (option (list string) * (nat -> R))) i : (i < List.length sols)%nat ->
  only_at (Some (map fst sols)) i = Some (fst (nth i sols (None, fun _ => 0))).
Proof.
  intros Hi. unfold only_at. destruct (map fst sols) as [|a l] eqn:E.
  - destruct sols; [cbn in Hi; lia|discriminate].
  - rewrite <- E. f_equal. rewrite <- (map_nth fst). reflexivity.
Qed.

Lemma align_outcome i : (i < Nf)%nat -> complete i evs0 ->
  exists evs', out = combine (map fst sorted) evs' /\ List.length evs' = List.length evs /\
    Forall (well_formed Nf) evs' /\ outcome i evs'.
Proof.
  intros Hi HC. destruct align_inv as (sols & evs' & Hne & HF & HL & HR & _ & HO & HLen).
  exists evs'. split; [exact HO|]. split; [exact HLen|].
  destruct (rescale_spec _ _ _ _ _ WF HR) as (_ & WF' & HK). split; [exact WF'|].
  assert (F := HF i Hi). set (sol := nth i sols (None, fun _ => 0)) in *.
  assert (OA : only_at (Some (map fst sols)) i = Some (fst sol)) by (apply only_at_sols; lia).
  assert (LA := largest_area pick pickP evs ignore i uniq).
  unfold align_freq in F. destruct (largest (find_areas pick evs i ignore)) as [area|].
  - right. destruct (response_at resp i) as [r|] eqn:ER; [|discriminate]. cbn [bind] in F.
    destruct (align_rows station (nstations evs i) r (observations evs i area)) as [rows|] eqn:EA; [|discriminate]. cbn [bind] in F.
    apply (f_equal (fun r => match r with Ok x => x | Err _ => (None, fun _ => 0) end)) in F. cbn beta iota in F.
    exists area, (lsq (List.length evs) rows), rows, r. split; [exact LA|]. split; [reflexivity|]. split; [exact EA|].
    split. { apply lsqP. eapply rows_columns; [exact EA|]. intros o. apply observations_columns. }
    intros k Hk. destruct (HK k Hk) as [HCell _]. specialize (HCell i Hi). rewrite OA, <- F in HCell.
    fold sol in HCell. rewrite <- F in HCell. cbn [fst snd] in HCell.
    assert (RS : forall s, response_of (nth k evs' ev0) i s =
         if inb String.eqb s area then option_map (fun v => v * exp (lsq (List.length evs) rows k)) (response_of (nth k evs ev0) i s) else None).
    { intros s. rewrite (cell_response _ _ _ _ _ s HCell). cbn [kept].
      destruct (response_of (nth k evs ev0) i s) as [v|] eqn:EV.
      - destruct (energy_of (nth k evs ev0) i) eqn:EE; [destruct (inb String.eqb s area); reflexivity|].
        exfalso. apply (HC (nth k evs ev0) s); [apply evs_In, nth_In; assumption|congruence|assumption].
      - destruct (energy_of (nth k evs ev0) i), (inb String.eqb s area); reflexivity. }
    split; [exact RS|]. intros w'.
    assert (ND : NoDup (map fst (evR (nth k evs ev0)))) by (apply (Forall_nth_wf Nf _ _ WF Hk)).
    rewrite (cell_energy _ _ _ _ _ ND HCell). destruct (energy_of (nth k evs ev0) i) as [w|] eqn:EE.
    + destruct (forallb _ _) eqn:EF.
      * split; [discriminate|]. intros (w0 & s & E1 & E2 & _). exfalso. rewrite forallb_forall in EF.
        assert (Hs : In s (map fst (evR (nth k evs ev0)))).
        { rewrite RS in E2. destruct (inb String.eqb s area); [|congruence]. unfold response_of in E2.
          destruct (dget String.eqb (evR (nth k evs ev0)) s) eqn:D; [|cbn in E2; congruence].
          apply (dget_In _ string_eqb_spec) in D. now apply (in_map fst) in D. }
        apply EF in Hs. destruct (response_of (nth k evs' ev0) i s); [discriminate|congruence].
      * assert (X : exists s, response_of (nth k evs' ev0) i s <> None).
        { clear - EF. induction (map fst (evR (nth k evs ev0))) as [|s l IH]; [discriminate|].
          cbn in EF. destruct (response_of (nth k evs' ev0) i s) eqn:E; [exists s; congruence|auto]. }
        destruct X as [s Hs]. split.
        -- intros H. apply Some_inj in H. exists w, s. auto.
        -- intros (w0 & s0 & E1 & _ & ->). apply Some_inj in E1. now subst.
    + split; [discriminate|]. intros (w & s & E1 & _). discriminate.
  - left. apply (f_equal (fun r => match r with Ok x => x | Err _ => (None, fun _ => 0) end)) in F. cbn beta iota in F.
    assert (R0 : forall k s, (k < List.length evs)%nat -> response_of (nth k evs ev0) i s = None).
    { intros k s Hk. destruct (response_of (nth k evs ev0) i s) eqn:EV; [|reflexivity].
      assert (In (nth k evs ev0) evs) by now apply nth_In.
      rewrite <- EV. eapply rescale_none; [exact WF|exact HR|exact Hi| |assumption|].
      - rewrite OA, <- F. reflexivity.
      - apply (HC _ s); [now apply evs_In|congruence]. }
    split; [|exact LA]. intros k s Hk. destruct (HK k Hk) as [HCell _]. specialize (HCell i Hi).
    assert (RS : forall s, response_of (nth k evs' ev0) i s = None).
    { intros s'. rewrite (cell_response _ _ _ _ _ s' HCell), R0 by assumption. now destruct (energy_of _ _). }
    split; [now apply R0|]. split; [apply RS|].
    assert (ND : NoDup (map fst (evR (nth k evs ev0)))) by (apply (Forall_nth_wf Nf _ _ WF Hk)).
    rewrite (cell_energy _ _ _ _ _ ND HCell). destruct (energy_of (nth k evs ev0) i); [|reflexivity].
    replace (forallb _ _) with true; [reflexivity|]. symmetry. apply forallb_forall. intros s' _. now rewrite RS.
Qed.
End Success.
End Align.
