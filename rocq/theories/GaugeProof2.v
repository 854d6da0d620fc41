(** C141: results of the alignment for events with factors. *)
From Coq Require Import String List Bool Reals Arith Lia Lra Permutation Relation_Operators.
From Verif Require Import Base PySort Pyf StatModel StatProof SiteModel SiteSpec MergeProof SiteProof SiteProof2 SiteProof3 SiteProof4 SiteProof5 SiteProof6 SiteProof7
  GaugeSpec GaugeProof.
Import ListNotations.
Open Scope list_scope.
Open Scope R_scope.

Section Align.
Variables (pick : list string -> string) (rlm : list R -> R * R) (lsq : nat -> list (list (nat * R) * R) -> nat -> R).
Hypothesis pickP : chooses_member pick.
Hypothesis lsqP : least_squares lsq.
Variables (events : list (string * option evres)) (Rm : option (list (string * list (option R))))
  (station : staopt) (resp : response) (ignore : option (list string)) (Nf : nat).
Let evs0 := map snd (present_events events).
Hypothesis WF0 : Forall (well_formed Nf) evs0.
Let sorted := sort_events events.
Let evs := map snd sorted.
Variables (out : list (string * evres)) (Rm' : list (string * list (option R))).
Hypothesis OK : align_site_responses pick rlm lsq events Rm station resp ignore = Ok (out, Rm').

(** what happens at frequency i, with the area that is chosen *)
Definition chosen (i : nat) (evs' : list evres) : Prop :=
  match largest (find_areas pick evs i ignore) with
  | None => forall k s, (k < List.length evs)%nat -> response_of (nth k evs' ev0) i s = None /\ energy_of (nth k evs' ev0) i = None
  | Some area => exists x rows r, is_largest_area evs ignore i area /\ response_at resp i = Ok r /\
      align_rows station (nstations evs i) r (observations evs i area) = Ok rows /\
      (forall y, sse rows x <= sse rows y) /\
      forall k, (k < List.length evs)%nat ->
        (forall s, response_of (nth k evs' ev0) i s =
           if inb String.eqb s area then option_map (fun v => v * exp (x k)) (response_of (nth k evs ev0) i s) else None) /\
        (forall w', energy_of (nth k evs' ev0) i = Some w' <->
           exists w s, energy_of (nth k evs ev0) i = Some w /\ response_of (nth k evs' ev0) i s <> None /\ w' = w / exp (x k))
  end.

Lemma align_chosen i : (i < Nf)%nat -> complete i evs0 ->
  exists evs', out = combine (map fst sorted) evs' /\ List.length evs' = List.length evs /\
    Forall (well_formed Nf) evs' /\ chosen i evs'.
Proof.
  intros Hi HC. destruct (align_inv pick rlm lsq events Rm station resp ignore Nf WF0 out Rm' OK) as (sols & evs' & Hne & HF & HL & HR & _ & HO & HLen).
  exists evs'. split; [exact HO|]. split; [exact HLen|].
  destruct (rescale_spec _ _ _ _ _ (WF events Nf WF0) HR) as (_ & WF' & HK). split; [exact WF'|].
  assert (F := HF i Hi). set (sol := nth i sols (None, fun _ => 0)) in *.
  assert (OA : only_at (Some (map fst sols)) i = Some (fst sol)) by (apply only_at_sols; lia).
  assert (LA := largest_area pick pickP evs ignore i (uniq events Nf WF0)).
  unfold align_freq in F. unfold chosen. fold sorted evs in F, LA, HK, HLen, HO |- *. destruct (largest (find_areas pick evs i ignore)) as [area|].
  - destruct (response_at resp i) as [r|] eqn:ER; [|discriminate]. cbn [bind] in F.
    destruct (align_rows station (nstations evs i) r (observations evs i area)) as [rows|] eqn:EA; [|discriminate]. cbn [bind] in F.
    apply (f_equal (fun r => match r with Ok x => x | Err _ => (None, fun _ => 0) end)) in F. cbn beta iota in F.
    exists (lsq (List.length evs) rows), rows, r. split; [exact LA|]. split; [reflexivity|]. split; [exact EA|].
    split. { apply lsqP. eapply rows_columns; [exact EA|]. intros o. apply observations_columns. }
    intros k Hk. destruct (HK k Hk) as [HCell _]. specialize (HCell i Hi). rewrite OA, <- F in HCell.
    fold sol in HCell. rewrite <- F in HCell. cbn [fst snd] in HCell.
    assert (RS : forall s, response_of (nth k evs' ev0) i s =
         if inb String.eqb s area then option_map (fun v => v * exp (lsq (List.length evs) rows k)) (response_of (nth k evs ev0) i s) else None).
    { intros s. rewrite (cell_response _ _ _ _ _ s HCell). cbn [kept].
      destruct (response_of (nth k evs ev0) i s) as [v|] eqn:EV.
      - destruct (energy_of (nth k evs ev0) i) eqn:EE; [destruct (inb String.eqb s area); reflexivity|].
        exfalso. apply (HC (nth k evs ev0) s); [apply (evs_In events), nth_In; assumption|congruence|assumption].
      - destruct (energy_of (nth k evs ev0) i), (inb String.eqb s area); reflexivity. }
    split; [exact RS|]. intros w'.
    assert (ND : NoDup (map fst (evR (nth k evs ev0)))) by (apply (Forall_nth_wf Nf _ _ (WF events Nf WF0) Hk)).
    rewrite (cell_energy _ _ _ _ _ ND HCell). destruct (energy_of (nth k evs ev0) i) as [w|] eqn:EE.
    + destruct (forallb _ _) eqn:EF.
      * split; [discriminate|]. intros (w0 & s & E1 & E2 & _). exfalso. rewrite forallb_forall in EF.
        assert (Hs : In s (map fst (evR (nth k evs ev0)))).
        { rewrite RS in E2. destruct (inb String.eqb s area); [|congruence]. unfold response_of in E2.
          destruct (dget String.eqb (evR (nth k evs ev0)) s) eqn:D; [|cbn in E2; congruence].
          apply (dget_In _ string_eqb_spec) in D. now apply (in_map fst) in D. }
        apply EF in Hs. destruct (response_of (nth k evs' ev0) i s); [discriminate|congruence].
      * assert (X : exists s, response_of (nth k evs' ev0) i s <> None).
        { clear - EF. induction (map fst (evR (nth k evs ev0))) as [|s l IH]; [discriminate|].
          cbn in EF. destruct (response_of (nth k evs' ev0) i s) eqn:E; [exists s; congruence|auto]. }
        destruct X as [s Hs]. split.
        -- intros H. apply Some_inj in H. exists w, s. auto.
        -- intros (w0 & s0 & E1 & _ & ->). apply Some_inj in E1. now subst.
    + split; [discriminate|]. intros (w & s & E1 & _). discriminate.
  - apply (f_equal (fun r => match r with Ok x => x | Err _ => (None, fun _ => 0) end)) in F. cbn beta iota in F.
    assert (R0 : forall k s, (k < List.length evs)%nat -> response_of (nth k evs ev0) i s = None).
    { intros k s Hk. destruct (response_of (nth k evs ev0) i s) eqn:EV; [|reflexivity].
      assert (In (nth k evs ev0) evs) by now apply nth_In.
      rewrite <- EV. eapply rescale_none; [exact (WF events Nf WF0)|exact HR|exact Hi| |assumption|].
      - rewrite OA, <- F. reflexivity.
      - apply (HC _ s); [now apply (evs_In events)|congruence]. }
    intros k s Hk. destruct (HK k Hk) as [HCell _]. specialize (HCell i Hi).
    assert (RS : forall s, response_of (nth k evs' ev0) i s = None).
    { intros s'. rewrite (cell_response _ _ _ _ _ s' HCell), R0 by assumption. now destruct (energy_of _ _). }
    split; [apply RS|].
    assert (ND : NoDup (map fst (evR (nth k evs ev0)))) by (apply (Forall_nth_wf Nf _ _ (WF events Nf WF0) Hk)).
    rewrite (cell_energy _ _ _ _ _ ND HCell). destruct (energy_of (nth k evs ev0) i); [|reflexivity].
    replace (forallb _ _) with true; [reflexivity|]. symmetry. apply forallb_forall. intros s' _. now rewrite RS.
Qed.
End Align.
