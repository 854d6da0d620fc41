(** Success of the alignment in terms of the areas that are chosen. *)
From Coq Require Import String List Bool Reals Arith Lia Lra Permutation Relation_Operators.
From Verif Require Import Base PySort Pyf StatModel StatProof SiteModel SiteSpec MergeProof SiteProof SiteProof2 SiteProof3 SiteProof4 SiteProof5 SiteProof6 SiteProof7.
Import ListNotations.
Open Scope list_scope.
Open Scope R_scope.

Lemma align_ok_chosen pick rlm lsq : chooses_member pick -> forall events Rm station resp ignore Nf,
  Forall (well_formed Nf) (map snd (present_events events)) -> map snd (present_events events) <> [] ->
  (forall i, (i < Nf)%nat -> match largest (find_areas pick (map snd (sort_events events)) i ignore) with
     | Some a => (exists r, response_at resp i = Ok r) /\ exists s, In s a /\ norm_station station s = true
     | None => forall ev s, In ev (map snd (sort_events events)) -> response_of ev i s = None
     end) ->
  exists out Rm', align_site_responses pick rlm lsq events Rm station resp ignore = Ok (out, Rm').
Proof.
  intros pickP events Rm station resp ignore Nf WF0 Hne HA. unfold align_site_responses. set (evs := map snd (sort_events events)) in *.
  assert (Hne' : evs <> []).
  { intros E. apply Hne. assert (P := evs_perm events). fold evs in P. rewrite E in P. now apply Permutation_sym, Permutation_nil in P. }
  assert (WF : Forall (well_formed Nf) evs) by exact (WF events Nf WF0).
  assert (U := wf_unique Nf evs WF).
  rewrite (number_of_freqs_wf Nf evs WF Hne'). cbn [bind].
  assert (LA := fun i => largest_area pick pickP evs ignore i U).
  destruct (mapM_ok (align_freq pick lsq evs station resp ignore) (seq 0 Nf)) as [sols ES].
  { intros i Hi. apply in_seq in Hi. unfold align_freq. specialize (LA i). specialize (HA i ltac:(lia)).
    destruct (largest (find_areas pick evs i ignore)) as [area|]; [|eauto].
    destruct HA as [[r ->] HS]. cbn [bind].
    destruct (align_rows_used events station ignore Nf WF0 area i r LA HS) as [rows Er]. fold evs in Er. rewrite Er. cbn. eauto. }
  rewrite ES. cbn [bind].
  assert (LS : List.length sols = Nf) by (rewrite (mapM_length _ _ _ ES); apply seq_length).
  destruct (rescale_succeeds Nf (fun k i => exp (snd (nth i sols (None, fun _ => 0)) k)) (Some (map fst sols)) evs WF) as [evs' ER].
  { intros i Hi. rewrite only_at_sols by lia.
    assert (N := mapM_nth _ _ _ i 0%nat (None, fun _ => 0) ES). rewrite seq_length, seq_nth in N by assumption. specialize (N Hi). cbn [Nat.add] in N.
    unfold align_freq in N. specialize (HA i Hi). destruct (largest (find_areas pick evs i ignore)) as [area|].
    - left. destruct (response_at resp i); [|discriminate]. cbn [bind] in N. destruct (align_rows _ _ _ _); [|discriminate]. cbn [bind] in N.
      apply (f_equal (fun r => match r with Ok x => x | Err _ => (None, fun _ => 0) end)) in N. cbn beta iota in N. rewrite <- N. discriminate.
    - right. intros ev [s l] Hev He. destruct (valid (at_ (snd (s, l)) i)) eqn:V; [|auto]. left. intros Hin.
      assert (R0 : response_of ev i s = None) by (apply HA; exact Hev).
      unfold unique_stations in U. rewrite Forall_forall in U. apply (dget_map_In _ _ _ (U ev Hev)) in Hin.
      unfold response_of in R0. rewrite Hin in R0. cbn [snd] in V. destruct (at_ l i); discriminate. }
  rewrite ER. cbn [bind]. destruct (mean_responses_ok rlm Nf evs' (match Rm with Some m => m | None => [] end)) as [Rm1 EM].
  rewrite EM. cbn [bind]. eauto.
Qed.
