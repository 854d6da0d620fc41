(** Success and failure of the alignment, mean responses of its output, a concrete solver. *)
From Coq Require Import String List Bool Reals Arith Lia Lra Permutation Relation_Operators.
From Verif Require Import Base PySort Pyf StatModel StatProof SmoothSpec SmoothProof Lsq SiteModel SiteSpec MergeProof SiteProof SiteProof2 SiteProof3 SiteProof4 SiteProof5 SiteProof6.
Import ListNotations.
Open Scope list_scope.
Open Scope R_scope.

(** ** rescaling *)
Lemma rescale_product Nf factors only evs evs' : Forall (well_formed Nf) evs ->
  (forall k i, factors k i <> 0) -> rescale_results evs Nf factors only = Ok evs' ->
  List.length evs' = List.length evs /\
  forall k i s, (k < List.length evs)%nat -> (i < Nf)%nat ->
    let ev := nth k evs ev0 in let ev' := nth k evs' ev0 in
    (response_of ev i s = None -> response_of ev' i s = None) /\
    (energy_of ev i = None -> energy_of ev' i = None) /\
    (forall w' r', energy_of ev' i = Some w' -> response_of ev' i s = Some r' ->
       exists w r, energy_of ev i = Some w /\ response_of ev i s = Some r /\
         r' = r * factors k i /\ w' = w / factors k i /\ w' * r' = w * r).
Proof.
  intros WF HF H. destruct (rescale_spec _ _ _ _ _ WF H) as (L & _ & K). split; [exact L|].
  intros k i s Hk Hi ev ev'. destruct (K k Hk) as [C _]. specialize (C i Hi). fold ev ev' in C.
  assert (CR := cell_response _ _ _ _ _ s C). assert (ND : NoDup (map fst (evR ev))) by apply (Forall_nth_wf Nf _ _ WF Hk).
  assert (CE := cell_energy _ _ _ _ _ ND C). split; [|split].
  - intros E. rewrite CR, E. now destruct (energy_of ev i).
  - intros E. now rewrite CE, E.
  - intros w' r' Hw Hr. rewrite CE in Hw. destruct (energy_of ev i) as [w|]; [|discriminate].
    rewrite CR in Hr. destruct (response_of ev i s) as [r|]; [|discriminate].
    destruct (kept _ s); [|discriminate]. apply Some_inj in Hr. destruct (forallb _ _); [discriminate|]. apply Some_inj in Hw.
    exists w, r. subst. repeat (split; [reflexivity|]). field. apply HF.
Qed.

(** ** success and failure *)
Lemma mapM_err {A B} (f : A -> res B) l e : (forall a, In a l -> (exists b, f a = Ok b) \/ f a = Err e) ->
  (exists a, In a l /\ f a = Err e) -> mapM f l = Err e.
Proof.
  induction l as [|a l IH]; intros H (x & Hx & Ex); [destruct Hx|]. cbn.
  destruct (H a (or_introl eq_refl)) as [[b Eb]|Ea]; [|now rewrite Ea]. rewrite Eb. cbn.
  destruct Hx as [->|Hx]; [congruence|]. rewrite IH; eauto. intros; apply H; now right.
Qed.

Section Run.
Variables (pick : list string -> string) (rlm : list R -> R * R) (lsq : nat -> list (list (nat * R) * R) -> nat -> R).
Hypothesis pickP : chooses_member pick.
Variables (events : list (string * option evres)) (Rm : option (list (string * list (option R))))
  (station : staopt) (resp : response) (ignore : option (list string)) (Nf : nat).
Let evs0 := map snd (present_events events).
Hypothesis WF0 : Forall (well_formed Nf) evs0.

Lemma align_rows_used area i r : is_largest_area (map snd (sort_events events)) ignore i area ->
  (exists s, In s area /\ norm_station station s = true) ->
  exists rows, align_rows station (nstations (map snd (sort_events events)) i) r (observations (map snd (sort_events events)) i area) = Ok rows.
Proof.
  intros LA (s & Hs & Hn). destruct (area_has_obs events ignore Nf WF0 i area s LA Hs) as (o & Ho & E).
  unfold align_rows. change (fold_left _ _ _) with (final station (nstations (map snd (sort_events events)) i) (observations (map snd (sort_events events)) i area)).
  set (l := observations (map snd (sort_events events)) i area) in *.
  destruct (final_norm station (nstations (map snd (sort_events events)) i) l (fun _ => 0)) as (_ & _ & _ & HU & _).
  assert (In s (sused (final station (nstations (map snd (sort_events events)) i) l))).
  { apply HU. exists o. split; [|exact E]. unfold used. apply filter_In. split; [exact Ho|]. now rewrite E. }
  destruct (sused (final station (nstations (map snd (sort_events events)) i) l)); [destruct H|]. eauto.
Qed.

Lemma align_rows_unused area i r : is_largest_area (map snd (sort_events events)) ignore i area ->
  (forall s, In s area -> norm_station station s = false) ->
  align_rows station (nstations (map snd (sort_events events)) i) r (observations (map snd (sort_events events)) i area) = Err ZeroDivisionError.
Proof.
  intros LA Hn. unfold align_rows. change (fold_left _ _ _) with (final station (nstations (map snd (sort_events events)) i) (observations (map snd (sort_events events)) i area)).
  set (l := observations (map snd (sort_events events)) i area) in *.
  destruct (final_norm station (nstations (map snd (sort_events events)) i) l (fun _ => 0)) as (_ & _ & _ & HU & _).
  destruct (sused (final station (nstations (map snd (sort_events events)) i) l)) as [|s u]; [reflexivity|]. exfalso.
  destruct (proj1 (HU s) (or_introl eq_refl)) as (o & Ho & E). unfold used in Ho. apply filter_In in Ho as [Ho N].
  apply (observations_response _ _ _ _ (uniq events Nf WF0)) in Ho as (_ & _ & Ha & _). rewrite Hn in N by assumption. discriminate.
Qed.

Lemma align_ok : evs0 <> [] ->
  (forall i, (i < Nf)%nat -> exists r, requested resp i r) ->
  (forall i a, (i < Nf)%nat -> is_largest_area evs0 ignore i a -> exists s, In s a /\ norm_station station s = true) ->
  (forall i, (i < Nf)%nat -> (forall s, ~ observed evs0 ignore i s) -> forall ev s, In ev evs0 -> response_of ev i s = None) ->
  exists out Rm', align_site_responses pick rlm lsq events Rm station resp ignore = Ok (out, Rm').
Proof.
  intros Hne HR0 HA HN. assert (HR : forall i, (i < Nf)%nat -> exists r, response_at resp i = Ok r)
    by (intros i Hi; destruct (HR0 i Hi) as (r & Hr); exists r; now apply requested_spec).
  clear HR0. unfold align_site_responses. set (evs := map snd (sort_events events)).
  assert (Hne' : evs <> []).
  { intros E. apply Hne. assert (P := evs_perm events). fold evs in P. rewrite E in P. now apply Permutation_sym, Permutation_nil in P. }
  assert (WF : Forall (well_formed Nf) evs) by exact (WF events Nf WF0).
  assert (U := wf_unique Nf evs WF).
  rewrite (number_of_freqs_wf Nf evs WF Hne'). cbn [bind].
  assert (LA := fun i => largest_area pick pickP evs ignore i U).
  destruct (mapM_ok (align_freq pick lsq evs station resp ignore) (seq 0 Nf)) as [sols ES].
  { intros i Hi. apply in_seq in Hi. unfold align_freq. specialize (LA i). destruct (largest (find_areas pick evs i ignore)) as [area|]; [|eauto].
    destruct (HR i ltac:(lia)) as [r ->]. cbn [bind].
    destruct (align_rows_used area i r LA) as [rows Er].
    - apply (HA i area ltac:(lia)). now apply (is_largest_area_perm events ignore).
    - fold evs in Er. rewrite Er. cbn. eauto. }
  rewrite ES. cbn [bind].
  assert (LS : List.length sols = Nf) by (rewrite (mapM_length _ _ _ ES); apply seq_length).
  destruct (rescale_succeeds Nf (fun k i => exp (snd (nth i sols (None, fun _ => 0)) k)) (Some (map fst sols)) evs WF) as [evs' ER].
  { intros i Hi. rewrite only_at_sols by lia.
    assert (N := mapM_nth _ _ _ i 0%nat (None, fun _ => 0) ES). rewrite seq_length, seq_nth in N by assumption. specialize (N Hi). cbn [Nat.add] in N.
    unfold align_freq in N. specialize (LA i). destruct (largest (find_areas pick evs i ignore)) as [area|].
    - left. destruct (response_at resp i); [|discriminate]. cbn [bind] in N. destruct (align_rows _ _ _ _); [|discriminate]. cbn [bind] in N.
      apply (f_equal (fun r => match r with Ok x => x | Err _ => (None, fun _ => 0) end)) in N. cbn beta iota in N. rewrite <- N. discriminate.
    - right. intros ev [s l] Hev He. destruct (valid (at_ (snd (s, l)) i)) eqn:V; [|auto]. left. intros Hin.
      assert (R0 : response_of ev i s = None).
      { apply (HN i Hi); [|now apply (evs_In events)]. intros t Ht. apply (LA t). now apply (observed_perm events ignore). }
      unfold unique_stations in U. rewrite Forall_forall in U. apply (dget_map_In _ _ _ (U ev Hev)) in Hin.
      unfold response_of in R0. rewrite Hin in R0. cbn [snd] in V. destruct (at_ l i); discriminate. }
  rewrite ER. cbn [bind]. destruct (mean_responses_ok rlm Nf evs' (match Rm with Some m => m | None => [] end)) as [Rm1 EM].
  rewrite EM. cbn [bind]. eauto.
Qed.

Lemma align_zero_division r i : resp = RScalar r -> (i < Nf)%nat -> (exists s, observed evs0 ignore i s) ->
  (forall a, is_largest_area evs0 ignore i a -> forall s, In s a -> norm_station station s = false) ->
  align_site_responses pick rlm lsq events Rm station resp ignore = Err ZeroDivisionError.
Proof.
  intros -> Hi (s & Hs) HA. unfold align_site_responses. set (evs := map snd (sort_events events)).
  assert (Hne' : evs <> []).
  { destruct Hs as (_ & ev & Hev & _). apply (evs_In events) in Hev. intros E. fold evs in Hev. rewrite E in Hev. destruct Hev. }
  assert (WF : Forall (well_formed Nf) evs) by exact (WF events Nf WF0).
  assert (U := wf_unique Nf evs WF).
  rewrite (number_of_freqs_wf Nf evs WF Hne'). cbn [bind].
  assert (LA := fun i => largest_area pick pickP evs ignore i U).
  rewrite (mapM_err (align_freq pick lsq evs station (RScalar r) ignore) (seq 0 Nf) ZeroDivisionError); [reflexivity| |].
  - intros j _. unfold align_freq. destruct (largest _) as [area|]; [|eauto]. cbn [response_at bind].
    unfold align_rows. destruct (sused _); cbn; eauto.
  - exists i. split; [apply in_seq; lia|]. unfold align_freq. specialize (LA i).
    destruct (largest (find_areas pick evs i ignore)) as [area|].
    + cbn [response_at bind]. assert (Z := align_rows_unused area i r LA). fold evs in Z. rewrite Z; [reflexivity|].
      apply HA. now apply (is_largest_area_perm events ignore).
    + exfalso. apply (LA s). now apply (observed_perm events ignore).
Qed.

Lemma align_means out Rm' : least_squares lsq ->
  align_site_responses pick rlm lsq events Rm station resp ignore = Ok (out, Rm') ->
  (forall i, (i < Nf)%nat -> complete i evs0 /\ positive_responses i evs0) ->
  forall s,
  ((exists i, (i < Nf)%nat /\ responses (map snd out) i s <> []) -> exists l, dget String.eqb Rm' s = Some l /\ List.length l = Nf /\
     forall i, (i < Nf)%nat -> gmean rlm (map FNum (responses (map snd out) i s)) None true 5 = Ok (nth i l None) /\
       (nth i l None = None <-> responses (map snd out) i s = [])) /\
  ((forall i, (i < Nf)%nat -> responses (map snd out) i s = []) ->
     dget String.eqb Rm' s = dget String.eqb (match Rm with Some m => m | None => [] end) s).
Proof.
  intros lsqP OK HC s.
  destruct (align_inv pick rlm lsq events Rm station resp ignore Nf WF0 out Rm' OK) as (sols & evs' & _ & _ & _ & HR & HM & HO & HL).
  assert (E := out_snd events out evs' HO HL). rewrite E in *.
  assert (W' : Forall (well_formed Nf) evs') by (apply (rescale_spec _ _ _ _ _ (WF events Nf WF0) HR)).
  apply mean_responses_spec; auto. intros i ev t v Hi Hev Hv.
  destruct (HC i Hi) as [H1 H2].
  destruct (align_outcome pick rlm lsq pickP lsqP events Rm station resp ignore Nf WF0 out Rm' OK i Hi H1)
    as (evs2 & HO2 & HL2 & _ & OC).
  assert (evs2 = evs') as -> by (rewrite <- E; symmetry; now apply out_snd with events).
  apply (In_nth _ _ ev0) in Hev as (k & Hk & <-). rewrite HL in Hk.
  destruct OC as [[H0 _]|(area & x & rows & r & _ & _ & _ & _ & HK)].
  - destruct (H0 k t Hk) as (_ & E0 & _). congruence.
  - destruct (HK k Hk) as [HKr _]. rewrite HKr in Hv. destruct (inb String.eqb t area); [|discriminate].
    destruct (response_of (nth k (map snd (sort_events events)) ev0) i t) as [w|] eqn:EW; [|discriminate]. cbn in Hv. apply Some_inj in Hv. subst v.
    apply Rmult_lt_0_compat; [|apply exp_pos]. eapply H2; [|exact EW]. apply (evs_In events). now apply nth_In.
Qed.
End Run.

(** ** a solver *)
Definition coef (j : nat) (row : list (nat * R) * R) : R :=
  rsum (map (fun p => if Nat.eqb (fst p) j then snd p else 0) (fst row)).
Definition site_solver (n : nat) (rows : list (list (nat * R) * R)) : nat -> R := solve rows n coef snd.

Lemma total_delta n k x v : (k < n)%nat -> total n (fun j => x j * (if Nat.eqb k j then v else 0)) = v * x k.
Proof.
  intros Hk. induction n as [|n IH]; [lia|]. cbn [total]. destruct (Nat.eqb_spec k n) as [->|Ne].
  - rewrite (total_ext n _ (fun _ => 0 * 0)), (total_scale n 0 (fun _ => 0)); [ring|].
    intros j Hj. destruct (Nat.eqb_spec n j); [lia|ring].
  - rewrite IH by lia. ring.
Qed.

Lemma lin_coef n x row : (forall p, In p (fst row) -> (fst p < n)%nat) ->
  lin n coef x row = rsum (map (fun p => snd p * x (fst p)) (fst row)).
Proof.
  unfold lin, coef. destruct row as [l b]. cbn [fst]. induction l as [|[k v] l IH]; intros H.
  - cbn. rewrite (total_ext n _ (fun _ => 0 * 0)), (total_scale n 0 (fun _ => 0)); [unfold rsum; cbn; ring|]. intros; unfold rsum; cbn; ring.
  - cbn [map fst snd]. rewrite rsum_cons, <- IH by (intros; apply H; now right).
    rewrite (total_ext n _ (fun j => x j * (if Nat.eqb k j then v else 0) + x j * rsum (map (fun p => if Nat.eqb (fst p) j then snd p else 0) l)))
      by (intros; rewrite rsum_cons; ring).
    rewrite total_plus, total_delta; [reflexivity|]. apply (H (k, v)). now left.
Qed.

Lemma site_solver_least : least_squares site_solver.
Proof.
  intros n rows H y.
  assert (E : forall x, sse rows x = sqres rows n coef snd x).
  { intros x. unfold sse, sqres, dot. apply rsum_ext. intros row Hr. unfold row_value.
    rewrite <- (lin_coef n x row) by (intros; eapply H; eauto). reflexivity. }
  rewrite !E. apply solve_least.
Qed.
