(** C142: a second alignment changes nothing. *)
From Coq Require Import String List Bool Reals Arith Lia Lra Permutation Relation_Operators Sorted FunctionalExtensionality.
From Verif Require Import Base PySort Pyf StatModel StatProof SiteModel SiteSpec MergeProof SiteProof SiteProof2 SiteProof3 SiteProof4 SiteProof5 SiteProof6 SiteProof7
  SiteProof8 SiteProof9 GaugeSpec GaugeProof GaugeProof2 GaugeProof3 ChosenProof TwiceSpec.
Import ListNotations.
Open Scope list_scope.
Open Scope R_scope.

Lemma present_input out : present_events (as_input out) = out.
Proof. unfold present_events, as_input. induction out as [|[id ev] l IH]; cbn; [reflexivity|]. now rewrite IH. Qed.

Lemma sorted_input out : StronglySorted (fun a b => String.leb a b = true) (map fst out) -> sort_events (as_input out) = out.
Proof.
  intros H. unfold sort_events. fold (present_events (as_input out)). rewrite present_input. apply pysort_id.
  induction out as [|p l IH]; cbn in H; [constructor|]. inversion H as [|? ? H1 H2]; subst. constructor; [now apply IH|].
  rewrite Forall_forall in H2 |- *. intros q Hq. apply H2. now apply in_map.
Qed.

(** observations from names and responses *)
Definition key_obs (area : list string) (i : nat) (p : nat * evres) : list obs :=
  flat_map (fun s => if negb (inb String.eqb s area) then []
    else match response_of (snd p) i s with Some r => [{| oev := fst p; osta := s; oval := r |}] | None => [] end) (map fst (evR (snd p))).

Lemma observations_keys evs i area : unique_stations evs -> observations evs i area = flat_map (key_obs area i) (enum evs).
Proof.
  intros U. unfold observations. apply flat_map_ext_in. intros [k ev] Hk. apply enum_In, nth_error_In in Hk.
  unfold unique_stations in U. rewrite Forall_forall in U. apply U in Hk. clear U. unfold key_obs. cbn [fst snd].
  assert (G : forall d, NoDup (map fst d) -> (forall q, In q d -> In q (evR ev)) ->
    flat_map (fun q => if negb (inb String.eqb (fst q) area) then [] else match at_ (snd q) i with ENum r => [{| oev := k; osta := fst q; oval := r |}] | _ => [] end) d =
    flat_map (fun s => if negb (inb String.eqb s area) then [] else match response_of ev i s with Some r => [{| oev := k; osta := s; oval := r |}] | None => [] end) (map fst d)).
  { induction d as [|[s l] d IH]; intros ND HI; [reflexivity|]. cbn [map flat_map fst snd]. inversion ND; subst.
    rewrite IH by (auto; intros; apply HI; now right). f_equal. destruct (negb (inb String.eqb s area)); [reflexivity|].
    unfold response_of. specialize (HI (s, l) (or_introl eq_refl)). apply (dget_map_In _ _ _ Hk) in HI. rewrite HI. now destruct (at_ l i). }
  apply G; auto.
Qed.

(** only the numbers of the stations observed matter *)
Lemma final_nsta station nsta nsta' l : (forall o, In o l -> nsta (osta o) = nsta' (osta o)) -> final station nsta l = final station nsta' l.
Proof.
  induction l as [|o l IH] using rev_ind; intros H; [reflexivity|]. rewrite !final_snoc, IH by (intros; apply H, in_or_app; now left).
  unfold align_step. rewrite (H o) by (apply in_or_app; right; now left). reflexivity.
Qed.

Lemma align_rows_nsta station nsta nsta' r l : (forall o, In o l -> nsta (osta o) = nsta' (osta o)) ->
  align_rows station nsta r l = align_rows station nsta' r l.
Proof.
  intros H. unfold align_rows. fold (init_state). change (fold_left (align_step station nsta) l init_state) with (final station nsta l).
  change (fold_left (align_step station nsta') l init_state) with (final station nsta' l). now rewrite (final_nsta _ _ _ _ H).
Qed.

Section Run.
Variables (pick : list string -> string) (rlm : list R -> R * R) (lsq : nat -> list (list (nat * R) * R) -> nat -> R).
Hypothesis pickP : chooses_member pick.
Hypothesis lsqP : least_squares lsq.
Variables (events : list (string * option evres)) (Rm : option (list (string * list (option R))))
  (station : staopt) (resp : response) (ignore : option (list string)) (Nf : nat).
Let evs0 := map snd (present_events events).
Hypothesis WF0 : Forall (well_formed Nf) evs0.
Hypothesis HG : forall i, (i < Nf)%nat -> complete i evs0 /\ positive_responses i evs0.
Variables (out : list (string * evres)) (Rm' : list (string * list (option R))).
Hypothesis OK : align_site_responses pick rlm lsq events Rm station resp ignore = Ok (out, Rm').
Let sorted := sort_events events.
Let evs := map snd sorted.
Let E1 := map snd out.

Lemma len1 : List.length E1 = List.length evs.
Proof.
  destruct (align_inv pick rlm lsq events Rm station resp ignore Nf WF0 out Rm' OK) as (sols & evs' & _ & _ & _ & _ & _ & HO & HL).
  unfold E1. rewrite (out_snd events out evs' HO HL). exact HL.
Qed.

Lemma wf1 : Forall (well_formed Nf) E1.
Proof.
  destruct (align_inv pick rlm lsq events Rm station resp ignore Nf WF0 out Rm' OK) as (sols & evs' & _ & _ & _ & HR & _ & HO & HL).
  unfold E1. rewrite (out_snd events out evs' HO HL). destruct (rescale_spec _ _ _ _ _ (WF events Nf WF0) HR) as (_ & WF' & _). exact WF'.
Qed.

Lemma keys1 k : (0 < Nf)%nat -> (k < List.length evs)%nat -> map fst (evR (nth k E1 ev0)) = map fst (evR (nth k evs ev0)).
Proof.
  intros Hn Hk.
  destruct (align_inv pick rlm lsq events Rm station resp ignore Nf WF0 out Rm' OK) as (sols & evs' & _ & _ & _ & HR & _ & HO & HL).
  unfold E1. rewrite (out_snd events out evs' HO HL). destruct (rescale_spec _ _ _ _ _ (WF events Nf WF0) HR) as (_ & _ & HK).
  destruct (HK k Hk) as [C _]. destruct (C 0%nat Hn) as [C0 _]. fold sorted evs in C0.
  apply (f_equal (map fst)) in C0. unfold newcol, col in C0. rewrite !map_map in C0. cbn [fst] in C0. exact C0.
Qed.

Lemma outcome1 i : (i < Nf)%nat -> 
  (forall k s, (k < List.length evs)%nat -> response_of (nth k evs ev0) i s = None /\ response_of (nth k E1 ev0) i s = None /\
      energy_of (nth k E1 ev0) i = None) /\ (forall s, ~ observed evs ignore i s) \/
  exists area x rows r, is_largest_area evs ignore i area /\ response_at resp i = Ok r /\
    align_rows station (nstations evs i) r (observations evs i area) = Ok rows /\
    (forall y, sse rows x <= sse rows y) /\
    forall k, (k < List.length evs)%nat ->
      (forall s, response_of (nth k E1 ev0) i s =
         if inb String.eqb s area then option_map (fun v => v * exp (x k)) (response_of (nth k evs ev0) i s) else None) /\
      (forall w', energy_of (nth k E1 ev0) i = Some w' <->
         exists w s, energy_of (nth k evs ev0) i = Some w /\ response_of (nth k E1 ev0) i s <> None /\ w' = w / exp (x k)).
Proof.
  intros Hi. destruct (align_outcome pick rlm lsq pickP lsqP events Rm station resp ignore Nf WF0 out Rm' OK i Hi (proj1 (HG i Hi)))
    as (evs' & HO & HL & _ & OC). unfold E1. now rewrite (out_snd events out evs' HO HL).
Qed.

Lemma resp1 k i s : (i < Nf)%nat -> (k < List.length evs)%nat -> forall v', response_of (nth k E1 ev0) i s = Some v' ->
  exists v f, response_of (nth k evs ev0) i s = Some v /\ 0 < f /\ v' = v * f.
Proof.
  intros Hi Hk v' H. destruct (outcome1 i Hi) as [[H0 _]|(area & x & rows & r & _ & _ & _ & _ & HK)].
  - destruct (H0 k s Hk) as (_ & E & _). congruence.
  - destruct (HK k Hk) as [HR _]. rewrite HR in H. destruct (inb String.eqb s area); [|discriminate].
    destruct (response_of (nth k evs ev0) i s) as [v|]; [|discriminate]. cbn in H. injection H as <-. exists v, (exp (x k)). split; [reflexivity|].
    split; [apply exp_pos|reflexivity].
Qed.

Lemma good1 i : (i < Nf)%nat -> complete i E1 /\ positive_responses i E1.
Proof.
  intros Hi. split.
  - intros ev s Hev Hr. apply (In_nth _ _ ev0) in Hev as (k & Hk & <-). rewrite len1 in Hk.
    destruct (outcome1 i Hi) as [[H0 _]|(area & x & rows & r & _ & _ & _ & _ & HK)].
    + destruct (H0 k s Hk) as (_ & E & _). congruence.
    + destruct (HK k Hk) as [HR HW].
      assert (X : energy_of (nth k evs ev0) i <> None).
      { apply (proj1 (HG i Hi) (nth k evs ev0) s); [apply (evs_In events); apply nth_In; exact Hk|].
        intros E. rewrite HR, E in Hr. destruct (inb String.eqb s area); cbn in Hr; congruence. }
      destruct (energy_of (nth k evs ev0) i) as [w|]; [|congruence].
      assert (Y : energy_of (nth k E1 ev0) i = Some (w / exp (x k))) by (apply HW; exists w, s; auto). congruence.
  - intros ev s r Hev Hr. apply (In_nth _ _ ev0) in Hev as (k & Hk & <-). rewrite len1 in Hk.
    destruct (resp1 k i s Hi Hk r Hr) as (v & f & Hv & Hf & ->). apply Rmult_lt_0_compat; [|exact Hf].
    apply (proj2 (HG i Hi) (nth k evs ev0) s v); [apply (evs_In events); apply nth_In; exact Hk|exact Hv].
Qed.

Lemma sorted1 : sort_events (as_input out) = out.
Proof. apply sorted_input. exact (proj1 (align_sorted pick rlm lsq events Rm station resp ignore out Rm' OK)). Qed.

(** responses at a frequency with an area *)
Section Area.
Variables (i : nat) (area : list string) (x : nat -> R).
Hypothesis Hi : (i < Nf)%nat.
Hypothesis LA : is_largest_area evs ignore i area.
Hypothesis HR : forall k s, (k < List.length evs)%nat -> response_of (nth k E1 ev0) i s =
  if inb String.eqb s area then option_map (fun v => v * exp (x k)) (response_of (nth k evs ev0) i s) else None.

Lemma left1 s k : (k < List.length evs)%nat -> In s area -> (response_of (nth k E1 ev0) i s <> None <-> response_of (nth k evs ev0) i s <> None).
Proof.
  intros Hk Hs. rewrite HR by exact Hk. apply inb_str in Hs. rewrite Hs. destruct (response_of (nth k evs ev0) i s); cbn; split; congruence.
Qed.

Lemma in_area1 s k : (k < List.length evs)%nat -> response_of (nth k E1 ev0) i s <> None -> In s area.
Proof. intros Hk. rewrite HR by exact Hk. destruct (inb String.eqb s area) eqn:E; [intros _; now apply inb_str|congruence]. Qed.

Lemma observed1 s : observed E1 ignore i s <-> In s area.
Proof.
  split.
  - intros (_ & ev & Hev & Hr). apply (In_nth _ _ ev0) in Hev as (k & Hk & <-). rewrite len1 in Hk. exact (in_area1 s k Hk Hr).
  - intros Hs. destruct (proj2 (proj2 (proj1 LA)) s Hs) as ((Hi1 & ev & Hev & Hr) & _). split; [exact Hi1|].
    apply (In_nth _ _ ev0) in Hev as (k & Hk & <-). exists (nth k E1 ev0). split; [apply nth_In; rewrite len1; exact Hk|]. now apply left1.
Qed.

Lemma connected1 a b : connected evs ignore i a b -> In a area -> connected E1 ignore i a b.
Proof.
  assert (HA := proj2 (proj2 (proj1 LA))).
  induction 1 as [a b HE|a|a u b H1 IH1 H2 IH2]; intros Ha.
  - assert (Hb : In b area) by (apply (proj2 (HA a Ha)); now apply rt_step). apply rt_step.
    destruct HE as (Ia & Ib & ev & Hev & Ra & Rb). split; [exact Ia|]. split; [exact Ib|].
    apply (In_nth _ _ ev0) in Hev as (k & Hk & <-). exists (nth k E1 ev0). split; [apply nth_In; rewrite len1; exact Hk|].
    split; apply left1; auto.
  - apply rt_refl.
  - eapply rt_trans; [now apply IH1|]. apply IH2. now apply (proj2 (HA a Ha)).
Qed.

Lemma area1 b : is_largest_area E1 ignore i b -> forall s, In s b <-> In s area.
Proof.
  intros ((_ & Nb & HB) & _). destruct b as [|s0 b]; [congruence|].
  destruct (HB s0 (or_introl eq_refl)) as [O0 C0]. apply observed1 in O0. intros s. split.
  - intros Hs. apply observed1. now apply HB.
  - intros Hs. apply C0. apply connected1; [|exact O0]. apply (proj2 (proj2 (proj2 (proj1 LA)) s0 O0)). exact Hs.
Qed.

Lemma observations1 b : (forall s, In s b <-> In s area) ->
  observations E1 i b = map (gobs (fun k => exp (x k))) (observations evs i area).
Proof.
  intros HB. rewrite (observations_keys E1 i b (wf_unique Nf E1 wf1)), (observations_keys evs i area (uniq events Nf WF0)).
  assert (Hn : (0 < Nf)%nat) by lia.
  rewrite map_flat_map. pose proof len1 as LL.
  transitivity (flat_map (fun k => key_obs b i (k, nth k E1 ev0)) (seq 0 (List.length E1))).
  { rewrite <- (flat_map_seq (fun k ev => key_obs b i (k, ev))). apply flat_map_ext_in. intros [k ev] _. reflexivity. }
  transitivity (flat_map (fun k => map (gobs (fun k => exp (x k))) (key_obs area i (k, nth k evs ev0))) (seq 0 (List.length evs))).
  2:{ rewrite <- (flat_map_seq (fun k ev => map (gobs (fun k => exp (x k))) (key_obs area i (k, ev)))). apply flat_map_ext_in. intros [k ev] _. reflexivity. }
  rewrite LL. apply flat_map_ext_in. intros k Hk. apply in_seq in Hk. unfold key_obs. cbn [fst snd]. rewrite (keys1 k Hn) by lia.
  rewrite map_flat_map. apply flat_map_ext_in. intros s _.
  assert (BE : inb String.eqb s b = inb String.eqb s area) by (apply eq_true_iff_eq; rewrite !inb_str; apply HB).
  rewrite BE, HR by lia. destruct (inb String.eqb s area); [|reflexivity]. cbn [negb].
  destruct (response_of (nth k evs ev0) i s); reflexivity.
Qed.

Lemma nstations1 s : In s area -> nstations E1 i s = nstations evs i s.
Proof.
  intros Hs. rewrite (nstations_responses E1 i s (wf_unique Nf E1 wf1)), (nstations_responses evs i s (uniq events Nf WF0)).
  rewrite !responses_seq, len1. 
  assert (G : forall l, (forall k, In k l -> (k < List.length evs)%nat) ->
    List.length (flat_map (fun k => match response_of (nth k E1 ev0) i s with Some r => [r] | None => [] end) l) =
    List.length (flat_map (fun k => match response_of (nth k evs ev0) i s with Some r => [r] | None => [] end) l)).
  { induction l as [|k l IH]; intros H; [reflexivity|]. cbn [flat_map]. rewrite !app_length, IH by (intros; apply H; now right). f_equal.
    rewrite HR by (apply H; now left). apply inb_str in Hs. rewrite Hs. destruct (response_of (nth k evs ev0) i s); reflexivity. }
  apply G. intros k Hk. apply in_seq in Hk. lia.
Qed.
End Area.

(** the second run succeeds *)
Lemma second_ok pick' rlm' lsq' Rm1 : chooses_member pick' ->
  exists out2 Rm2, align_site_responses pick' rlm' lsq' (as_input out) Rm1 station resp ignore = Ok (out2, Rm2).
Proof.
  intros pickP'.
  assert (W2 : Forall (well_formed Nf) (map snd (present_events (as_input out)))) by (rewrite present_input; exact wf1).
  apply (align_ok_chosen pick' rlm' lsq' pickP' (as_input out) Rm1 station resp ignore Nf W2); [rewrite present_input; fold E1|rewrite sorted1; fold E1].
  - intros E. assert (L := len1). rewrite E in L.
    destruct (align_inv pick rlm lsq events Rm station resp ignore Nf WF0 out Rm' OK) as (_ & _ & Hne & _). fold sorted evs in Hne.
    destruct evs; [congruence|discriminate].
  - intros i Hi. assert (LB := largest_area pick' pickP' E1 ignore i (wf_unique Nf E1 wf1)).
    destruct (largest (find_areas pick' E1 i ignore)) as [b|].
    + destruct (outcome1 i Hi) as [[H0 _]|(area & x & rows & r & LA & ER & EA & _ & HK)].
      * exfalso. destruct LB as ((_ & Nb & HB) & _). destruct b as [|s b]; [congruence|]. destruct (HB s (or_introl eq_refl)) as [(_ & ev & Hev & Hr) _].
        apply (In_nth _ _ ev0) in Hev as (k & Hk & <-). rewrite len1 in Hk. destruct (H0 k s Hk) as (_ & E & _). congruence.
      * split; [now exists r|]. assert (HR := fun k s Hk => proj1 (HK k Hk) s). assert (AB := area1 i area x LA HR b LB).
        destruct (existsb (norm_station station) area) eqn:EX.
        -- apply existsb_exists in EX as (s & Hs & N). exists s. split; [now apply AB|exact N].
        -- exfalso. assert (Z := align_rows_unused events station ignore Nf WF0 area i r LA). fold sorted evs in Z. rewrite EA in Z.
           assert (H : forall s, In s area -> norm_station station s = false).
           { intros s Hs. destruct (norm_station station s) eqn:N; [|reflexivity].
             assert (X : existsb (norm_station station) area = true) by (apply existsb_exists; eauto). congruence. }
           apply Z in H. discriminate.
    + intros ev s Hev. destruct (outcome1 i Hi) as [[H0 _]|(area & x & rows & r & LA & _ & _ & _ & HK)].
      * apply (In_nth _ _ ev0) in Hev as (k & Hk & <-). rewrite len1 in Hk. apply (H0 k s Hk).
      * exfalso. assert (HR := fun k s Hk => proj1 (HK k Hk) s). destruct (proj1 LA) as (_ & Nb & _). destruct area as [|t area]; [congruence|].
        apply (LB t). apply (observed1 i _ x LA HR). now left.
Qed.

(** the second run changes nothing *)
Section Second.
Variables (pick' : list string -> string) (rlm' : list R -> R * R) (lsq' : nat -> list (list (nat * R) * R) -> nat -> R).
Hypothesis pickP' : chooses_member pick'.
Hypothesis lsqP' : least_squares lsq'.
Variables (Rm1 : option (list (string * list (option R)))) (out2 : list (string * evres)) (Rm2 : list (string * list (option R))).
Hypothesis OK2 : align_site_responses pick' rlm' lsq' (as_input out) Rm1 station resp ignore = Ok (out2, Rm2).

Lemma wf_input : Forall (well_formed Nf) (map snd (present_events (as_input out))).
Proof. rewrite present_input. exact wf1. Qed.

Lemma good_input i : (i < Nf)%nat -> complete i (map snd (present_events (as_input out))) /\ positive_responses i (map snd (present_events (as_input out))).
Proof. rewrite present_input. exact (good1 i). Qed.

Lemma again_frequency i : (i < Nf)%nat -> forall k, (k < List.length evs)%nat ->
  energy_of (nth k E1 ev0) i = energy_of (nth k (map snd out2) ev0) i /\
  forall s, response_of (nth k E1 ev0) i s = response_of (nth k (map snd out2) ev0) i s.
Proof.
  intros Hi.
  destruct (align_outcome pick' rlm' lsq' pickP' lsqP' (as_input out) Rm1 station resp ignore Nf wf_input out2 Rm2 OK2 i Hi (proj1 (good_input i Hi)))
    as (E2 & HO2 & HL2 & _ & C2).
  rewrite (out_snd (as_input out) out2 E2 HO2 HL2). unfold outcome in C2. rewrite sorted1 in C2, HL2. fold E1 in C2, HL2. clear HO2.
  assert (LL := len1).
  destruct (outcome1 i Hi) as [[H0 _]|(area & x & rows & r & LA & ER & EA & Hmin & HK)].
  - destruct C2 as [[H2 _]|(b & _ & _ & _ & LB & _)].
    + intros k Hk. split; [|intros s].
      * destruct (H0 k ""%string Hk) as (_ & _ & ->). destruct (H2 k ""%string ltac:(lia)) as (_ & _ & ->). reflexivity.
      * destruct (H0 k s Hk) as (_ & -> & _). destruct (H2 k s ltac:(lia)) as (_ & -> & _). reflexivity.
    + exfalso. destruct LB as ((_ & Nb & HB) & _). destruct b as [|s b]; [congruence|]. destruct (HB s (or_introl eq_refl)) as [(_ & ev & Hev & Hr) _].
      apply (In_nth _ _ ev0) in Hev as (k & Hk & <-). rewrite len1 in Hk. destruct (H0 k s Hk) as (_ & E & _). congruence.
  - assert (HR := fun k s Hk => proj1 (HK k Hk) s).
    destruct C2 as [[_ H2]|(b & x' & rows' & r' & LB & ER' & EA' & Hmin' & HK')].
    { exfalso. destruct (proj1 LA) as (_ & Nb & _). destruct area as [|t area]; [congruence|].
      apply (H2 t). apply (observed1 i _ x LA HR). now left. }
    rewrite ER in ER'. injection ER' as <-.
    assert (AB := area1 i area x LA HR b LB).
    rewrite (observations1 i area x Hi HR b AB) in EA'. set (A := fun k => exp (x k)) in *.
    rewrite (align_rows_nsta station (nstations E1 i) (nstations evs i)) in EA'.
    2:{ intros o Ho. apply in_map_iff in Ho as (o' & <- & Ho). cbn [gobs osta]. apply (nstations1 i area x Hi HR).
        apply (observations_response _ _ _ _ (uniq events Nf WF0)) in Ho as (ev & _ & H & _). exact H. }
    assert (APos : forall k, 0 < A k) by (intros k; apply exp_pos).
    assert (PO : forall o, In o (observations evs i area) -> 0 < oval o).
    { intros o Ho. exact (positive_obs events Nf WF0 i area o (proj2 (HG i Hi)) Ho). }
    assert (SSE := fun y => sse_gobs station (nstations evs i) A APos r (observations evs i area) rows rows' y PO EA EA').
    assert (Hmin2 : forall z, sse rows (fun k => x' k + ln (A k)) <= sse rows z).
    { intros z. rewrite <- SSE. eapply Rle_trans; [apply (Hmin' (fun k => z k - ln (A k)))|]. rewrite SSE. right. f_equal.
      apply functional_extensionality. intros k. ring. }
    assert (UQ := minima_equal station evs ignore i area r rows x _ (uniq events Nf WF0) LA EA Hmin Hmin2).
    intros k Hk. destruct (HK k Hk) as [_ HW]. destruct (HK' k ltac:(lia)) as [HR' HW'].
    assert (XS : forall s, response_of (nth k E1 ev0) i s <> None -> exp (x' k) = 1).
    { intros s Hs. rewrite HR in Hs by exact Hk. destruct (inb String.eqb s area) eqn:Ea; [|congruence]. apply inb_str in Ea.
      destruct (response_of (nth k evs ev0) i s) as [v|] eqn:EV; [|cbn in Hs; congruence].
      assert (Ho : In {| oev := k; osta := s; oval := v |} (observations evs i area)).
      { apply (observations_response _ _ _ _ (uniq events Nf WF0)). exists (nth k evs ev0). cbn. split; [now apply nth_error_nth'|auto]. }
      specialize (UQ _ Ho). cbn [oev] in UQ. unfold A in UQ. rewrite ln_exp in UQ. replace (x' k) with 0 by lra. apply exp_0. }
    assert (RE : forall s, response_of (nth k E1 ev0) i s = response_of (nth k E2 ev0) i s).
    { intros s. rewrite HR'. specialize (XS s). destruct (response_of (nth k E1 ev0) i s) as [v|] eqn:EV.
      - assert (Hs : In s b) by (apply AB; apply (in_area1 i area x HR s k Hk); congruence). apply inb_str in Hs. rewrite Hs. cbn [option_map].
        rewrite XS by discriminate. f_equal. ring.
      - now destruct (inb String.eqb s b). }
    split; [|exact RE]. apply option_equal. intros w'. rewrite HW'. split.
    + intros H. assert (H' := H). apply HW in H' as (w & s & _ & Hs & _). exists w', s. split; [exact H|]. rewrite <- RE. split; [exact Hs|].
      rewrite (XS s Hs). field.
    + intros (w & s & Hw & Hs & ->). rewrite <- RE in Hs. rewrite Hw, (XS s Hs). f_equal. field.
Qed.

Lemma again_values : same_values Nf out out2.
Proof.
  destruct (align_inv pick' rlm' lsq' (as_input out) Rm1 station resp ignore Nf wf_input out2 Rm2 OK2) as (_ & E2 & _ & _ & _ & _ & _ & HO2 & HL2).
  assert (S2 := out_snd (as_input out) out2 E2 HO2 HL2). assert (TF := again_frequency). rewrite S2 in TF.
  rewrite sorted1 in HO2, HL2. rewrite HO2. assert (O1 : out = combine (map fst out) E1).
  { unfold E1. clear. induction out as [|[a b] l IH]; [reflexivity|]. cbn. now rewrite <- IH. }
  assert (LL := len1). assert (LE : List.length E1 = List.length out) by (unfold E1; apply map_length).
  assert (LO : List.length E2 = List.length out) by (rewrite HL2; apply map_length).
  unfold same_values. rewrite O1 at 1.
  apply (Forall2_combine (fun e1 e2 => forall i, (i < Nf)%nat -> energy_of e1 i = energy_of e2 i /\ forall s, response_of e1 i s = response_of e2 i s) ev0);
    [rewrite map_length; lia|rewrite map_length; lia|].
  intros k Hk i Hi. rewrite map_length in Hk. apply TF; [exact Hi|lia].
Qed.

Lemma again_responses i s : (i < Nf)%nat -> responses (map snd out) i s = responses (map snd out2) i s.
Proof.
  intros Hi. pose proof again_values as F. unfold same_values in F. clear - F Hi. unfold responses.
  induction F as [|p q l l' [_ H] _ IH]; [reflexivity|]. cbn [map flat_map]. now rewrite (proj2 (H i Hi) s), IH.
Qed.
End Second.

Lemma again_means pick' lsq' out2 Rm2 : chooses_member pick' -> least_squares lsq' ->
  align_site_responses pick' rlm lsq' (as_input out) (Some Rm') station resp ignore = Ok (out2, Rm2) ->
  forall s, dget String.eqb Rm2 s = dget String.eqb Rm' s.
Proof.
  intros pickP' lsqP' OK2 s.
  assert (RE := fun i => again_responses pick' rlm lsq' pickP' lsqP' (Some Rm') out2 Rm2 OK2 i s).
  destruct (align_means pick rlm lsq pickP events Rm station resp ignore Nf WF0 out Rm' lsqP OK HG s) as [A1 B1].
  destruct (align_means pick' rlm lsq' pickP' (as_input out) (Some Rm') station resp ignore Nf wf_input out2 Rm2 lsqP' OK2 good_input s) as [A2 B2].
  destruct (existsb (fun i => match responses (map snd out) i s with [] => false | _ => true end) (seq 0 Nf)) eqn:E.
  - apply existsb_exists in E as (i & Hi & N). apply in_seq in Hi.
    assert (N1 : responses (map snd out) i s <> []) by (intros X; rewrite X in N; discriminate).
    destruct A1 as (l1 & D1 & L1 & G1); [exists i; split; [lia|exact N1]|].
    destruct A2 as (l2 & D2 & L2 & G2); [exists i; split; [lia|rewrite <- RE by lia; exact N1]|].
    rewrite D1, D2. f_equal. apply (nth_ext _ _ None None); [lia|]. intros j Hj.
    destruct (G1 j ltac:(lia)) as [X1 _]. destruct (G2 j ltac:(lia)) as [X2 _]. rewrite <- RE in X2 by lia. rewrite X1 in X2. congruence.
  - assert (Z : forall i, (i < Nf)%nat -> responses (map snd out) i s = []).
    { intros i Hi. destruct (responses (map snd out) i s) eqn:R; [reflexivity|]. exfalso.
      assert (X : existsb (fun i => match responses (map snd out) i s with [] => false | _ => true end) (seq 0 Nf) = true).
      { apply existsb_exists. exists i. split; [apply in_seq; lia|]. now rewrite R. }
      congruence. }
    rewrite B2; [reflexivity|]. intros i Hi. rewrite <- RE by exact Hi. now apply Z.
Qed.
End Run.

(** aligning twice *)
Lemma again_returns pick rlm lsq : chooses_member pick -> least_squares lsq ->
  forall events Rm station resp ignore Nf, Forall (well_formed Nf) (map snd (present_events events)) ->
  (forall i, (i < Nf)%nat -> complete i (map snd (present_events events)) /\ positive_responses i (map snd (present_events events))) ->
  forall out Rm',
  align_site_responses pick rlm lsq events Rm station resp ignore = Ok (out, Rm') ->
  forall pick' rlm' lsq' Rm1, chooses_member pick' ->
  exists out2 Rm2, align_site_responses pick' rlm' lsq' (as_input out) Rm1 station resp ignore = Ok (out2, Rm2).
Proof.
  intros Hp Hl events Rm station resp ignore Nf WF0 HG out Rm' OK pick' rlm' lsq' Rm1 Hp'.
  eapply (second_ok pick rlm lsq) with (events := events) (Rm := Rm) (Nf := Nf) (Rm' := Rm'); eauto.
Qed.

Lemma again_same pick rlm lsq : chooses_member pick -> least_squares lsq ->
  forall events Rm station resp ignore Nf, Forall (well_formed Nf) (map snd (present_events events)) ->
  (forall i, (i < Nf)%nat -> complete i (map snd (present_events events)) /\ positive_responses i (map snd (present_events events))) ->
  forall out Rm', align_site_responses pick rlm lsq events Rm station resp ignore = Ok (out, Rm') ->
  forall pick' rlm' lsq' Rm1 out2 Rm2, chooses_member pick' -> least_squares lsq' ->
  align_site_responses pick' rlm' lsq' (as_input out) Rm1 station resp ignore = Ok (out2, Rm2) ->
  same_values Nf out out2.
Proof. intros Hp Hl events Rm station resp ignore Nf WF0 HG out Rm' OK pick' rlm' lsq' Rm1 out2 Rm2 Hp' Hl' OK2. eapply (again_values pick rlm lsq) with (events := events) (Rm := Rm) (Nf := Nf) (Rm' := Rm'); eauto. Qed.

Lemma again_same_means pick rlm lsq : chooses_member pick -> least_squares lsq ->
  forall events Rm station resp ignore Nf, Forall (well_formed Nf) (map snd (present_events events)) ->
  (forall i, (i < Nf)%nat -> complete i (map snd (present_events events)) /\ positive_responses i (map snd (present_events events))) ->
  forall out Rm', align_site_responses pick rlm lsq events Rm station resp ignore = Ok (out, Rm') ->
  forall pick' lsq' out2 Rm2, chooses_member pick' -> least_squares lsq' ->
  align_site_responses pick' rlm lsq' (as_input out) (Some Rm') station resp ignore = Ok (out2, Rm2) ->
  forall s, dget String.eqb Rm2 s = dget String.eqb Rm' s.
Proof. intros Hp Hl events Rm station resp ignore Nf WF0 HG out Rm' OK pick' lsq' out2 Rm2 Hp' Hl' OK2. eapply (again_means pick rlm lsq) with (events := events) (Rm := Rm) (Nf := Nf); eauto. Qed.
