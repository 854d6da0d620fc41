(** C141: the alignment does not depend on factors of the events nor on the solver. *)
From Coq Require Import String List Bool Reals Arith Lia Lra Permutation Relation_Operators FunctionalExtensionality.
From Verif Require Import Base PySort Pyf StatModel StatProof SiteModel SiteSpec MergeProof SiteProof SiteProof2 SiteProof3 SiteProof4 SiteProof5 SiteProof6 SiteProof7
  GaugeSpec GaugeProof GaugeProof2.
Import ListNotations.
Open Scope list_scope.
Open Scope R_scope.

(** the unknowns of events observed in the area are determined *)
Lemma minima_equal station evs ignore i area r rows x y : unique_stations evs -> is_largest_area evs ignore i area ->
  align_rows station (nstations evs i) r (observations evs i area) = Ok rows ->
  (forall z, sse rows x <= sse rows z) -> (forall z, sse rows y <= sse rows z) ->
  forall o, In o (observations evs i area) -> x (oev o) = y (oev o).
Proof.
  intros U LA EA Hx Hy o Ho.
  assert (CNT := fun o => observations_count evs i area o U).
  assert (MR := minima_rows rows x y Hx Hy). apply align_rows_ok in EA as [-> Hne].
  set (l := observations evs i area) in *.
  assert (SS : forall o1 o2, In o1 l -> In o2 l -> osta o1 = osta o2 -> x (oev o1) - y (oev o1) = x (oev o2) - y (oev o2)).
  { intros o1 o2. apply (rows_same_equal station (nstations evs i) x y l o1 o2). intros row Hr. apply MR, in_or_app. now left. }
  assert (HA := proj2 (proj2 (proj1 LA))).
  assert (HO : forall s, In s area -> exists o, In o l /\ osta o = s).
  { intros s Hs. destruct (HA s Hs) as ((_ & ev & Hev & Hr) & _).
    apply (In_nth _ _ ev0) in Hev as (k & Hk & E). destruct (response_of ev i s) as [v|] eqn:EV; [|congruence].
    exists {| oev := k; osta := s; oval := v |}. split; [|reflexivity].
    apply (observations_response _ _ _ _ U). exists ev. cbn. rewrite <- E at 1. split; [now apply nth_error_nth'|]. auto. }
  assert (CH : forall a b, connected evs ignore i a b -> In a area -> forall o1 o2, In o1 l -> In o2 l -> osta o1 = a -> osta o2 = b ->
    x (oev o1) - y (oev o1) = x (oev o2) - y (oev o2)).
  { induction 1 as [a b HE|a|a u b H1 IH1 H2 IH2]; intros Ha o1 o2 Ho1 Ho2 E1 E2.
    - destruct (HA a Ha) as (_ & HB). assert (Hb : In b area) by (apply HB; now apply rt_step).
      destruct HE as (_ & _ & ev & Hev & Ra & Rb).
      apply (In_nth _ _ ev0) in Hev as (k & Hk & Ek).
      destruct (response_of ev i a) as [va|] eqn:Va; [|congruence]. destruct (response_of ev i b) as [vb|] eqn:Vb; [|congruence].
      assert (Hkn : nth_error evs k = Some ev) by (rewrite <- Ek; now apply nth_error_nth').
      assert (Oa : In {| oev := k; osta := a; oval := va |} l) by (apply (observations_response _ _ _ _ U); exists ev; auto).
      assert (Ob : In {| oev := k; osta := b; oval := vb |} l) by (apply (observations_response _ _ _ _ U); exists ev; auto).
      transitivity (x k - y k); [exact (SS _ _ Ho1 Oa E1)|]. symmetry. exact (SS _ _ Ho2 Ob E2).
    - apply SS; auto. congruence.
    - destruct (HA a Ha) as (_ & HB). assert (Hu : In u area) by now apply HB.
      destruct (HO u Hu) as (o' & Ho' & Eo). transitivity (x (oev o') - y (oev o')); [now apply IH1|now apply IH2]. }
  assert (AR : forall o', In o' l -> In (osta o') area).
  { intros o' Ho'. apply (observations_response _ _ _ _ U) in Ho' as (ev & _ & H & _). exact H. }
  set (c := x (oev o) - y (oev o)).
  assert (C0 : forall o', In o' l -> x (oev o') - y (oev o') = c).
  { intros o' Ho'. apply (CH (osta o') (osta o)); auto. destruct (HA (osta o') (AR o' Ho')) as (_ & HB). apply HB. now apply AR. }
  assert (NR : row_value (norm_row station (nstations evs i) r l) x = row_value (norm_row station (nstations evs i) r l) y)
    by (apply MR, in_or_app; right; now left).
  pose proof (no_shift station (nstations evs i) r l x y c Hne CNT C0 NR) as Z.
  unfold c in Z. lra.
Qed.

Lemma Forall2_combine {A B} (P : B -> B -> Prop) (d : B) (F : list A) : forall E1 E2, List.length E1 = List.length F -> List.length E2 = List.length F ->
  (forall k, (k < List.length F)%nat -> P (nth k E1 d) (nth k E2 d)) ->
  Forall2 (fun p q => fst p = fst q /\ P (snd p) (snd q)) (combine F E1) (combine F E2).
Proof.
  induction F as [|f F IH]; intros [|e1 E1] [|e2 E2] L1 L2 H; try discriminate; cbn; [constructor|].
  constructor; [split; [reflexivity|apply (H 0%nat); cbn; lia]|]. apply IH; [cbn in L1; lia|cbn in L2; lia|].
  intros k Hk. apply (H (Datatypes.S k)). cbn. lia.
Qed.

Lemma option_equal {A} (a b : option A) : (forall x, a = Some x <-> b = Some x) -> a = b.
Proof. intros H. destruct a as [x|]; [symmetry; now apply H|]. destruct b as [y|]; [now apply H|reflexivity]. Qed.

Section Two.
Variables (pick : list string -> string) (rlm rlm' : list R -> R * R) (lsq lsq' : nat -> list (list (nat * R) * R) -> nat -> R).
Hypothesis pickP : chooses_member pick.
Hypothesis lsqP : least_squares lsq.
Hypothesis lsqP' : least_squares lsq'.
Variables (events : list (string * option evres)) (Rm0 Rm1 : option (list (string * list (option R))))
  (station : staopt) (resp : response) (ignore : option (list string)) (Nf : nat).
Hypothesis WF0 : Forall (well_formed Nf) (map snd (present_events events)).
Hypothesis HG : forall i, (i < Nf)%nat -> complete i (map snd (present_events events)) /\ positive_responses i (map snd (present_events events)).
Variable a : string -> nat -> R.
Hypothesis aP : forall id i, 0 < a id i.
Variables (out out' : list (string * evres)) (Rm0' Rm1' : list (string * list (option R))).
Hypothesis OK : align_site_responses pick rlm lsq events Rm0 station resp ignore = Ok (out, Rm0').
Hypothesis OK' : align_site_responses pick rlm' lsq' (regauged_events a events) Rm1 station resp ignore = Ok (out', Rm1').
Let sorted := sort_events events.
Let evs := map snd sorted.
Let evs2 := map snd (map (gev a) sorted).

Lemma wf_two : Forall (well_formed Nf) (map snd (present_events (regauged_events a events))).
Proof.
  rewrite present_regauged, map_map. apply Forall_forall. intros ev H. apply in_map_iff in H as (p & <- & Hp). cbn [snd].
  apply wf_regauged. rewrite Forall_forall in WF0. apply WF0. now apply in_map.
Qed.

Lemma complete_two i : (i < Nf)%nat -> complete i (map snd (present_events (regauged_events a events))).
Proof.
  intros Hi ev s H Hr. rewrite present_regauged, map_map in H. apply in_map_iff in H as (p & <- & Hp). cbn [snd] in *.
  unfold gev in *. cbn [snd] in *. rewrite response_regauged in Hr. rewrite energy_regauged.
  destruct (response_of (snd p) i s) eqn:E; [|cbn in Hr; congruence].
  assert (X : energy_of (snd p) i <> None).
  { apply (proj1 (HG i Hi) (snd p) s); [now apply in_map|congruence]. }
  destruct (energy_of (snd p) i); [discriminate|congruence].
Qed.

Lemma nth_two k : (k < List.length evs)%nat -> nth k evs2 ev0 = regauged (a (fst (nth k sorted (""%string, ev0)))) (nth k evs ev0).
Proof.
  intros Hk. unfold evs, evs2 in *. rewrite map_length in Hk. rewrite map_map.
  assert (M := map_nth (fun p => snd (gev a p)) sorted (""%string, ev0) k).
  rewrite (nth_indep _ ev0 (snd (gev a (""%string, ev0)))) by (now rewrite map_length). rewrite M.
  unfold gev. cbn [snd]. f_equal. symmetry. exact (map_nth snd sorted (""%string, ev0) k).
Qed.

Lemma two_frequency i : (i < Nf)%nat -> forall k, (k < List.length evs)%nat ->
  energy_of (nth k (map snd out) ev0) i = energy_of (nth k (map snd out') ev0) i /\
  forall s, response_of (nth k (map snd out) ev0) i s = response_of (nth k (map snd out') ev0) i s.
Proof.
  intros Hi.
  destruct (align_chosen pick rlm lsq pickP lsqP events Rm0 station resp ignore Nf WF0 out Rm0' OK i Hi (proj1 (HG i Hi)))
    as (E1 & HO1 & HL1 & _ & C1).
  destruct (align_chosen pick rlm' lsq' pickP lsqP' (regauged_events a events) Rm1 station resp ignore Nf wf_two out' Rm1' OK' i Hi (complete_two i Hi))
    as (E2 & HO2 & HL2 & _ & C2).
  rewrite (out_snd events out E1 HO1 HL1). rewrite (out_snd (regauged_events a events) out' E2 HO2 HL2).
  unfold chosen in C1, C2. rewrite sorted_regauged in C2, HL2, HO2. fold sorted in C1, C2, HL1, HL2, HO1, HO2. fold evs in C1, HL1. fold evs2 in C2, HL2.
  assert (LL : List.length evs2 = List.length evs) by (unfold evs2, evs; now rewrite !map_length).
  assert (AE : find_areas pick evs2 i ignore = find_areas pick evs i ignore) by apply areas_regauged.
  rewrite AE in C2. destruct (largest (find_areas pick evs i ignore)) as [area|].
  2:{ intros k Hk. split; [|intros s].
      - rewrite (proj2 (C1 k ""%string Hk)), (proj2 (C2 k ""%string ltac:(lia))). reflexivity.
      - rewrite (proj1 (C1 k s Hk)), (proj1 (C2 k s ltac:(lia))). reflexivity. }
  destruct C1 as (x & rows & r & LA & ER & EA & Hmin & HK). destruct C2 as (x' & rows' & r' & _ & ER' & EA' & Hmin' & HK').
  rewrite ER in ER'. injection ER' as <-.
  assert (NS : nstations evs2 i = nstations evs i) by (apply functional_extensionality; intros s; apply nstations_regauged).
  assert (OB : observations evs2 i area = map (gobs (Afac a i sorted)) (observations evs i area)) by apply observations_regauged.
  rewrite NS, OB in EA'. set (A := Afac a i sorted) in *.
  assert (APos : forall k, 0 < A k) by (intros k; unfold A, Afac; destruct (nth_error sorted k); [apply aP|lra]).
  assert (PO : forall o, In o (observations evs i area) -> 0 < oval o).
  { intros o Ho. exact (positive_obs events Nf WF0 i area o (proj2 (HG i Hi)) Ho). }
  assert (SSE := fun y => sse_gobs station (nstations evs i) A APos r (observations evs i area) rows rows' y PO EA EA').
  assert (Hmin2 : forall z, sse rows (fun k => x' k + ln (A k)) <= sse rows z).
  { intros z. rewrite <- SSE. eapply Rle_trans; [apply (Hmin' (fun k => z k - ln (A k)))|]. rewrite SSE. right. f_equal.
    apply functional_extensionality. intros k. ring. }
  assert (UQ := minima_equal station evs ignore i area r rows x _ (uniq events Nf WF0) LA EA Hmin Hmin2).
  assert (AN : forall k, (k < List.length evs)%nat -> A k = a (fst (nth k sorted (""%string, ev0))) i).
  { intros k Hk. unfold A, Afac. unfold evs in Hk. rewrite map_length in Hk. now rewrite (nth_error_nth' sorted (""%string, ev0) Hk). }
  assert (XK : forall k s v, (k < List.length evs)%nat -> In s area -> response_of (nth k evs ev0) i s = Some v -> exp (x k) = A k * exp (x' k)).
  { intros k s v Hk Hs Hv. assert (Ho : In {| oev := k; osta := s; oval := v |} (observations evs i area)).
    { apply (observations_response _ _ _ _ (uniq events Nf WF0)). exists (nth k evs ev0). cbn. split; [now apply nth_error_nth'|auto]. }
    specialize (UQ _ Ho). cbn [oev] in UQ. rewrite UQ, exp_plus, exp_ln by auto. ring. }
  intros k Hk. destruct (HK k Hk) as [HR HW]. destruct (HK' k ltac:(lia)) as [HR' HW'].
  assert (RE : forall s, response_of (nth k E1 ev0) i s = response_of (nth k E2 ev0) i s).
  { intros s. rewrite HR, HR', (nth_two k Hk), response_regauged, <- (AN k Hk). destruct (inb String.eqb s area) eqn:Ea; [|reflexivity].
    apply inb_str in Ea. destruct (response_of (nth k evs ev0) i s) as [v|] eqn:EV; [|reflexivity]. cbn [option_map].
    rewrite (XK k s v Hk Ea EV). f_equal. ring. }
  split; [|exact RE]. apply option_equal. intros w'. rewrite HW, HW', (nth_two k Hk), energy_regauged, <- (AN k Hk).
  assert (XS : forall s, response_of (nth k E1 ev0) i s <> None -> exp (x k) = A k * exp (x' k)).
  { intros s Hs. rewrite HR in Hs. destruct (inb String.eqb s area) eqn:Ea; [|congruence]. apply inb_str in Ea.
    destruct (response_of (nth k evs ev0) i s) as [v|] eqn:EV; [|cbn in Hs; congruence]. exact (XK k s v Hk Ea EV). }
  pose proof (APos k) as Pk. pose proof (exp_pos (x' k)) as Pe.
  split.
  - intros (w & s & Hw & Hs & ->). exists (w * / A k), s. rewrite Hw. split; [reflexivity|]. rewrite <- RE. split; [exact Hs|].
    rewrite (XS s Hs). field. lra.
  - intros (w2 & s & Hw & Hs & ->). destruct (energy_of (nth k evs ev0) i) as [w|]; [|discriminate]. cbn [option_map] in Hw.
    apply Some_inj in Hw. subst w2. rewrite <- RE in Hs. exists w, s. split; [reflexivity|]. split; [exact Hs|]. rewrite (XS s Hs). field. lra.
Qed.

Lemma two_runs : same_values Nf out out'.
Proof.
  destruct (align_inv pick rlm lsq events Rm0 station resp ignore Nf WF0 out Rm0' OK) as (_ & E1 & _ & _ & _ & _ & _ & HO1 & HL1).
  destruct (align_inv pick rlm' lsq' (regauged_events a events) Rm1 station resp ignore Nf wf_two out' Rm1' OK') as (_ & E2 & _ & _ & _ & _ & _ & HO2 & HL2).
  assert (S1 := out_snd events out E1 HO1 HL1). assert (S2 := out_snd (regauged_events a events) out' E2 HO2 HL2).
  assert (TF := two_frequency). rewrite S1, S2 in TF.
  rewrite sorted_regauged in HO2, HL2. fold sorted in HO1, HO2, HL1, HL2. fold evs in HL1.
  assert (FS : map fst (map (gev a) sorted) = map fst sorted) by (rewrite map_map; reflexivity).
  rewrite FS in HO2. rewrite !map_length in HL2. rewrite HO1, HO2. unfold same_values.
  assert (LE : List.length evs = List.length sorted) by (unfold evs; apply map_length).
  apply (Forall2_combine (fun e1 e2 => forall i, (i < Nf)%nat -> energy_of e1 i = energy_of e2 i /\ forall s, response_of e1 i s = response_of e2 i s) ev0);
    [rewrite map_length; lia|rewrite map_length; lia|].
  intros k Hk i Hi. rewrite map_length in Hk. apply TF; [exact Hi|lia].
Qed.

Lemma two_responses i s : (i < Nf)%nat -> responses (map snd out) i s = responses (map snd out') i s.
Proof.
  intros Hi. pose proof two_runs as F. unfold same_values in F. clear - F Hi. unfold responses.
  induction F as [|p q l l' [_ H] _ IH]; [reflexivity|]. cbn [map flat_map]. now rewrite (proj2 (H i Hi) s), IH.
Qed.

Lemma positive_two i : (i < Nf)%nat -> positive_responses i (map snd (present_events (regauged_events a events))).
Proof.
  intros Hi ev s r H Hr. rewrite present_regauged, map_map in H. apply in_map_iff in H as (p & <- & Hp).
  unfold gev in *. cbn [snd] in *. rewrite response_regauged in Hr.
  destruct (response_of (snd p) i s) as [v|] eqn:E; [|discriminate]. cbn in Hr. injection Hr as <-.
  apply Rmult_lt_0_compat; [|apply aP]. apply (proj2 (HG i Hi) (snd p) s v); [now apply in_map|exact E].
Qed.
End Two.

(** mean site responses *)
Lemma two_means pick rlm lsq lsq' : chooses_member pick -> least_squares lsq -> least_squares lsq' ->
  forall events Rm station resp ignore Nf, Forall (well_formed Nf) (map snd (present_events events)) ->
  (forall i, (i < Nf)%nat -> complete i (map snd (present_events events)) /\ positive_responses i (map snd (present_events events))) ->
  forall a : string -> nat -> R, (forall id i, 0 < a id i) -> forall out out' Rm0' Rm1',
  align_site_responses pick rlm lsq events Rm station resp ignore = Ok (out, Rm0') ->
  align_site_responses pick rlm lsq' (regauged_events a events) Rm station resp ignore = Ok (out', Rm1') ->
  forall s, dget String.eqb Rm0' s = dget String.eqb Rm1' s.
Proof.
  intros pickP lsqP lsqP' events Rm station resp ignore Nf WF0 HG a aP out out' Rm0' Rm1' OK OK' s.
  assert (RE := fun i => two_responses pick rlm rlm lsq lsq' pickP lsqP lsqP' events Rm Rm station resp ignore Nf WF0 HG a aP out out' Rm0' Rm1' OK OK' i s).
  destruct (align_means pick rlm lsq pickP events Rm station resp ignore Nf WF0 out Rm0' lsqP OK HG s) as [A1 B1].
  assert (HG' : forall i, (i < Nf)%nat -> complete i (map snd (present_events (regauged_events a events))) /\
    positive_responses i (map snd (present_events (regauged_events a events)))).
  { intros i Hi. split; [exact (complete_two events Nf HG a i Hi)|exact (positive_two events Nf HG a aP i Hi)]. }
  destruct (align_means pick rlm lsq' pickP (regauged_events a events) Rm station resp ignore Nf (wf_two events Nf WF0 a) out' Rm1' lsqP' OK' HG' s) as [A2 B2].
  destruct (existsb (fun i => match responses (map snd out) i s with [] => false | _ => true end) (seq 0 Nf)) eqn:E.
  - apply existsb_exists in E as (i & Hi & N). apply in_seq in Hi.
    assert (N1 : responses (map snd out) i s <> []) by (intros X; rewrite X in N; discriminate).
    destruct A1 as (l1 & D1 & L1 & G1); [exists i; split; [lia|exact N1]|].
    destruct A2 as (l2 & D2 & L2 & G2); [exists i; split; [lia|rewrite <- RE by lia; exact N1]|].
    rewrite D1, D2. f_equal. apply (nth_ext _ _ None None); [lia|]. intros j Hj.
    destruct (G1 j ltac:(lia)) as [X1 _]. destruct (G2 j ltac:(lia)) as [X2 _]. rewrite <- RE in X2 by lia. rewrite X1 in X2. congruence.
  - assert (Z : forall i, (i < Nf)%nat -> responses (map snd out) i s = []).
    { intros i Hi. destruct (responses (map snd out) i s) eqn:R; [reflexivity|]. exfalso.
      assert (X : existsb (fun i => match responses (map snd out) i s with [] => false | _ => true end) (seq 0 Nf) = true).
      { apply existsb_exists. exists i. split; [apply in_seq; lia|]. now rewrite R. }
      congruence. }
    rewrite B1 by exact Z. rewrite B2; [reflexivity|]. intros i Hi. rewrite <- RE by exact Hi. now apply Z.
Qed.
