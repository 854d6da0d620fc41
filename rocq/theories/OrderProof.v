(** C143: sums of squares do not depend on the order of stations. *)
From Coq Require Import String List Bool Reals Arith Lia Lra Permutation Relation_Operators Sorted FunctionalExtensionality.
From Verif Require Import Base PySort Pyf StatModel StatProof SiteModel SiteSpec MergeProof SiteProof SiteProof2 SiteProof3 SiteProof4 SiteProof5 SiteProof6 SiteProof7
  SiteProof8 SiteProof9 GaugeSpec GaugeProof TwiceProof OrderSpec.
Import ListNotations.
Open Scope list_scope.
Open Scope R_scope.

(** ** observations in another order *)
Inductive swapped : list obs -> list obs -> Prop :=
| sw_nil : swapped [] []
| sw_skip o l l' : swapped l l' -> swapped (o :: l) (o :: l')
| sw_swap o o' l : osta o <> osta o' -> swapped (o :: o' :: l) (o' :: o :: l)
| sw_trans l l' l'' : swapped l l' -> swapped l' l'' -> swapped l l''.

Lemma swapped_refl l : swapped l l.
Proof. induction l; constructor; auto. Qed.

Lemma swapped_perm l l' : swapped l l' -> Permutation l l'.
Proof. induction 1; [constructor|constructor; auto|apply perm_swap|etransitivity; eauto]. Qed.

Lemma swapped_app a a' b b' : swapped a a' -> swapped b b' -> swapped (a ++ b) (a' ++ b').
Proof.
  intros Ha Hb. apply sw_trans with (a' ++ b).
  - clear Hb. induction Ha; cbn; [apply swapped_refl|now constructor|now constructor|eapply sw_trans; eauto].
  - clear Ha. induction a' as [|o a' IH]; cbn; [exact Hb|now constructor].
Qed.

Lemma perm_swapped c c' : Permutation c c' -> NoDup (map osta c) -> swapped c c'.
Proof.
  induction 1 as [|o l l' P IH|o o' l|l l' l'' P1 IH1 P2 IH2]; intros N.
  - constructor.
  - inversion N; subst. constructor. auto.
  - cbn in N. inversion N as [|? ? N1 N2]; subst. constructor. intros E. apply N1. left. congruence.
  - apply sw_trans with l'; [auto|]. apply IH2. eapply Permutation_NoDup; [|exact N]. now apply Permutation_map.
Qed.

Section State.
Variables (station : staopt) (nsta : string -> nat).
Definition like (s s' : astate) : Prop :=
  (forall k, dget String.eqb (slast s) k = dget String.eqb (slast s') k) /\ Permutation (srows s) (srows s').

Lemma step_fields s o : slast (align_step station nsta s o) = dset String.eqb (slast s) (osta o) (oev o, oval o) /\
  srows (align_step station nsta s o) = srows s ++
    match dget String.eqb (slast s) (osta o) with Some (kl, Rl) => [([(oev o, 1); (kl, -1)], ln Rl - ln (oval o))] | None => [] end.
Proof.
  unfold align_step. destruct (norm_station station (osta o)); cbn [slast srows]; destruct (dget String.eqb (slast s) (osta o)) as [[kl Rl]|];
    cbn [slast srows]; rewrite ?app_nil_r; auto.
Qed.

Lemma like_step s s' o : like s s' -> like (align_step station nsta s o) (align_step station nsta s' o).
Proof.
  intros [HL HR]. destruct (step_fields s o) as [E1 E2]. destruct (step_fields s' o) as [E3 E4]. unfold like. rewrite E1, E2, E3, E4. split.
  - intros k. destruct (String.eqb_spec k (osta o)) as [->|N].
    + now rewrite !(dget_dset_eq _ string_eqb_spec).
    + now rewrite !(dget_dset_neq _ string_eqb_spec) by auto.
  - rewrite HL. now apply Permutation_app_tail.
Qed.

Lemma like_steps l : forall s s', like s s' -> like (fold_left (align_step station nsta) l s) (fold_left (align_step station nsta) l s').
Proof. induction l as [|o l IH]; intros s s' H; cbn; [exact H|]. apply IH. now apply like_step. Qed.

Lemma like_refl s : like s s.
Proof. split; auto. Qed.

Lemma like_trans a b c : like a b -> like b c -> like a c.
Proof. intros [H1 H2] [H3 H4]. split; [intros k; now rewrite H1|etransitivity; eauto]. Qed.

Lemma like_swap s o o' : osta o <> osta o' ->
  like (align_step station nsta (align_step station nsta s o) o') (align_step station nsta (align_step station nsta s o') o).
Proof.
  intros N. destruct (step_fields s o) as [E1 E2]. destruct (step_fields s o') as [E3 E4].
  destruct (step_fields (align_step station nsta s o) o') as [E5 E6]. destruct (step_fields (align_step station nsta s o') o) as [E7 E8].
  unfold like. rewrite E5, E6, E7, E8, E1, E2, E3, E4. split.
  - intros k. destruct (String.eqb_spec k (osta o)) as [->|N1].
    + rewrite (dget_dset_neq _ string_eqb_spec) by auto. now rewrite !(dget_dset_eq _ string_eqb_spec).
    + rewrite (dget_dset_neq _ string_eqb_spec (dset String.eqb (slast s) (osta o') (oev o', oval o')) (osta o)) by auto.
      destruct (String.eqb_spec k (osta o')) as [->|N2].
      * now rewrite !(dget_dset_eq _ string_eqb_spec).
      * now rewrite !(dget_dset_neq _ string_eqb_spec) by auto.
  - rewrite !(dget_dset_neq _ string_eqb_spec) by auto. rewrite <- !app_assoc. apply Permutation_app_head. apply Permutation_app_comm.
Qed.

Lemma like_swapped l l' : swapped l l' -> forall s, like (fold_left (align_step station nsta) l s) (fold_left (align_step station nsta) l' s).
Proof.
  induction 1 as [|o l l' H IH|o o' l N|l l' l'' H1 IH1 H2 IH2]; intros s; cbn [fold_left].
  - apply like_refl.
  - apply IH.
  - apply like_steps. now apply like_swap.
  - eapply like_trans; [apply IH1|apply IH2].
Qed.

Lemma sse_perm r r' x : Permutation r r' -> sse r x = sse r' x.
Proof.
  unfold sse. induction 1 as [|a l l' P IH|a b l|l l' l'' P1 IH1 P2 IH2]; cbn [map]; rewrite ?rsum_cons; [reflexivity|rewrite IH; reflexivity|ring|congruence].
Qed.

Lemma rsum_perm f (l l' : list obs) : Permutation l l' -> rsum (map f l) = rsum (map f l').
Proof. induction 1 as [|a l l' P IH|a b l|l l' l'' P1 IH1 P2 IH2]; cbn [map]; rewrite ?rsum_cons; [reflexivity|rewrite IH; reflexivity|ring|congruence]. Qed.

Lemma used_perm l l' : Permutation l l' -> Permutation (used station l) (used station l').
Proof.
  unfold used. induction 1 as [|a l l' P IH|a b l|l l' l'' P1 IH1 P2 IH2]; cbn.
  - constructor.
  - destruct (norm_station station (osta a)); auto.
  - destruct (norm_station station (osta a)), (norm_station station (osta b)); auto using perm_swap.
  - etransitivity; eauto.
Qed.

Lemma sused_perm l l' : Permutation l l' -> List.length (sused (final station nsta l)) = List.length (sused (final station nsta l')).
Proof.
  intros P. destruct (final_norm station nsta l (fun _ => 0)) as (_ & _ & N1 & U1 & _).
  destruct (final_norm station nsta l' (fun _ => 0)) as (_ & _ & N2 & U2 & _).
  apply Permutation_length. apply NoDup_Permutation; [exact N1|exact N2|]. intros s. rewrite U1, U2.
  assert (Q := used_perm l l' P). split; intros (o & Ho & E); exists o; (split; [|exact E]).
  - exact (Permutation_in _ Q Ho).
  - exact (Permutation_in _ (Permutation_sym Q) Ho).
Qed.

Lemma sse_swapped resp l l' rows rows' x : swapped l l' -> align_rows station nsta resp l = Ok rows -> align_rows station nsta resp l' = Ok rows' ->
  sse rows' x = sse rows x.
Proof.
  intros SW H H'. apply align_rows_ok in H as [-> Hne]. apply align_rows_ok in H' as [-> Hne'].
  assert (P := swapped_perm l l' SW). rewrite !sse_app. f_equal.
  - symmetry. apply sse_perm. exact (proj2 (like_swapped l l' SW init_state)).
  - unfold sse. cbn [map]. unfold rsum. cbn [fold_right].
    assert (E : row_value (norm_row station nsta resp l') x = row_value (norm_row station nsta resp l) x).
    { rewrite !norm_row_value by assumption. rewrite <- (sused_perm l l' P). f_equal. f_equal. symmetry. apply rsum_perm. now apply used_perm. }
    now rewrite E.
Qed.
End State.

(** ** events with stations in another order *)
Definition same_ev (e e' : evres) : Prop := evW e = evW e' /\ Permutation (evR e) (evR e').

Lemma dget_perm {V} (d d' : list (string * V)) k : NoDup (map fst d) -> Permutation d d' -> dget String.eqb d k = dget String.eqb d' k.
Proof.
  intros N P. assert (N' : NoDup (map fst d')) by (eapply Permutation_NoDup; [apply Permutation_map, P|exact N]).
  destruct (dget String.eqb d k) as [v|] eqn:E.
  - apply (dget_In _ string_eqb_spec) in E. apply (Permutation_in _ P) in E. symmetry. exact (proj2 (dget_map_In _ _ _ N') E).
  - destruct (dget String.eqb d' k) as [v|] eqn:E'; [|reflexivity].
    apply (dget_In _ string_eqb_spec) in E'. apply (Permutation_in _ (Permutation_sym P)) in E'.
    apply (dget_map_In _ _ _ N) in E'. congruence.
Qed.

Lemma response_same e e' i s : NoDup (map fst (evR e)) -> same_ev e e' -> response_of e i s = response_of e' i s.
Proof. intros N [_ P]. unfold response_of. now rewrite (dget_perm _ _ s N P). Qed.

Lemma energy_same e e' i : same_ev e e' -> energy_of e i = energy_of e' i.
Proof. intros [E _]. unfold energy_of. now rewrite E. Qed.

Lemma wf_same Nf e e' : same_ev e e' -> well_formed Nf e -> well_formed Nf e'.
Proof.
  intros [E P] (H1 & H2 & H3). split; [eapply Permutation_NoDup; [apply Permutation_map, P|exact H1]|]. split; [congruence|].
  rewrite Forall_forall in *. intros p Hp. apply H3. eapply Permutation_in; [apply Permutation_sym, P|exact Hp].
Qed.

(** ** sorting *)
Lemma insert_Forall2 {X Y} (le : X -> X -> bool) (le' : Y -> Y -> bool) (P : X -> Y -> Prop) :
  (forall a b a' b', P a a' -> P b b' -> le a b = le' a' b') -> forall x y l l', P x y -> Forall2 P l l' -> Forall2 P (insert le x l) (insert le' y l').
Proof.
  intros H x y l l' Hxy F. induction F as [|a b l l' Hab F IH]; cbn; [repeat constructor; assumption|].
  rewrite <- (H x a y b Hxy Hab). destruct (le x a); constructor; auto.
Qed.

Lemma pysort_Forall2 {X Y} (le : X -> X -> bool) (le' : Y -> Y -> bool) (P : X -> Y -> Prop) :
  (forall a b a' b', P a a' -> P b b' -> le a b = le' a' b') -> forall l l', Forall2 P l l' -> Forall2 P (pysort le l) (pysort le' l').
Proof. intros H l l' F. induction F as [|a b l l' Hab F IH]; cbn; [constructor|]. now apply insert_Forall2. Qed.

Lemma sorted_keys {V} (l : list (string * V)) : forall l', NoDup (map fst l) ->
  StronglySorted (fun a b => String.leb (fst a) (fst b) = true) l -> StronglySorted (fun a b => String.leb (fst a) (fst b) = true) l' ->
  Permutation l l' -> l = l'.
Proof.
  induction l as [|x l IH]; intros l' N H H' P.
  - apply Permutation_nil in P. now subst.
  - destruct l' as [|y l']; [apply Permutation_sym, Permutation_nil in P; discriminate|].
    inversion H as [|? ? H3 H4]; subst. inversion H' as [|? ? H1 H2]; subst. inversion N as [|? ? N1 N2]; subst. rewrite Forall_forall in *.
    assert (x = y) as <-.
    { assert (Hx : In x (y :: l')) by (eapply Permutation_in; [exact P|now left]).
      assert (Hy : In y (x :: l)) by (eapply Permutation_in; [apply Permutation_sym, P|now left]).
      destruct Hx as [->|Hx]; [reflexivity|]. destruct Hy as [->|Hy]; [reflexivity|]. exfalso. apply N1.
      assert (E : fst x = fst y) by (apply String.leb_antisym; auto). rewrite E. now apply in_map. }
    f_equal. apply IH; auto. now apply Permutation_cons_inv in P.
Qed.

Lemma present_ids events : NoDup (map fst events) -> NoDup (map fst (present_events events)).
Proof.
  unfold present_events. induction events as [|[id [e|]] l IH]; cbn; intros N; inversion N; subst; [constructor| |auto].
  constructor; [|auto]. intros H. apply H1. apply in_map_iff in H as (p & <- & H). apply in_flat_map in H as ([id' [e'|]] & H & H').
  - destruct H' as [<-|[]]. cbn. apply in_map_iff. exists (id', Some e'). auto.
  - destruct H'.
Qed.

Lemma present_perm events mid : Permutation events mid -> Permutation (present_events events) (present_events mid).
Proof. intros P. unfold present_events. now apply Permutation_flat_map. Qed.

Definition same_pair (p q : string * evres) : Prop := fst p = fst q /\ same_ev (snd p) (snd q).

Lemma present_same mid events' : Forall2 same_event mid events' -> Forall2 same_pair (present_events mid) (present_events events').
Proof.
  unfold present_events. induction 1 as [|[id e] [id' e'] l l' [E H] F IH]; cbn [flat_map fst snd] in *; [constructor|].
  destruct e as [e|], e' as [e'|]; try contradiction; [|exact IH]. cbn. constructor; [|exact IH]. split; [exact E|exact H].
Qed.

Lemma sort_reordered events events' : NoDup (map fst events) -> reordered events events' -> Forall2 same_pair (sort_events events) (sort_events events').
Proof.
  intros N (mid & P & F).
  assert (T : forall x y : string * evres, String.leb (fst x) (fst y) = true \/ String.leb (fst y) (fst x) = true) by (intros; apply String.leb_total).
  assert (E : sort_events events = sort_events mid).
  { unfold sort_events. fold (present_events events). fold (present_events mid). apply sorted_keys.
    - eapply Permutation_NoDup; [|apply (present_ids events N)]. apply Permutation_map. apply Permutation_sym, pysort_perm.
    - apply pysort_sorted; [exact T|]. intros x y z. apply string_leb_trans.
    - apply pysort_sorted; [exact T|]. intros x y z. apply string_leb_trans.
    - etransitivity; [apply pysort_perm|]. etransitivity; [apply (present_perm _ _ P)|]. apply Permutation_sym, pysort_perm. }
  rewrite E. unfold sort_events. fold (present_events mid). fold (present_events events').
  apply pysort_Forall2; [|now apply present_same]. intros a b a' b' [Ha _] [Hb _]. now rewrite Ha, Hb.
Qed.
