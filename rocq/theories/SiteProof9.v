(** Order and frequencies of the aligned events. *)
From Coq Require Import String Ascii List Bool Reals Arith NArith Lia Permutation Sorted.
From Verif Require Import Base PySort StatProof SiteModel SiteSpec SiteProof4.
Import ListNotations.
Open Scope list_scope.

Lemma ascii_compare_N a b : Ascii.compare a b = N.compare (N_of_ascii a) (N_of_ascii b).
Proof. reflexivity. Qed.

Lemma ascii_compare_eq a b : Ascii.compare a b = Eq -> a = b.
Proof.
  rewrite ascii_compare_N. intros H. apply N.compare_eq_iff in H.
  rewrite <- (ascii_N_embedding a), <- (ascii_N_embedding b). now rewrite H.
Qed.

Lemma string_leb_total a : forall b, String.leb a b = true \/ String.leb b a = true.
Proof.
  unfold String.leb. intros b. rewrite (String.compare_antisym b a).
  destruct (String.compare a b); cbn; auto.
Qed.

Lemma string_leb_trans a : forall b c, String.leb a b = true -> String.leb b c = true -> String.leb a c = true.
Proof.
  unfold String.leb. induction a as [|x a IH]; intros [|y b] [|z c]; cbn [String.compare]; try discriminate; auto.
  rewrite !ascii_compare_N.
  destruct (N.compare_spec (N_of_ascii x) (N_of_ascii y)) as [E1|L1|G1]; [| |discriminate];
  destruct (N.compare_spec (N_of_ascii y) (N_of_ascii z)) as [E2|L2|G2]; try discriminate; intros H1 H2.
  - replace (N.compare (N_of_ascii x) (N_of_ascii z)) with Eq by (symmetry; apply N.compare_eq_iff; lia).
    exact (IH _ _ H1 H2).
  - replace (N.compare (N_of_ascii x) (N_of_ascii z)) with Lt by (symmetry; apply N.compare_lt_iff; lia). reflexivity.
  - replace (N.compare (N_of_ascii x) (N_of_ascii z)) with Lt by (symmetry; apply N.compare_lt_iff; lia). reflexivity.
  - replace (N.compare (N_of_ascii x) (N_of_ascii z)) with Lt by (symmetry; apply N.compare_lt_iff; lia). reflexivity.
Qed.

Lemma rescale_length Nf factors only : forall evs evs', rescale_results evs Nf factors only = Ok evs' ->
  List.length evs' = List.length evs.
Proof.
  intros evs evs'. unfold rescale_results. generalize (seq 0 Nf). intros is. revert evs.
  induction is as [|i is IH]; intros evs H; cbn [fold_left] in H.
  - injection H as <-. reflexivity.
  - cbn [bind] in H.
    destruct (mapM (fun p => rescale_event (factors (fst p) i) i (only_at only i) (snd p)) (enum evs)) as [es|x] eqn:M.
    + apply IH in H. rewrite H. apply mapM_length in M. rewrite M. unfold enum.
      rewrite combine_length, seq_length. lia.
    + exfalso. clear - H. revert H. induction is as [|j is IH]; cbn; [discriminate|exact IH].
Qed.

Lemma sorted_map {A B} (f : A -> B) (P : B -> B -> Prop) l :
  StronglySorted (fun a b => P (f a) (f b)) l -> StronglySorted P (map f l).
Proof.
  induction 1 as [|a l _ IH H]; cbn; constructor; auto.
  rewrite Forall_forall in *. intros y I. apply in_map_iff in I. destruct I as (x & <- & I). auto.
Qed.

Lemma freqs_same evs : forall n0 n, fold_left (fun acc ev =>
    do Nf <- acc;
    match Nf with
    | Some n => if Nat.eqb n (List.length (evW ev)) then Ok (Some n) else Err AssertionError
    | None => Ok (Some (List.length (evW ev)))
    end) evs (Ok (Some n0)) = Ok (Some n) -> n = n0 /\ forall ev, In ev evs -> List.length (evW ev) = n.
Proof.
  induction evs as [|e evs IH]; intros n0 n H; cbn [fold_left bind] in H.
  - injection H as ->. split; [reflexivity|intros ev []].
  - destruct (Nat.eqb_spec n0 (List.length (evW e))) as [E|N].
    + apply IH in H. destruct H as [-> H]. split; [reflexivity|]. intros ev [<-|I]; auto.
    + exfalso. clear - H. revert H. induction evs as [|e' evs IH]; cbn; [discriminate|exact IH].
Qed.

Section S.
  Variables (pick : list string -> string) (rlm : list R -> R * R) (lsq : nat -> list (list (nat * R) * R) -> nat -> R).

  (** C32: order *)
  Lemma align_sorted events Rm station resp ignore out Rm' :
    align_site_responses pick rlm lsq events Rm station resp ignore = Ok (out, Rm') ->
    StronglySorted (fun a b => String.leb a b = true) (map fst out) /\
    Permutation (map fst out) (map fst (present_events events)).
  Proof.
    unfold align_site_responses. intros H.
    destruct (number_of_freqs (map snd (sort_events events))) as [[Nf|]|]; [| |discriminate]; cbn [bind] in H; [|discriminate].
    destruct (mapM _ (seq 0 Nf)) as [sols|]; [|discriminate]. cbn [bind] in H.
    destruct (rescale_results _ _ _ _) as [evs'|] eqn:R; [|discriminate]. cbn [bind] in H.
    destruct (mean_responses _ _ _ _) as [m|]; [|discriminate]. cbn [bind] in H.
    injection H as <- _. apply rescale_length in R. rewrite map_length in R.
    assert (E : map fst (combine (map fst (sort_events events)) evs') = map fst (sort_events events)).
    { assert (L : List.length evs' = List.length (map fst (sort_events events))) by now rewrite map_length.
      clear R. revert evs' L. generalize (map fst (sort_events events)).
      induction l as [|x l IH]; intros [|y m'] L; cbn in *; try discriminate; [reflexivity|]. f_equal. apply IH. lia. }
    rewrite E. split.
    - apply sorted_map. unfold sort_events.
      apply (pysort_sorted (fun a b : string * evres => String.leb (fst a) (fst b))).
      + intros x y. apply string_leb_total.
      + intros x y z. apply string_leb_trans.
    - apply Permutation_sym, Permutation_map, sort_events_perm.
  Qed.

  (** C77: the same frequencies *)
  Lemma align_frequencies events Rm station resp ignore out Rm' :
    align_site_responses pick rlm lsq events Rm station resp ignore = Ok (out, Rm') ->
    exists n, forall id ev, In (id, ev) (present_events events) -> List.length (evW ev) = n.
  Proof.
    unfold align_site_responses. intros H.
    destruct (number_of_freqs (map snd (sort_events events))) as [[Nf|]|] eqn:NF; [| |discriminate]; cbn [bind] in H; [|discriminate].
    exists Nf. clear H. unfold number_of_freqs in NF.
    assert (G : forall ev, In ev (map snd (sort_events events)) -> List.length (evW ev) = Nf).
    { destruct (map snd (sort_events events)) as [|e evs]; [discriminate|]. cbn [fold_left bind] in NF.
      apply freqs_same in NF. destruct NF as [-> F]. intros ev [<-|I]; auto. }
    intros id ev I. apply G. apply (Permutation_in _ (sort_events_perm events)) in I.
    apply in_map_iff. exists (id, ev). auto.
  Qed.
End S.
