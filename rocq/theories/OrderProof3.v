(** C143: the area chosen does not depend on the order of stations either. *)
From Coq Require Import String List Bool Reals Arith Lia Lra Permutation Relation_Operators.
From Verif Require Import Base PySort StatModel StatProof SiteModel SiteSpec MergeProof SiteProof OrderSpec OrderProof.
Import ListNotations.
Open Scope list_scope.

Definition same_set (a b : list string) : Prop := NoDup a /\ Permutation a b.

Lemma same_set_In a b s : same_set a b -> In s a <-> In s b.
Proof. intros [_ P]. split; apply Permutation_in; [exact P|now apply Permutation_sym]. Qed.

Lemma same_set_nodup a b : same_set a b -> NoDup b.
Proof. intros [N P]. eapply Permutation_NoDup; eauto. Qed.

Lemma overlap_same a b e e' : same_set a b -> same_set e e' -> overlap a e = overlap b e'.
Proof.
  intros Ha He. apply eq_true_iff_eq. rewrite !overlap_true. split; intros (x & H1 & H2); exists x; split.
  - now apply (same_set_In a b).
  - now apply (same_set_In e e').
  - now apply (same_set_In a b).
  - now apply (same_set_In e e').
Qed.

Lemma update_same a b e e' : same_set a b -> same_set e e' -> same_set (set_update e a) (set_update e' b).
Proof.
  intros Ha He. split; [apply set_update_NoDup; exact (proj1 He)|]. apply NoDup_Permutation.
  - apply set_update_NoDup. exact (proj1 He).
  - apply set_update_NoDup. now apply same_set_nodup with e.
  - intros x. rewrite !set_update_In, (same_set_In a b x Ha), (same_set_In e e' x He). reflexivity.
Qed.

Lemma absorb_same a b n n' : same_set a b -> Forall2 same_set n n' -> Forall2 same_set (absorb n a) (absorb n' b).
Proof.
  intros Ha F. induction F as [|e e' l l' He F IH]; cbn; [constructor; [exact Ha|constructor]|].
  rewrite (overlap_same a b e e' Ha He). destruct (overlap b e'); constructor; auto. now apply update_same.
Qed.

Lemma pass_same l l' : Forall2 same_set l l' -> Forall2 same_set (merge_pass l) (merge_pass l').
Proof.
  unfold merge_pass. intros F. assert (G : forall n n', Forall2 same_set n n' -> Forall2 same_set (fold_left absorb l n) (fold_left absorb l' n')).
  { induction F as [|a b l l' Ha F IH]; intros n n' Hn; cbn; [exact Hn|]. apply IH. now apply absorb_same. }
  apply G. constructor.
Qed.

Lemma set_length l l' : Forall2 same_set l l' -> List.length l = List.length l'.
Proof. induction 1; cbn; congruence. Qed.

Lemma loop_same r : forall n l l', Forall2 same_set l l' ->
  match merge_loop r n l, merge_loop r n l' with Some m, Some m' => Forall2 same_set m m' | None, None => True | _, _ => False end.
Proof.
  induction r as [|r IH]; intros n l l' F; cbn; rewrite <- (set_length l l' F); destruct (Nat.eqb n (List.length l)); auto.
  apply IH. now apply pass_same.
Qed.

Lemma merge_same l l' : Forall2 same_set l l' ->
  match merge_sets l, merge_sets l' with Some m, Some m' => Forall2 same_set m m' | None, None => True | _, _ => False end.
Proof. intros F. unfold merge_sets. rewrite <- (set_length l l' F). now apply loop_same. Qed.

Lemma event_areas_same E E' ignore i : unique_stations E -> Forall2 same_ev E E' -> Forall2 same_set (event_areas ignore i E) (event_areas ignore i E').
Proof.
  intros U F. unfold event_areas, unique_stations in *. induction F as [|e e' l l' SE F IH]; cbn [map filter]; [constructor|].
  inversion U as [|? ? N U']; subst. specialize (IH U').
  assert (N' : NoDup (map fst (evR e'))) by (eapply Permutation_NoDup; [apply Permutation_map, (proj2 SE)|exact N]).
  assert (S : same_set (event_area ignore i e) (event_area ignore i e')).
  { split; [now apply event_area_NoDup|]. apply NoDup_Permutation; [now apply event_area_NoDup|now apply event_area_NoDup|].
    intros s. rewrite (event_area_In ignore i e s N), (event_area_In ignore i e' s N'), (response_same e e' i s N SE). reflexivity. }
  assert (L : List.length (event_area ignore i e) = List.length (event_area ignore i e')) by (apply Permutation_length; exact (proj2 S)).
  rewrite L. destruct (negb (Nat.eqb (List.length (event_area ignore i e')) 0)); [constructor; assumption|assumption].
Qed.

(** the first of the longest *)
Definition longest (sets : list (list string)) : option (list string) :=
  fold_left (fun best a => match best with
                           | None => Some a
                           | Some b => if Nat.ltb (List.length b) (List.length a) then Some a else Some b
                           end) sets None.

Lemma largest_longest areas : largest areas = longest (map snd areas).
Proof.
  unfold largest, longest. generalize (@None (list string)). induction areas as [|p l IH]; intros b; cbn; [reflexivity|]. apply IH.
Qed.

Lemma longest_same l l' : Forall2 same_set l l' ->
  match longest l, longest l' with Some a, Some b => same_set a b | None, None => True | _, _ => False end.
Proof.
  intros F. unfold longest.
  assert (G : forall b b', match b, b' with Some a, Some a' => same_set a a' | None, None => True | _, _ => False end ->
    match fold_left (fun best a => match best with None => Some a | Some b => if Nat.ltb (List.length b) (List.length a) then Some a else Some b end) l b,
          fold_left (fun best a => match best with None => Some a | Some b => if Nat.ltb (List.length b) (List.length a) then Some a else Some b end) l' b' with
    Some a, Some a' => same_set a a' | None, None => True | _, _ => False end).
  { induction F as [|a a' l l' Ha F IH]; intros b b' Hb; cbn [fold_left]; [exact Hb|]. apply IH.
    destruct b as [b|], b' as [b'|]; try contradiction; [|exact Ha].
    rewrite (Permutation_length (proj2 Hb)), (Permutation_length (proj2 Ha)). destruct (Nat.ltb _ _); assumption. }
  now apply G.
Qed.

Lemma areas_merged pick evs ignore i : chooses_member pick -> unique_stations evs ->
  map snd (find_areas pick evs i ignore) = match merge_sets (event_areas ignore i evs) with Some l => l | None => [] end.
Proof.
  intros Hpick U. unfold find_areas.
  destruct (merge_sets_spec (event_areas ignore i evs)) as (r & E & D & M & C & NE & _). rewrite E.
  assert (NE' : Forall (fun s => s <> []) r).
  { apply NE. apply Forall_forall. intros a Ha. now apply event_areas_In in Ha. }
  assert (NK : NoDup (map fst (map (fun a => (pick a, a)) r))).
  { rewrite map_map. cbn. clear - D NE' Hpick. induction D as [|a l Hf D IH]; cbn; [constructor|].
    inversion NE'; subst. constructor; [|auto]. intros Hin. apply in_map_iff in Hin as (b & Eb & Hb).
    rewrite Forall_forall in Hf. apply (Hf b Hb (pick a)). split; [now apply Hpick|]. rewrite <- Eb. apply Hpick.
    rewrite Forall_forall in H2. auto. }
  rewrite (dict_of_nodup _ NK), map_map. cbn. now rewrite map_id.
Qed.

Lemma chosen_same pick pick' E E' ignore i : chooses_member pick -> chooses_member pick' -> unique_stations E -> unique_stations E' -> Forall2 same_ev E E' ->
  match largest (find_areas pick E i ignore), largest (find_areas pick' E' i ignore) with
  | Some a, Some b => forall s, In s b <-> In s a
  | None, None => True
  | _, _ => False
  end.
Proof.
  intros P P' U U' F. rewrite !largest_longest, !areas_merged by assumption.
  assert (M := merge_same _ _ (event_areas_same E E' ignore i U F)).
  destruct (merge_sets_spec (event_areas ignore i E)) as (r & ER & _). destruct (merge_sets_spec (event_areas ignore i E')) as (r' & ER' & _).
  rewrite ER, ER' in M |- *. assert (L := longest_same r r' M). destruct (longest r) as [a|], (longest r') as [b|]; try contradiction; [|exact I].
  intros s. symmetry. now apply same_set_In.
Qed.
