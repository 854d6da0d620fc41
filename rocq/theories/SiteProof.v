From Coq Require Import String List Bool Reals Arith Lia Lra Relation_Operators Permutation.
From Verif Require Import Base StatModel StatProof SiteModel SiteSpec MergeProof.
Import ListNotations.
Open Scope list_scope.

(** ** areas *)
Lemma dset_new {V} (d : list (string * V)) k v : ~ In k (map fst d) -> dset String.eqb d k v = d ++ [(k, v)].
Proof.
  induction d as [|[k' v'] d IH]; intros H; cbn; [reflexivity|].
  destruct (String.eqb_spec k k'); [subst; exfalso; apply H; now left|].
  rewrite IH; [reflexivity|]. intros Hin. apply H. now right.
Qed.

Lemma dict_of_nodup {V} (l : list (string * V)) : NoDup (map fst l) -> dict_of String.eqb l = l.
Proof.
  unfold dict_of, dupdate. intros H.
  assert (G : forall (l d : list (string * V)), NoDup (map fst (d ++ l)) ->
    fold_left (fun d kv => dset String.eqb d (fst kv) (snd kv)) l d = d ++ l).
  { clear. induction l as [|[k v] l IH]; intros d H; cbn [fold_left]; [now rewrite app_nil_r|].
    rewrite dset_new.
    - rewrite IH; [now rewrite <- app_assoc|]. now rewrite <- app_assoc.
    - rewrite map_app in H. cbn in H. apply NoDup_remove_2 in H. intros Hin. apply H.
      apply in_or_app. now left. }
  exact (G l [] H).
Qed.

Lemma dget_map_In {V} (d : list (string * V)) k v : NoDup (map fst d) -> (dget String.eqb d k = Some v <-> In (k, v) d).
Proof.
  intros H. split; [apply (dget_In _ string_eqb_spec)|]. intros Hin. now apply (dget_nodup _ string_eqb_spec).
Qed.

Lemma event_area_In ignore i ev s : NoDup (map fst (evR ev)) ->
  (In s (event_area ignore i ev) <-> ~ ignored ignore s /\ response_of ev i s <> None).
Proof.
  intros ND. unfold event_area, response_of. rewrite in_map_iff. split.
  - intros ([s' l] & E & H). cbn in E. subst s'. apply filter_In in H as [Hin Hv]. cbn [fst snd] in Hv.
    apply andb_true_iff in Hv as [Hv Hi]. apply (dget_map_In _ _ _ ND) in Hin. rewrite Hin. split.
    + destruct ignore as [g|]; cbn in *; [|tauto]. apply negb_true_iff, inb_str_false in Hi. exact Hi.
    + destruct (at_ l i); cbn in Hv; congruence.
  - intros [Hi Hr]. destruct (dget String.eqb (evR ev) s) as [l|] eqn:E; [|congruence].
    exists (s, l). split; [reflexivity|]. apply filter_In. apply (dget_map_In _ _ _ ND) in E. split; [exact E|]. cbn [fst snd].
    destruct (at_ l i); try congruence. cbn. destruct ignore as [g|]; [|reflexivity].
    apply negb_true_iff, inb_str_false. exact Hi.
Qed.

Lemma event_area_NoDup ignore i ev : NoDup (map fst (evR ev)) -> NoDup (event_area ignore i ev).
Proof.
  unfold event_area. generalize (evR ev). intros l. induction l as [|p l IH]; intros H; cbn; [constructor|].
  inversion H; subst. destruct (_ && _); [|auto]. cbn. constructor; [|auto].
  intros Hin. apply H2. apply in_map_iff in Hin as (q & <- & Hq). apply filter_In in Hq as [Hq _]. now apply in_map.
Qed.

Lemma event_areas_In ignore i evs a :
  In a (event_areas ignore i evs) <-> a <> [] /\ exists ev, In ev evs /\ event_area ignore i ev = a.
Proof.
  unfold event_areas. rewrite filter_In, in_map_iff. split.
  - intros [(ev & E & Hin) H]. split; [|eauto]. destruct a; [discriminate|congruence].
  - intros [H (ev & Hin & E)]. split; [eauto|]. destruct a; [congruence|reflexivity].
Qed.

Definition unique_stations (evs : list evres) : Prop := Forall (fun ev => NoDup (map fst (evR ev))) evs.

Lemma together_common evs ignore i a b : unique_stations evs ->
  (together (event_areas ignore i evs) a b <-> common_event evs ignore i a b).
Proof.
  intros U. unfold unique_stations in U. rewrite Forall_forall in U. split.
  - intros (s & Hs & Ha & Hb). apply event_areas_In in Hs as [_ (ev & Hev & <-)].
    apply (event_area_In ignore i ev a (U ev Hev)) in Ha. apply (event_area_In ignore i ev b (U ev Hev)) in Hb.
    destruct Ha, Hb. split; [assumption|]. split; [assumption|]. eauto.
  - intros (Ia & Ib & ev & Hev & Ra & Rb). exists (event_area ignore i ev).
    assert (Ha : In a (event_area ignore i ev)) by (apply event_area_In; auto).
    assert (Hb : In b (event_area ignore i ev)) by (apply event_area_In; auto).
    split; [|auto]. apply event_areas_In. split; [|eauto]. intros E. rewrite E in Ha. destruct Ha.
Qed.

Lemma chained_connected evs ignore i a b : unique_stations evs ->
  (chained (event_areas ignore i evs) a b <-> connected evs ignore i a b).
Proof.
  intros U. split; induction 1 as [x y H|x|x y z _ IH1 _ IH2];
  try (apply rt_step; now apply (together_common evs ignore i x y U)); try apply rt_refl; eapply rt_trans; eauto.
Qed.

Lemma observed_areas evs ignore i s : unique_stations evs ->
  ((exists a, In a (event_areas ignore i evs) /\ In s a) <-> observed evs ignore i s).
Proof.
  intros U. split.
  - intros (a & Ha & Hs). assert (T : together (event_areas ignore i evs) s s) by (exists a; auto).
    apply (together_common evs ignore i s s U) in T as (Hi & _ & ev & Hev & Hr & _). split; eauto.
  - intros (Hi & ev & Hev & Hr).
    assert (T : together (event_areas ignore i evs) s s).
    { apply (together_common evs ignore i s s U). split; [assumption|]. split; [assumption|]. eauto. }
    destruct T as (a & Ha & Hs & _). eauto.
Qed.

Section Areas.
Variable pick : list string -> string.
Hypothesis Hpick : chooses_member pick.

Lemma find_areas_spec evs ignore i : unique_stations evs ->
  let areas := find_areas pick evs i ignore in
  NoDup (map fst areas) /\ disjoint_sets (map snd areas) /\
  (forall name a, In (name, a) areas -> In name a /\ is_area evs ignore i a) /\
  (forall s, observed evs ignore i s -> exists name a, In (name, a) areas /\ In s a).
Proof.
  intros U areas. unfold areas, find_areas.
  destruct (merge_sets_spec (event_areas ignore i evs)) as (r & E & D & M & C & NE & ND). rewrite E.
  assert (NE' : Forall (fun s => s <> []) r).
  { apply NE. apply Forall_forall. intros a Ha. now apply event_areas_In in Ha. }
  assert (ND' : Forall (@NoDup string) r).
  { apply ND. apply Forall_forall. intros a Ha. apply event_areas_In in Ha as [_ (ev & Hev & <-)].
    apply event_area_NoDup. unfold unique_stations in U. rewrite Forall_forall in U. auto. }
  assert (NK : NoDup (map fst (map (fun a => (pick a, a)) r))).
  { rewrite map_map. cbn. clear - D NE' Hpick. induction D as [|a l Hf D IH]; cbn; [constructor|].
    inversion NE'; subst. constructor; [|auto]. intros Hin. apply in_map_iff in Hin as (b & Eb & Hb).
    rewrite Forall_forall in Hf. apply (Hf b Hb (pick a)). split; [now apply Hpick|]. rewrite <- Eb. apply Hpick.
    rewrite Forall_forall in H2. auto. }
  rewrite (dict_of_nodup _ NK). split; [exact NK|]. split; [|split].
  - rewrite map_map. cbn. now rewrite map_id.
  - intros name a Hin. apply in_map_iff in Hin as (a' & Ea & Ha). injection Ea as <- <-.
    rewrite Forall_forall in NE', ND'. split; [now apply Hpick, NE'|]. split; [auto|]. split; [auto|].
    intros s Hs. split.
    + apply observed_areas; [exact U|]. apply M. eauto.
    + intros t. rewrite (C a' s t Ha Hs). now apply chained_connected.
  - intros s Hs. apply (observed_areas evs ignore i s U) in Hs. apply M in Hs as (a & Ha & Hs).
    exists (pick a), a. split; [|assumption]. apply in_map_iff. eauto.
Qed.

Lemma largest_spec (areas : list (string * list string)) :
  match largest areas with
  | None => areas = []
  | Some a => (exists n, In (n, a) areas) /\ forall n b, In (n, b) areas -> (List.length b <= List.length a)%nat
  end.
Proof.
  unfold largest.
  assert (G : forall l (b0 : option (list string)),
    match fold_left (fun best p => match best with
       | None => Some (snd p)
       | Some b => if Nat.ltb (List.length b) (List.length (snd p)) then Some (snd p) else Some b end) l b0 with
    | None => l = [] /\ b0 = None
    | Some a => ((exists n : string, In (n, a) l) \/ b0 = Some a) /\
                (forall n b, In (n, b) l -> (List.length b <= List.length a)%nat) /\
                (forall b, b0 = Some b -> (List.length b <= List.length a)%nat)
    end).
  { induction l as [|[n0 a0] l IH]; intros b0; cbn [fold_left].
    - destruct b0 as [b|]; [|auto]. split; [auto|]. split; [intros ? ? []|]. intros ? [= <-]. lia.
    - cbn [snd]. set (b1 := match b0 with None => Some a0 | Some b => if Nat.ltb (List.length b) (List.length a0) then Some a0 else Some b end).
      specialize (IH b1). destruct (fold_left _ l b1) as [a|] eqn:E.
      + destruct IH as (H1 & H2 & H3). split; [|split].
        * destruct H1 as [(n & H1)|H1]; [left; exists n; now right|].
          subst b1. destruct b0 as [b|].
          -- destruct (Nat.ltb _ _); injection H1 as <-; [left; exists n0; now left|auto].
          -- injection H1 as <-. left. exists n0. now left.
        * intros n b [Hb|Hb]; [|eauto]. injection Hb as <- <-. destruct b0 as [b'|]; subst b1.
          -- destruct (Nat.ltb_spec (List.length b') (List.length a0)); [apply H3; reflexivity|].
             specialize (H3 b' eq_refl). lia.
          -- apply H3. reflexivity.
        * intros b ->. subst b1. destruct (Nat.ltb_spec (List.length b) (List.length a0)).
          -- specialize (H3 a0 eq_refl). lia.
          -- apply H3. reflexivity.
      + destruct IH as [_ IH]. subst b1. destruct b0 as [b|]; [destruct (Nat.ltb _ _)|]; discriminate. }
  specialize (G areas None). destruct (fold_left _ areas None) as [a|].
  - destruct G as ([H1|H1] & H2 & _); [auto|discriminate].
  - tauto.
Qed.

Lemma area_same_length evs ignore i a b s : is_area evs ignore i a -> is_area evs ignore i b -> In s a -> In s b ->
  Permutation a b.
Proof.
  intros (Na & _ & Ha) (Nb & _ & Hb) Sa Sb. apply NoDup_Permutation; auto.
  intros t. destruct (Ha s Sa) as [_ Ca]. destruct (Hb s Sb) as [_ Cb]. now rewrite Ca, Cb.
Qed.

Lemma largest_area evs ignore i : unique_stations evs ->
  match largest (find_areas pick evs i ignore) with
  | None => forall s, ~ observed evs ignore i s
  | Some a => is_largest_area evs ignore i a
  end.
Proof.
  intros U. destruct (find_areas_spec evs ignore i U) as (_ & _ & H1 & H2).
  assert (L := largest_spec (find_areas pick evs i ignore)).
  destruct (largest (find_areas pick evs i ignore)) as [a|].
  - destruct L as ((n & Hn) & L). split; [now apply (H1 n a)|].
    intros b Hb. destruct Hb as (Nb & Eb & Cb) eqn:Eqb. destruct b as [|s b]; [congruence|].
    destruct (Cb s (or_introl eq_refl)) as [Os _]. destruct (H2 s Os) as (n' & a' & Hin & Hs).
    rewrite (Permutation_length (area_same_length evs ignore i (s :: b) a' s Hb (proj2 (H1 _ _ Hin)) (or_introl eq_refl) Hs)).
    eauto.
  - intros s Hs. destruct (H2 s Hs) as (n & a & Hin & _). rewrite L in Hin. destruct Hin.
Qed.
End Areas.
