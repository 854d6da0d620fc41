(** Rescaling of energies and site responses. *)
From Coq Require Import String List Bool Reals Arith Lia Lra Permutation.
From Verif Require Import Base StatModel StatProof SiteModel SiteSpec MergeProof SiteProof.
Import ListNotations.
Open Scope list_scope.
Open Scope R_scope.

Lemma at_set_nth l i v j : (i < List.length l)%nat -> at_ (set_nth l i v) j = if Nat.eqb j i then v else at_ l j.
Proof.
  unfold at_. revert i j. induction l as [|x l IH]; intros i j H; cbn in H; [lia|].
  destruct i as [|i], j as [|j]; cbn; auto. apply IH. lia.
Qed.

Lemma set_nth_length l i v : List.length (set_nth l i v) = List.length l.
Proof. revert i. induction l as [|x l IH]; intros [|i]; cbn; auto. Qed.

Lemma set_nth_same l i : set_nth l i (at_ l i) = l.
Proof. unfold at_. revert i. induction l as [|x l IH]; intros [|i]; cbn; auto. now rewrite IH. Qed.

Lemma set_nth_twice l i u v : set_nth (set_nth l i u) i v = set_nth l i v.
Proof. revert i. induction l as [|x l IH]; intros [|i]; cbn; auto. now rewrite IH. Qed.

(** expected entries *)
Definition newR (fac : R) (W : entry) (only : option (option (list string))) (sta : string) (e : entry) : entry :=
  if negb (valid W) then e
  else match only with
       | Some (Some area) => if negb (valid e) then e else if inb String.eqb sta area then emul e fac else ENone
       | _ => emul e fac
       end.

Definition col (i : nat) (ev : evres) : list (string * entry) := map (fun p => (fst p, at_ (snd p) i)) (evR ev).

Definition newcol (fac : R) (i : nat) (only : option (option (list string))) (ev : evres) : list (string * entry) :=
  map (fun p => (fst p, newR fac (at_ (evW ev) i) only (fst p) (snd p))) (col i ev).

Definition newW (fac : R) (i : nat) (only : option (option (list string))) (ev : evres) : entry :=
  if negb (valid (at_ (evW ev) i)) then at_ (evW ev) i
  else if forallb (fun p => negb (valid (snd p))) (newcol fac i only ev) then ENone
  else emul (at_ (evW ev) i) (/ fac).

Lemma rescale_station_ok fac W i only p q : valid W = true ->
  rescale_station fac i only p = Ok q ->
  q = (fst p, set_nth (snd p) i (newR fac W only (fst p) (at_ (snd p) i))).
Proof.
  intros HW. destruct p as [sta l]. unfold rescale_station, newR. rewrite HW. cbn [negb fst snd].
  destruct (valid (at_ l i)) eqn:V; cbn [negb].
  - destruct only as [[area|]|]; [|discriminate|].
    + destruct (inb String.eqb sta area); intros [= <-]; [reflexivity|]. now rewrite set_nth_twice.
    + intros [= <-]. reflexivity.
  - intros [= <-]. f_equal. destruct only as [[area|]|]; rewrite ?set_nth_same; try reflexivity;
    (replace (emul (at_ l i) fac) with (at_ l i) by (destruct (at_ l i); [reflexivity..|discriminate]));
    now rewrite set_nth_same.
Qed.

Lemma mapM_map {A B} (f : A -> res B) g l r : (forall a b, f a = Ok b -> b = g a) -> mapM f l = Ok r -> r = map g l.
Proof.
  intros H. revert r. induction l as [|a l IH]; cbn; intros r; [intros [= <-]; reflexivity|].
  destruct (f a) eqn:E; cbn; [|discriminate]. destruct (mapM f l); cbn; [|discriminate].
  intros [= <-]. f_equal; auto.
Qed.

Definition setR (fac : R) (i : nat) (only : option (option (list string))) (ev : evres) : list (string * list entry) :=
  map (fun p => (fst p, set_nth (snd p) i (newR fac (at_ (evW ev) i) only (fst p) (at_ (snd p) i)))) (evR ev).

Lemma rescale_event_ok Nf fac i only ev ev' : well_formed Nf ev -> (i < Nf)%nat ->
  rescale_event fac i only ev = Ok ev' ->
  ev' = {| evW := set_nth (evW ev) i (newW fac i only ev); evR := setR fac i only ev |}.
Proof.
  intros (_ & LW & LR) Hi. unfold rescale_event, newW, newcol, setR. destruct (valid (at_ (evW ev) i)) eqn:V; cbn [negb].
  - destruct (mapM _ _) as [Rs|] eqn:E; cbn [bind]; [|discriminate]. intros [= <-].
    apply (mapM_map _ (fun p => (fst p, set_nth (snd p) i (newR fac (at_ (evW ev) i) only (fst p) (at_ (snd p) i))))) in E.
    2:{ intros a b. now apply rescale_station_ok. }
    subst Rs. f_equal.
    assert (EF : forall (l : list (string * list entry)), Forall (fun p => List.length (snd p) = Nf) l ->
      forallb (fun p => negb (valid (at_ (snd p) i)))
       (map (fun p => (fst p, set_nth (snd p) i (newR fac (at_ (evW ev) i) only (fst p) (at_ (snd p) i)))) l) =
      forallb (fun p => negb (valid (snd p)))
       (map (fun p => (fst p, newR fac (at_ (evW ev) i) only (fst p) (snd p))) (map (fun p => (fst p, at_ (snd p) i)) l))).
    { induction l as [|q l IH]; intros HL; [reflexivity|]. inversion HL; subst. cbn [map forallb fst snd].
      rewrite at_set_nth, Nat.eqb_refl by lia. now rewrite IH. }
    unfold col. rewrite <- (EF _ LR). destruct (forallb _ _); [now rewrite set_nth_twice|reflexivity].
  - intros [= <-]. rewrite set_nth_same. unfold newR. rewrite V. cbn [negb].
    rewrite (map_ext _ (fun p => p)), map_id.
    + now destruct ev.
    + intros [s l]. cbn. now rewrite set_nth_same.
Qed.

Definition cell (i : nat) (fac : R) (only : option (option (list string))) (ev ev' : evres) : Prop :=
  col i ev' = newcol fac i only ev /\ at_ (evW ev') i = newW fac i only ev.

Lemma rescale_event_cell Nf fac i only ev ev' : well_formed Nf ev -> (i < Nf)%nat ->
  rescale_event fac i only ev = Ok ev' ->
  well_formed Nf ev' /\ cell i fac only ev ev' /\
  forall j, j <> i -> col j ev' = col j ev /\ at_ (evW ev') j = at_ (evW ev) j.
Proof.
  intros WF Hi H. assert (E := rescale_event_ok Nf fac i only ev ev' WF Hi H). subst ev'. clear H.
  destruct WF as (ND & LW & LR). rewrite Forall_forall in LR. split; [|split].
  - split; [|split]; cbn.
    + unfold setR. rewrite map_map. exact ND.
    + now rewrite set_nth_length.
    + unfold setR. apply Forall_forall. intros p Hp. apply in_map_iff in Hp as (q & <- & Hq). cbn. rewrite set_nth_length. auto.
  - split; cbn [evW evR].
    + unfold setR, newcol, col. cbn [evR]. rewrite !map_map. cbn [fst snd]. apply map_ext_in. intros p Hp.
      rewrite at_set_nth, Nat.eqb_refl by (rewrite LR; auto). reflexivity.
    + rewrite at_set_nth, Nat.eqb_refl by lia. reflexivity.
  - intros j Hj. apply Nat.eqb_neq in Hj. split; cbn [evW evR].
    + unfold col, setR. cbn [evR]. rewrite map_map. cbn [fst snd]. apply map_ext_in. intros p Hp.
      rewrite at_set_nth, Hj by (rewrite LR; auto). reflexivity.
    + rewrite at_set_nth, Hj by lia. reflexivity.
Qed.

Definition ev0 : evres := {| evW := []; evR := [] |}.

Lemma enum_length {A} (l : list A) : List.length (enum l) = List.length l.
Proof. unfold enum. rewrite combine_length, seq_length. lia. Qed.

Lemma enum_nth {A} (l : list A) k d e : (k < List.length l)%nat -> nth k (enum l) (e, d) = (k, nth k l d).
Proof. intros H. unfold enum. rewrite combine_nth by (now rewrite seq_length). now rewrite seq_nth by assumption. Qed.

Lemma enum_In {A} (l : list A) k a : In (k, a) (enum l) <-> nth_error l k = Some a.
Proof.
  split.
  - intros H. apply (In_nth _ _ (0%nat, a)) in H as (j & Hj & E). rewrite enum_length in Hj.
    rewrite enum_nth in E by assumption. injection E as <- E. rewrite <- E. now apply nth_error_nth'.
  - intros H. assert (L : (k < List.length l)%nat) by (apply nth_error_Some; congruence).
    apply nth_error_nth with (d := a) in H. rewrite <- H. rewrite <- (enum_nth l k a 0%nat L).
    apply nth_In. now rewrite enum_length.
Qed.

Section Rescale.
Variables (Nf : nat) (factors : nat -> nat -> R) (only : option (list (option (list string)))).

Definition rescaled (m : nat) (evs evs' : list evres) : Prop :=
  List.length evs' = List.length evs /\ Forall (well_formed Nf) evs' /\
  forall k, (k < List.length evs)%nat ->
    let ev := nth k evs ev0 in let ev' := nth k evs' ev0 in
    (forall i, (i < m)%nat -> cell i (factors k i) (only_at only i) ev ev') /\
    (forall i, (m <= i)%nat -> col i ev' = col i ev /\ at_ (evW ev') i = at_ (evW ev) i).

Lemma cell_cong i fac o ev1 ev2 ev' : col i ev1 = col i ev2 -> at_ (evW ev1) i = at_ (evW ev2) i ->
  cell i fac o ev1 ev' -> cell i fac o ev2 ev'.
Proof.
  intros H1 H2 [H3 H4]. unfold cell, newcol, newW, newcol in *. rewrite <- H1, <- H2. auto.
Qed.

Lemma Forall_nth_wf evs k : Forall (well_formed Nf) evs -> (k < List.length evs)%nat -> well_formed Nf (nth k evs ev0).
Proof. intros H Hk. rewrite Forall_forall in H. apply H. now apply nth_In. Qed.

Lemma rescale_prefix evs : Forall (well_formed Nf) evs -> forall m, (m <= Nf)%nat -> forall evs',
  rescale_results evs m factors only = Ok evs' -> rescaled m evs evs'.
Proof.
  intros WF. unfold rescale_results.
  { induction m as [|m IH]; intros Hm es.
    - cbn. intros [= <-]. split; [reflexivity|]. split; [exact WF|]. intros k Hk. split; [intros; lia|auto].
    - rewrite seq_S, fold_left_app. cbn [plus].
      set (st := fold_left _ (seq 0 m) (Ok evs)) in *. destruct st as [es1|] eqn:E; [|cbn; discriminate].
      cbn [fold_left bind]. intros H. destruct (IH ltac:(lia) es1 eq_refl) as (L1 & W1 & C1). clear IH.
      assert (L := mapM_length _ _ _ H). rewrite enum_length in L.
      assert (K : forall k, (k < List.length evs)%nat ->
        rescale_event (factors k m) m (only_at only m) (nth k es1 ev0) = Ok (nth k es ev0)).
      { intros k Hk. assert (N := mapM_nth _ _ _ k (0%nat, ev0) ev0 H). rewrite enum_length, enum_nth in N by lia.
        cbn [fst snd] in N. apply N. lia. }
      split; [lia|]. split.
      + apply Forall_forall. intros e He. apply (In_nth _ _ ev0) in He as (k & Hk & <-).
        destruct (rescale_event_cell Nf _ m _ _ _ (Forall_nth_wf es1 k W1 ltac:(lia)) ltac:(lia) (K k ltac:(lia))) as (W & _).
        exact W.
      + intros k Hk ev ev'. destruct (C1 k Hk) as [C2 C3].
        destruct (rescale_event_cell Nf _ m _ _ _ (Forall_nth_wf es1 k W1 ltac:(lia)) ltac:(lia) (K k ltac:(lia))) as (_ & Cm & Co).
        fold ev' in Cm, Co. split.
        * intros i Hi. destruct (Nat.eq_dec i m) as [->|Ne].
          -- destruct (C3 m (le_n _)). eapply cell_cong; eauto.
          -- destruct (C2 i ltac:(lia)) as [A1 A2]. destruct (Co i Ne) as [B1 B2]. split; [rewrite B1; exact A1|rewrite B2; exact A2].
        * intros i Hi. destruct (C3 i ltac:(lia)) as [A1 A2]. destruct (Co i ltac:(lia)) as [B1 B2]. split; [rewrite B1; exact A1|rewrite B2; exact A2]. }
Qed.

Lemma rescale_spec evs evs' : Forall (well_formed Nf) evs ->
  rescale_results evs Nf factors only = Ok evs' -> rescaled Nf evs evs'.
Proof. intros WF. apply rescale_prefix; auto. Qed.

Lemma rescale_results_S evs m es : rescale_results evs (S m) factors only = Ok es ->
  exists es1, rescale_results evs m factors only = Ok es1 /\
    mapM (fun p => rescale_event (factors (fst p) m) m (only_at only m) (snd p)) (enum es1) = Ok es.
Proof.
  unfold rescale_results. rewrite seq_S, fold_left_app. cbn [plus].
  destruct (fold_left _ (seq 0 m) (Ok evs)) as [es1|] eqn:E; cbn [fold_left bind]; [|discriminate]. eauto.
Qed.

Lemma rescale_results_prefix evs n es m : (m <= n)%nat -> rescale_results evs n factors only = Ok es ->
  exists es1, rescale_results evs m factors only = Ok es1.
Proof.
  revert es. induction n as [|n IH]; intros es Hm H.
  - assert (m = 0)%nat as -> by lia. eauto.
  - destruct (Nat.eq_dec m (S n)) as [->|]; [eauto|]. apply rescale_results_S in H as (es1 & H & _).
    apply (IH es1); [lia|assumption].
Qed.

(** without an area at a frequency nothing may be left to scale *)
Lemma rescale_none evs evs' i : Forall (well_formed Nf) evs -> rescale_results evs Nf factors only = Ok evs' ->
  (i < Nf)%nat -> only_at only i = Some None ->
  forall ev s, In ev evs -> energy_of ev i <> None -> response_of ev i s = None.
Proof.
  intros WF H Hi Ho ev s Hev He.
  destruct (rescale_results_prefix evs Nf evs' (S i) ltac:(lia) H) as (es2 & H2).
  apply rescale_results_S in H2 as (es1 & H1 & H2).
  destruct (rescale_prefix evs WF i ltac:(lia) es1 H1) as (L & W1 & C1).
  apply (In_nth _ _ ev0) in Hev as (k & Hk & <-). destruct (C1 k Hk) as [_ C2]. destruct (C2 i (le_n _)) as [C3 C4].
  assert (N := mapM_nth _ _ _ k (0%nat, ev0) ev0 H2). rewrite enum_length, enum_nth in N by lia.
  cbn [fst snd] in N. specialize (N ltac:(lia)).
  set (ev1 := nth k es1 ev0) in *. unfold rescale_event in N. rewrite C4 in N.
  assert (V : valid (at_ (evW (nth k evs ev0)) i) = true).
  { unfold energy_of in He. destruct (at_ (evW (nth k evs ev0)) i); [congruence|congruence|reflexivity]. }
  rewrite V in N. cbn [negb] in N. destruct (mapM _ (evR ev1)) as [Rs|] eqn:ER; [|discriminate]. clear N.
  unfold response_of. destruct (dget String.eqb (evR (nth k evs ev0)) s) as [l|] eqn:D; [|reflexivity].
  apply (dget_In _ string_eqb_spec) in D.
  assert (Hin : In (s, at_ l i) (col i ev1)). { rewrite C3. unfold col. apply in_map_iff. exists (s, l). auto. }
  unfold col in Hin. apply in_map_iff in Hin as ([s' l'] & Eq & Hin). cbn [fst snd] in Eq. injection Eq as -> Eq.
  rewrite <- Eq. apply (In_nth _ _ (s, l')) in Hin as (j & Hj & En).
  assert (M := mapM_nth _ _ _ j (s, l') (s, l') ER Hj). rewrite En in M. unfold rescale_station in M. rewrite Ho in M.
  destruct (at_ l' i); cbn in M; [reflexivity|reflexivity|discriminate].
Qed.

Lemma rescale_succeeds evs : Forall (well_formed Nf) evs ->
  (forall i, (i < Nf)%nat -> only_at only i <> Some None \/
     forall ev s, In ev evs -> energy_of ev i <> None -> ~ In s (evR ev) \/ valid (at_ (snd s) i) = false) ->
  exists evs', rescale_results evs Nf factors only = Ok evs'.
Proof.
  intros WF HO. unfold rescale_results.
  assert (G : forall m, (m <= Nf)%nat -> exists es,
    fold_left (fun acc i => do evs <- acc;
      mapM (fun p => rescale_event (factors (fst p) i) i (only_at only i) (snd p)) (enum evs)) (seq 0 m) (Ok evs) = Ok es /\
    rescaled m evs es).
  { induction m as [|m IH]; intros Hm.
    - exists evs. split; [reflexivity|]. split; [reflexivity|]. split; [exact WF|]. intros k Hk. split; [intros; lia|auto].
    - destruct (IH ltac:(lia)) as (es1 & E & R1). clear IH. rewrite seq_S, fold_left_app. cbn [plus]. rewrite E.
      cbn [fold_left bind]. assert (R1' := R1). destruct R1' as (L1 & W1 & C1).
      destruct (mapM_ok (fun p => rescale_event (factors (fst p) m) m (only_at only m) (snd p)) (enum es1)) as [es Hes].
      { intros [k ev] Hin. apply enum_In in Hin. cbn [fst snd].
        assert (Hk : (k < List.length es1)%nat) by (apply nth_error_Some; congruence).
        apply nth_error_nth with (d := ev0) in Hin.
        unfold rescale_event. destruct (valid (at_ (evW ev) m)) eqn:V; cbn [negb]; [|eauto].
        destruct (mapM_ok (rescale_station (factors k m) m (only_at only m)) (evR ev)) as [Rs ->]; [|cbn; eauto].
        intros [s l] Hs. unfold rescale_station. destruct (valid (at_ l m)) eqn:V2; cbn [negb]; [|eauto].
        destruct (only_at only m) as [[area|]|] eqn:Eo; [destruct (inb _ _ _); eauto| |eauto].
        exfalso. destruct (HO m ltac:(lia)) as [H|H]; [congruence|].
        destruct (C1 k ltac:(lia)) as [_ C3]. destruct (C3 m (le_n _)) as [C4 C5]. rewrite Hin in C4, C5.
        assert (Hs' : In (s, at_ l m) (col m (nth k evs ev0))).
        { rewrite <- C4. unfold col. apply in_map_iff. exists (s, l). auto. }
        unfold col in Hs'. apply in_map_iff in Hs' as ([s' l'] & Eq & Hin'). cbn in Eq. injection Eq as -> Eq.
        assert (En : energy_of (nth k evs ev0) m <> None).
        { unfold energy_of. rewrite <- C5. destruct (at_ (evW ev) m); try discriminate. }
        destruct (H (nth k evs ev0) (s, l') (@nth_In evres k evs ev0 ltac:(lia)) En) as [A|A]; [contradiction|].
        cbn in A. unfold at_ in *. congruence. }
      exists es. split; [exact Hes|].
      assert (L := mapM_length _ _ _ Hes). rewrite enum_length in L.
      assert (K : forall k, (k < List.length evs)%nat ->
        rescale_event (factors k m) m (only_at only m) (nth k es1 ev0) = Ok (nth k es ev0)).
      { intros k Hk. assert (N := mapM_nth _ _ _ k (0%nat, ev0) ev0 Hes). rewrite enum_length, enum_nth in N by lia.
        cbn [fst snd] in N. apply N. lia. }
      split; [lia|]. split.
      + apply Forall_forall. intros e He. apply (In_nth _ _ ev0) in He as (k & Hk & <-).
        destruct (rescale_event_cell Nf _ m _ _ _ (Forall_nth_wf es1 k W1 ltac:(lia)) ltac:(lia) (K k ltac:(lia))) as (W & _).
        exact W.
      + intros k Hk ev ev'. destruct (C1 k Hk) as [C2 C3].
        destruct (rescale_event_cell Nf _ m _ _ _ (Forall_nth_wf es1 k W1 ltac:(lia)) ltac:(lia) (K k ltac:(lia))) as (_ & Cm & Co).
        fold ev' in Cm, Co. split.
        * intros i Hi. destruct (Nat.eq_dec i m) as [->|Ne].
          -- destruct (C3 m (le_n _)). eapply cell_cong; eauto.
          -- destruct (C2 i ltac:(lia)) as [A1 A2]. destruct (Co i Ne) as [B1 B2]. split; [rewrite B1; exact A1|rewrite B2; exact A2].
        * intros i Hi. destruct (C3 i ltac:(lia)) as [A1 A2]. destruct (Co i ltac:(lia)) as [B1 B2]. split; [rewrite B1; exact A1|rewrite B2; exact A2]. }
  destruct (G Nf (le_n _)) as (es & E & _). eauto.
Qed.
End Rescale.

(** ** in terms of responses *)
Lemma dget_map_val {V W} (f : string -> V -> W) (d : list (string * V)) s :
  dget String.eqb (map (fun p => (fst p, f (fst p) (snd p))) d) s = option_map (f s) (dget String.eqb d s).
Proof.
  induction d as [|[k v] d IH]; cbn; [reflexivity|]. destruct (String.eqb_spec s k); [now subst|exact IH].
Qed.

Lemma response_of_col ev i s :
  response_of ev i s = match dget String.eqb (col i ev) s with Some (ENum r) => Some r | _ => None end.
Proof.
  unfold response_of, col. rewrite (dget_map_val (fun _ l => at_ l i)).
  destruct (dget String.eqb (evR ev) s) as [l|]; cbn; [|reflexivity]. reflexivity.
Qed.

Definition kept (o : option (option (list string))) (s : string) : bool :=
  match o with Some (Some area) => inb String.eqb s area | _ => true end.

Lemma cell_response i fac o ev ev' s : cell i fac o ev ev' ->
  response_of ev' i s = match energy_of ev i, response_of ev i s with
                        | None, r => r
                        | Some _, Some r => if kept o s then Some (r * fac) else None
                        | Some _, None => None
                        end.
Proof.
  intros [C _]. rewrite response_of_col, C. unfold newcol.
  rewrite (dget_map_val (fun s e => newR fac (at_ (evW ev) i) o s e)).
  rewrite (response_of_col ev i s). unfold energy_of, newR, kept.
  destruct (dget String.eqb (col i ev) s) as [e|]; cbn [option_map].
  2:{ destruct (at_ (evW ev) i); reflexivity. }
  destruct (at_ (evW ev) i); cbn [valid negb]; destruct e; try reflexivity; destruct o as [[area|]|]; cbn; auto;
  destruct (inb String.eqb s area); reflexivity.
Qed.

Lemma cell_energy i fac o ev ev' : NoDup (map fst (evR ev)) -> cell i fac o ev ev' ->
  energy_of ev' i = match energy_of ev i with
                    | None => None
                    | Some w => if forallb (fun s => match response_of ev' i s with None => true | _ => false end) (map fst (evR ev))
                                then None else Some (w / fac)
                    end.
Proof.
  intros ND C. assert (CR := fun s => cell_response i fac o ev ev' s C). destruct C as [C CW]. unfold energy_of at 1. rewrite CW. unfold newW.
  unfold energy_of at 1. destruct (at_ (evW ev) i) as [| |w] eqn:EW; cbn [valid negb]; try reflexivity.
  assert (F : forallb (fun p => negb (valid (snd p))) (newcol fac i o ev) =
              forallb (fun s => match response_of ev' i s with None => true | _ => false end) (map fst (evR ev))).
  { rewrite <- C. apply eq_true_iff_eq. rewrite !forallb_forall.
    assert (K : map fst (col i ev') = map fst (evR ev)).
    { rewrite C. unfold newcol, col. rewrite !map_map. reflexivity. }
    assert (ND' : NoDup (map fst (col i ev'))) by now rewrite K.
    split.
    - intros H s Hs. rewrite response_of_col. destruct (dget String.eqb (col i ev') s) as [e|] eqn:E; [|reflexivity].
      apply (dget_map_In _ _ _ ND') in E. apply H in E. cbn in E. destruct e; [reflexivity..|discriminate].
    - intros H [s e] Hp. cbn. assert (Hs : In s (map fst (evR ev))). { rewrite <- K. change s with (fst (s, e)). now apply in_map. }
      apply H in Hs. rewrite response_of_col in Hs. apply (dget_map_In _ _ _ ND') in Hp. rewrite Hp in Hs.
      destruct e; [reflexivity..|discriminate]. }
  rewrite F. clear F. destruct (forallb _ _); reflexivity.
Qed.
