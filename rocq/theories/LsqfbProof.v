(** Proofs about the system of equations of a frequency band. *)
From Coq Require Import String List Bool Reals Lra Lia ZArith Arith.
From Verif Require Import Base Pyf PyfOps StatProof FbModel LsqfbModel LsqfbSpec.
Import ListNotations.
Open Scope string_scope.
Open Scope list_scope.
Open Scope R_scope.

(** ** Lists *)
Lemma fromkeys_into_spec l : forall seen,
  NoDup (fromkeys_into seen l) /\
  forall x, In x (fromkeys_into seen l) <-> In x l /\ ~ In x seen.
Proof.
  induction l as [|y l IH]; intros seen; cbn [fromkeys_into].
  - split; [constructor|]. cbn. tauto.
  - destruct (inb String.eqb y seen) eqn:I.
    + apply (inb_In String.eqb string_eqb_spec) in I. destruct (IH seen) as [N H]. split; [exact N|].
      intros x. rewrite H. cbn. split; [tauto|]. intros [[->|?] ?]; tauto.
    + assert (NI : ~ In y seen).
      { intros Q. apply (inb_In String.eqb string_eqb_spec) in Q. congruence. }
      destruct (IH (y :: seen)) as [N H]. split.
      * constructor; [|exact N]. rewrite H. cbn. tauto.
      * intros x. cbn. rewrite H. cbn. destruct (string_dec y x) as [->|NE]; [tauto|]. tauto.
Qed.

Lemma fromkeys_spec l : lists_once (fromkeys l) l.
Proof.
  destruct (fromkeys_into_spec l []) as [N H]. split; [exact N|].
  intros x. unfold fromkeys. rewrite H. cbn. tauto.
Qed.

Lemma index_of_ok l x : In x l -> exists i, index_of l x = Ok i.
Proof.
  induction l as [|y l IH]; cbn; [tauto|]. intros H. destruct (String.eqb y x) eqn:E; [eauto|].
  apply String.eqb_neq in E. destruct H as [H|H]; [contradiction|]. destruct (IH H) as [i ->].
  cbn. eauto.
Qed.

Lemma index_of_spec l x : forall i, index_of l x = Ok i -> nth_error l i = Some x.
Proof.
  induction l as [|y l IH]; cbn; [discriminate|]. intros i. destruct (String.eqb y x) eqn:E.
  - intros [= <-]. apply String.eqb_eq in E. now subst.
  - destruct (index_of l x) as [j|]; [|discriminate]. cbn. intros [= <-]. cbn. auto.
Qed.

Lemma index_of_lt l x i : index_of l x = Ok i -> (i < List.length l)%nat.
Proof. intros H. apply index_of_spec in H. apply nth_error_Some. congruence. Qed.

Lemma map_num_nth l i : nth i (map FNum l) (FNum 0) = FNum (nth i l 0).
Proof. revert i. induction l; destruct i; cbn; auto. Qed.

Lemma put_spec l : forall i x, (i < List.length l)%nat ->
  exists l', put (map FNum l) i (FNum x) = Ok (map FNum l') /\ List.length l' = List.length l /\
    (forall k, nth k l' 0 = if Nat.eqb k i then x else nth k l 0) /\
    forall c, List.length c = List.length l ->
      dotr l' c = dotr l c + (x - nth i l 0) * nth i c 0.
Proof.
  induction l as [|y l IH]; intros i x H; cbn in H; [lia|]. destruct i as [|i]; cbn [put map].
  - exists (x :: l). split; [reflexivity|]. split; [reflexivity|]. split.
    + intros [|k]; reflexivity.
    + intros [|z c] L; cbn in L; [discriminate|]. cbn. lra.
  - destruct (IH i x) as (l' & P & L & N & D); [lia|]. exists (y :: l'). rewrite P. cbn.
    split; [reflexivity|]. split; [now rewrite L|]. split.
    + intros [|k]; [reflexivity|]. cbn. apply N.
    + intros [|z c] LC; cbn in LC; [discriminate|]. cbn. rewrite D by lia. lra.
Qed.

Lemma dotr_zeros n : forall c, dotr (repeat 0 n) c = 0.
Proof. induction n; intros [|x c]; cbn; try reflexivity. rewrite IHn. lra. Qed.

Lemma nth_repeat0 n k : nth k (repeat 0 n) 0 = 0.
Proof. revert k. induction n; destruct k; cbn; auto. Qed.

Lemma map_repeat {A B} (f : A -> B) x n : map f (repeat x n) = repeat (f x) n.
Proof. induction n; cbn; [reflexivity|now rewrite IHn]. Qed.

Lemma last_nth {A} (l : list A) d : last l d = nth (List.length l - 1) l d.
Proof.
  induction l as [|x l IH]; [reflexivity|]. destruct l as [|y l]; [reflexivity|].
  change (last (x :: y :: l) d) with (last (y :: l) d). rewrite IH. cbn [List.length].
  replace (S (S (List.length l)) - 1)%nat with (S (List.length l)) by lia.
  replace (S (List.length l) - 1)%nat with (List.length l) by lia. reflexivity.
Qed.

Lemma put_last_spec l x : l <> [] ->
  exists l', put_last (map FNum l) (FNum x) = Ok (map FNum l') /\ List.length l' = List.length l /\
    forall c, List.length c = List.length l ->
      dotr l' c = dotr l c + (x - last l 0) * last c 0.
Proof.
  intros N. destruct (put_spec l (List.length l - 1) x) as (l' & P & L & _ & D).
  { destruct l; [contradiction|]. cbn. lia. }
  exists l'. split; [|split; [exact L|]].
  - unfold put_last. destruct l as [|y l]; [contradiction|]. cbn [map].
    change (FNum y :: map FNum l) with (map FNum (y :: l)). now rewrite map_length.
  - intros c LC. rewrite D by exact LC. now rewrite !last_nth, LC.
Qed.

(** ** Blocks and samples *)
Lemma Forall2_stretch {A} (Q : string * string -> A -> Prop) bs : forall rows,
  Forall2 (fun b x => Q (fst b) x) bs rows ->
  Forall2 (fun x (s : sample) => Q (fst s) x)
    (stretch (map (fun b => List.length (snd b)) bs) rows)
    (flat_map (fun b => map (fun te => (fst b, te)) (snd b)) bs).
Proof.
  induction bs as [|[p l] bs IH]; intros rows H; inversion H as [|? x ? rows' Q1 Q2]; subst; cbn; [constructor|].
  apply Forall2_app; [|now apply IH]. cbn in Q1. clear - Q1.
  induction l as [|te l IH]; cbn; constructor; auto.
Qed.

Lemma combine_fst {A B} (l : list A) : forall (m : list B), List.length l = List.length m ->
  map fst (combine l m) = l.
Proof. induction l; intros [|y m] H; cbn in *; try discriminate; auto. f_equal. auto. Qed.

Lemma combine_snd {A B} (l : list A) : forall (m : list B), List.length l = List.length m ->
  map snd (combine l m) = m.
Proof. induction l; intros [|y m] H; cbn in *; try discriminate; auto. f_equal. auto. Qed.

Section P.
  Variable o : lopts.
  Variable st : wstate.
  Hypothesis AL : aligned st.

  Let ps := pairs st.

  Lemma aligned_lengths : List.length (w_tcoda st) = List.length (w_ecoda st).
  Proof. destruct AL as (_ & _ & H & _). clear - H. induction H; cbn; auto. Qed.

  Lemma blocks_lengths : block_lengths st = map (fun b => List.length (snd b)) (blocks st).
  Proof.
    destruct AL as (NE & LE & F & LB & LP). unfold block_lengths, blocks. rewrite map_app. f_equal.
    - pose proof aligned_lengths as LT.
      rewrite <- (map_map snd (@List.length (pyf * pyf))).
      rewrite combine_snd by (rewrite map_length, combine_length; lia).
      rewrite map_map. clear - F.
      induction F as [|t e ts es H F IH]; [reflexivity|]. cbn [combine map fst snd]. rewrite <- IH. f_equal.
      rewrite combine_length, map_length. lia.
    - rewrite <- (map_map snd (@List.length (pyf * pyf))).
      destruct LP as [Z|LP].
      + rewrite Z in *. destruct (w_tbulk st); cbn in LB; [|discriminate]. now destruct (pairs st).
      + rewrite combine_snd by (rewrite map_length, combine_length; lia).
        rewrite map_map. cbn [List.length]. clear - LB. revert LB. generalize (w_tbulk st).
        induction (w_ebulk st) as [|e l IH]; intros [|t tl] H; cbn in *; try discriminate; auto.
        f_equal. auto.
  Qed.

  (** the pair of block i *)
  Lemma pair_at_blocks i b : nth_error (blocks st) i = Some b -> pair_at st i = Ok (fst b).
  Proof.
    destruct AL as (NE & LE & F & LB & LP). pose proof aligned_lengths as LT.
    unfold blocks, pair_at. set (b1 := combine (pairs st) (map _ (combine (w_tcoda st) (w_ecoda st)))).
    set (b2 := combine (pairs st) (map _ (combine (w_tbulk st) (w_ebulk st)))).
    assert (M1 : map fst b1 = pairs st) by (apply combine_fst; rewrite map_length, combine_length; lia).
    assert (M2 : b2 = [] \/ map fst b2 = pairs st).
    { destruct LP as [Z|LP].
      - left. unfold b2. rewrite Z in *. destruct (w_tbulk st); cbn in LB; [|discriminate]. now destruct (pairs st).
      - right. apply combine_fst. rewrite map_length, combine_length. lia. }
    assert (L1 : List.length b1 = List.length (pairs st)) by (now rewrite <- M1, map_length).
    assert (LN : (0 < List.length (pairs st))%nat) by (destruct (pairs st); [contradiction|cbn; lia]).
    intros H. destruct (pairs st) as [|p0 pr] eqn:EP; [contradiction|]. rewrite <- EP in *. clear EP.
    assert (K : nth_error (pairs st) (i mod List.length (pairs st)) = Some (fst b)).
    { destruct (Nat.lt_ge_cases i (List.length b1)) as [C|C].
      - rewrite nth_error_app1 in H by exact C. rewrite Nat.mod_small by lia.
        rewrite <- M1. now apply map_nth_error.
      - rewrite nth_error_app2 in H by exact C.
        destruct M2 as [M2|M2]; [rewrite M2 in H; destruct (i - List.length b1)%nat; discriminate|].
        assert (L2 : List.length b2 = List.length (pairs st)) by (now rewrite <- M2, map_length).
        assert (D : (i - List.length b1 < List.length b2)%nat) by (apply nth_error_Some; congruence).
        replace i with ((i - List.length (pairs st)) + 1 * List.length (pairs st))%nat by lia.
        rewrite Nat.mod_add by lia. rewrite Nat.mod_small by lia.
        rewrite L1 in H. rewrite <- M2 at 1. now apply map_nth_error. }
    now rewrite K.
  Qed.

  Lemma mapM_blocks {A} (f : nat -> res A) (g : string * string -> res A) rows :
    (forall i p, pair_at st i = Ok p -> f i = g p) ->
    mapM f (seq 0 (List.length (block_lengths st))) = Ok rows ->
    Forall2 (fun b x => g (fst b) = Ok x) (blocks st) rows.
  Proof.
    intros FG. rewrite blocks_lengths, map_length.
    assert (G : forall l k rows, (forall i b, nth_error l i = Some b -> pair_at st (k + i) = Ok (fst b)) ->
              mapM f (seq k (List.length l)) = Ok rows ->
              Forall2 (fun (b : string * string * list (pyf * pyf)) x => g (fst b) = Ok x) l rows).
    { clear rows. induction l as [|b l IH]; intros k rows N M; cbn [List.length seq mapM] in M.
      - injection M as <-. constructor.
      - destruct (f k) as [x|] eqn:E; [|discriminate]. cbn [bind] in M.
        destruct (mapM f (seq (S k) (List.length l))) as [r|] eqn:M'; [|discriminate].
        cbn [bind] in M. injection M as <-. constructor.
        + rewrite <- (FG k); [exact E|]. specialize (N 0%nat b eq_refl). now rewrite Nat.add_0_r in N.
        + apply (IH (S k)); [|exact M']. intros i b' Hi. specialize (N (S i) b' Hi).
          now replace (S k + i)%nat with (k + S i)%nat by lia. }
    apply G. intros i b H. now apply pair_at_blocks.
  Qed.

  Lemma pairs_in_blocks b : In b (blocks st) -> In (fst b) (pairs st).
  Proof.
    unfold blocks. intros I. apply in_app_or in I.
    destruct I as [I|I]; destruct b as [p l]; apply in_combine_l in I; exact I.
  Qed.

  Lemma station_index p : In p (pairs st) -> exists j, index_of (stations st) (snd p) = Ok j.
  Proof.
    intros I. apply index_of_ok. apply (proj2 (fromkeys_spec _)). now apply in_map.
  Qed.

  Lemma event_index p : In p (pairs st) -> exists j, index_of (eventids st) (fst p) = Ok j.
  Proof.
    intros I. apply index_of_ok. apply (proj2 (fromkeys_spec _)). now apply in_map.
  Qed.

  (** ** Rows *)
  Definition row_of (p : string * string) : res (list pyf) :=
    let (evid, sta) := p in
    do j <- index_of (stations st) sta;
    do a <- put (repeat (FNum 0) (Ns st + Ne st - fix01 o)) j (FNum 1);
    do idx <- index_of (eventids st) evid;
    if Nat.ltb 0 idx then put a (Ns st + idx - 1) (FNum 1) else Ok a.

  Lemma row_free_of i p : pair_at st i = Ok p -> row_free o st i = row_of p.
  Proof. intros H. unfold row_free, row_of. rewrite H. destruct p. reflexivity. Qed.

  Definition width : nat := Ns st + Ne st - fix01 o.

  Lemma fix01_le : (fix01 o <= 1)%nat.
  Proof. unfold fix01. destruct (l_fix o); lia. Qed.

  Lemma Ne_pos : (0 < Ne st)%nat.
  Proof.
    unfold Ne. destruct AL as (NE & _). destruct (pairs st) as [|p ps'] eqn:E; [contradiction|].
    destruct (event_index p) as [j J]; [rewrite E; now left|]. apply index_of_lt in J. lia.
  Qed.

  Lemma row_of_spec p j idx :
    index_of (stations st) (snd p) = Ok j -> index_of (eventids st) (fst p) = Ok idx ->
    exists row, row_of p = Ok (map FNum row) /\ List.length row = width /\
      (l_fix o = false -> last row 0 = 0) /\
      forall c, List.length c = width ->
        dotr row c = nth j c 0 + (if Nat.ltb 0 idx then nth (Ns st + idx - 1) c 0 else 0).
  Proof.
    intros J I. destruct p as [evid sta]. cbn [fst snd] in *.
    pose proof (index_of_lt _ _ _ J) as JL. pose proof (index_of_lt _ _ _ I) as IL.
    fold (Ns st) in JL. fold (Ne st) in IL. pose proof fix01_le as F1.
    unfold row_of. rewrite J. cbn [bind].
    replace (repeat (FNum 0) (Ns st + Ne st - fix01 o)) with (map FNum (repeat 0 width)) by apply map_repeat.
    destruct (put_spec (repeat 0 width) j 1) as (a & P & L & N & D).
    { rewrite repeat_length. unfold width. lia. }
    rewrite repeat_length in L. rewrite P, I. cbn [bind].
    assert (DA : forall c, List.length c = width -> dotr a c = nth j c 0).
    { intros c LC. rewrite D by (rewrite repeat_length; exact LC). rewrite dotr_zeros, nth_repeat0. lra. }
    destruct (Nat.ltb_spec 0 idx) as [C|C].
    - destruct (put_spec a (Ns st + idx - 1) 1) as (a2 & P2 & L2 & N2 & D2).
      { rewrite L. unfold width. lia. }
      exists a2. split; [exact P2|]. split; [lia|]. split.
      + intros FX. rewrite last_nth, L2, N2, L. unfold width, fix01. rewrite FX.
        destruct (Nat.eqb_spec (Ns st + Ne st - 0 - 1) (Ns st + idx - 1)); [lia|].
        rewrite N, nth_repeat0. destruct (Nat.eqb_spec (Ns st + Ne st - 0 - 1) j); [lia|reflexivity].
      + intros c LC. rewrite D2 by lia. rewrite DA by exact LC. rewrite N, nth_repeat0.
        destruct (Nat.eqb_spec (Ns st + idx - 1) j); [lia|]. lra.
    - exists a. split; [reflexivity|]. split; [exact L|]. split.
      + intros FX. rewrite last_nth, L, N, nth_repeat0. unfold width, fix01. rewrite FX.
        destruct (Nat.eqb_spec (Ns st + Ne st - 0 - 1) j); [lia|reflexivity].
      + intros c LC. rewrite DA by exact LC. lra.
  Qed.
End P.
