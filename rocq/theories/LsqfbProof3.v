(** C54: exact recovery of the parameters of synthetic data. *)
From Coq Require Import String List Bool Reals Lra Lia ZArith Arith.
From Verif Require Import Base Pyf PyfOps StatModel StatProof FbModel FbProof3 LsqfbModel LsqfbSpec LsqfbProof LsqfbProof2.
Import ListNotations.
Open Scope string_scope.
Open Scope list_scope.
Open Scope R_scope.

(** ** Least squares with a solution *)
Lemma sse_nonneg rows : forall b ws c, Forall (fun w => 0 < w) ws -> 0 <= sse rows b ws c.
Proof.
  induction rows as [|r rows IH]; intros [|y b] [|w ws] c H; cbn; try lra.
  inversion H; subst. specialize (IH b ws c H3). pose proof (Rle_0_sqr (dotr r c - y)) as Q.
  unfold Rsqr in Q. assert (0 <= w * ((dotr r c - y) * (dotr r c - y))) by (apply Rmult_le_pos; lra). lra.
Qed.

Lemma sse_exact rows : forall b ws c, Forall2 (fun r y => dotr r c = y) rows b -> sse rows b ws c = 0.
Proof.
  induction rows as [|r rows IH]; intros b ws c F; inversion F; subst; cbn; [reflexivity|].
  destruct ws; [reflexivity|]. rewrite IH by assumption. ring.
Qed.

Lemma sse_zero rows : forall b ws c, Forall (fun w => 0 < w) ws ->
  List.length b = List.length rows -> List.length ws = List.length rows ->
  sse rows b ws c <= 0 -> Forall2 (fun r y => dotr r c = y) rows b.
Proof.
  induction rows as [|r rows IH]; intros [|y b] [|w ws] c H L1 L2 S; cbn in *; try discriminate; constructor.
  - inversion H; subst. pose proof (sse_nonneg rows b ws c H3) as Q.
    pose proof (Rle_0_sqr (dotr r c - y)) as P. unfold Rsqr in P.
    assert (Z : (dotr r c - y) * (dotr r c - y) = 0).
    { apply Rle_antisym; [|exact P]. apply (Rmult_le_reg_l w); [assumption|]. lra. }
    apply Rmult_integral in Z. lra.
  - inversion H; subst. apply (IH b ws c); auto.
    pose proof (Rle_0_sqr (dotr r c - y)) as P. unfold Rsqr in P.
    assert (0 <= w * ((dotr r c - y) * (dotr r c - y))) by (apply Rmult_le_pos; lra). lra.
Qed.

Lemma lsq_exact wls n rows b ws c mse x : least_squares wls ->
  Forall (fun row => List.length row = n) rows -> List.length b = List.length rows ->
  match ws with None => True | Some w => Forall (fun w => 0 < w) w /\ List.length w = List.length rows end ->
  List.length x = n -> Forall2 (fun r y => dotr r x = y) rows b ->
  wls (map FNum b) (map (map FNum) rows) ws = Ok (c, mse) ->
  exists c', c = map FNum c' /\ List.length c' = n /\
    Forall2 (fun r y => dotr r c' = y) rows b /\ mse = FNum 0.
Proof.
  intros LS LR LB WP LX EX H. destruct (LS n rows b ws c mse LR LB H) as (c' & dof & -> & LC & DP & MIN & ->).
  set (w := match ws with None => repeat 1 (List.length rows) | Some w => w end) in *.
  assert (WP' : Forall (fun w => 0 < w) w /\ List.length w = List.length rows).
  { subst w. destruct ws; [exact WP|]. split; [|apply repeat_length].
    apply Forall_forall. intros y I. apply repeat_spec in I. lra. }
  destruct WP' as [W1 W2]. specialize (MIN x LX). rewrite (sse_exact _ _ _ _ EX) in MIN.
  exists c'. split; [reflexivity|]. split; [exact LC|]. split; [now apply (sse_zero rows b w)|].
  f_equal. pose proof (sse_nonneg rows b w c' W1). assert (sse rows b w c' = 0) as -> by lra. field. lra.
Qed.

(** ** Right hand side *)
Lemma zip_op_spec f x : forall y z, zip_op f x y = Ok z ->
  List.length x = List.length y /\ z = map (fun p => f (fst p) (snd p)) (combine x y).
Proof.
  induction x as [|a x IH]; intros [|b y] z H; cbn in H; try discriminate.
  - injection H as <-. auto.
  - destruct (zip_op f x y) as [r|] eqn:E; [|discriminate]. cbn in H. injection H as <-.
    destruct (IH _ _ E) as [L ->]. cbn. auto.
Qed.

Definition tof (s : sample) : R := match stime s with FNum t => t | _ => 0 end.

(** time of a sample whose time is a number *)
Lemma zip_synthetic site source bt ss : forall gs z,
  (forall s, In s ss -> 0 < site (snd (fst s)) /\ 0 < source (fst (fst s))) ->
  Forall2 (synthetic site source bt) ss gs ->
  zip_op fsub (map flog (map senergy ss)) (map flog gs) = Ok z ->
  z = map FNum (map (fun s => ln (source (fst (fst s))) + ln (site (snd (fst s))) - bt * tof s) ss) /\
  Forall (fun s => stime s = FNum (tof s)) ss.
Proof.
  induction ss as [|s ss IH]; intros gs z P F H; inversion F as [|? g ? gs' S F']; subst; cbn [map zip_op] in H.
  - injection H as <-. split; [reflexivity|constructor].
  - destruct (zip_op fsub _ _) as [r|] eqn:E; [|discriminate]. cbn [bind] in H. injection H as <-.
    destruct (IH gs' r) as [-> T]; [intros; apply P; now right|assumption|exact E|].
    destruct S as (t & e & x & T' & -> & XP & EE). destruct (P s) as [P1 P2]; [now left|].
    assert (T1 : stime s = FNum t) by (unfold stime; now rewrite T').
    assert (T2 : tof s = t) by (unfold tof; now rewrite T1).
    split; [|constructor; [now rewrite T1, T2|exact T]].
    cbn [map]. f_equal. unfold senergy. rewrite T'. cbn [snd]. rewrite T2.
    assert (EP : 0 < e).
    { rewrite EE. repeat apply Rmult_lt_0_compat; auto. apply exp_pos. }
    rewrite !flog_num by assumption. cbn. f_equal. rewrite EE.
    rewrite !ln_mult; try (repeat apply Rmult_lt_0_compat; auto); try apply exp_pos.
    rewrite ln_exp. ring.
Qed.

Lemma zip_op_map f (g h k : sample -> pyf) (ss : list sample) z :
  zip_op f (map g ss) (map h ss) = Ok z -> (forall s, In s ss -> f (g s) (h s) = k s) -> z = map k ss.
Proof.
  revert z. induction ss as [|s ss IH]; intros z H K; cbn [map zip_op] in H.
  - now injection H as <-.
  - destruct (zip_op f _ _) as [r|] eqn:E; [|discriminate]. cbn [bind] in H. injection H as <-.
    cbn [map]. rewrite (K s) by now left. f_equal. apply IH; [reflexivity|]. intros; apply K; now right.
Qed.

Lemma greens_nonempty o st g0 ps : forall ec tc r,
  greens o st g0 ps ec tc = Ok r -> List.length ec = List.length ps -> Forall (fun e => e <> []) ec.
Proof.
  induction ps as [|p ps IH]; intros [|e ec] tc r H L; cbn in L; try discriminate; [constructor|].
  cbn [greens] in H. destruct e as [|x e]; [discriminate|]. cbn [List.length Nat.eqb] in H.
  destruct (dget pair_eqb (w_distances st) p); [|discriminate]. destruct tc as [|t tc]; [discriminate|].
  destruct (l_gcoda o _ t g0); [|discriminate]. cbn [bind] in H.
  match type of H with bind ?x _ = _ => destruct x as [gb|]; [|discriminate] end. cbn [bind] in H.
  destruct (greens o st g0 ps ec tc) as [[gcs gbs]|] eqn:E; [|discriminate].
  constructor; [discriminate|]. apply (IH _ _ _ E). lia.
Qed.

Section P.
  Variable o : lopts.
  Variable st : wstate.
  Hypothesis AL : aligned st.

  (** every pair has a sample *)
  Lemma pair_has_sample p : Forall (fun e => e <> []) (w_ecoda st) -> In p (pairs st) ->
    exists te, In (p, te) (samples st).
  Proof.
    intros NE I. destruct AL as (_ & LE & F & _). apply In_nth_error in I. destruct I as (i & I).
    assert (IL : (i < List.length (w_ecoda st))%nat) by (rewrite LE; apply nth_error_Some; congruence).
    assert (K : exists te, In te
      (nth i (map (fun te => combine (map FNum (fst te)) (snd te)) (combine (w_tcoda st) (w_ecoda st))) []) ).
    { clear I LE. revert i IL NE. induction F as [|t e tc ec H F IH]; intros i IL NE; [cbn in IL; lia|].
      inversion NE; subst. destruct i as [|i]; cbn [combine map nth fst snd].
      - destruct e as [|x e]; [contradiction|]. destruct t; [discriminate|]. cbn. eauto.
      - apply IH; [cbn in IL; lia|assumption]. }
    destruct K as (te & K). exists te. unfold samples, blocks. apply in_flat_map.
    eexists (p, _). split; [|cbn [fst snd]; apply in_map_iff; exists te; split; [reflexivity|exact K]].
    apply in_or_app. left. pose proof (aligned_lengths st AL) as LT.
    apply (nth_error_In _ i).
    assert (G : forall (ps : list (string * string)) (l : list (list (pyf * pyf))) i p,
              nth_error ps i = Some p -> (i < List.length l)%nat ->
              nth_error (combine ps l) i = Some (p, nth i l [])).
    { clear. induction ps as [|q ps IH]; intros [|x l] [|i] p H L; cbn in *; try discriminate; try lia.
      - now injection H as ->.
      - apply IH; [exact H|lia]. }
    apply G; [exact I|]. rewrite map_length, combine_length. lia.
  Qed.

  Definition ev_part (c : list R) (idx : nat) : R :=
    if Nat.ltb 0 idx then nth (Ns st + idx - 1) c 0 else 0.
  Definition b_part (c : list R) (s : sample) : R := if l_fix o then 0 else last c 0 * tof s.

  (** the rows as lists of numbers *)
  Lemma rows_of a bs rs : l_coda_norm o = false -> l_fix_sites o = None ->
    Forall (fun s => stime s = FNum (tof s)) (samples st) -> build o st = Ok (a, bs, rs) ->
    exists rows, a = map (map FNum) rows /\
      Forall2 (fun row s => List.length row = width o st /\
        exists j idx, index_of (stations st) (snd (fst s)) = Ok j /\ index_of (eventids st) (fst (fst s)) = Ok idx /\
        forall c, List.length c = width o st ->
          dotr row c = nth j c 0 + ev_part c idx - b_part c s) rows (samples st).
  Proof.
    intros CN FS TN B. destruct (build_free o st AL _ _ _ CN FS B) as (a0 & F & _ & P).
    assert (G : Forall2 (fun x s => exists row, x = map FNum row /\ List.length row = width o st /\
        exists j idx, index_of (stations st) (snd (fst s)) = Ok j /\ index_of (eventids st) (fst (fst s)) = Ok idx /\
        forall c, List.length c = width o st ->
          dotr row c = nth j c 0 + ev_part c idx - b_part c s) a (samples st)).
    { destruct (l_fix o) eqn:FX.
      - subst a0. refine (Forall2_impl_in _ _ _ _ _ F). intros x s _ IS RO.
        pose proof (sample_pair st s IS) as IP.
        destruct (station_index st _ IP) as [j J]. destruct (event_index st _ IP) as [idx I].
        destruct (row_of_spec o st _ _ _ J I) as (r0 & E0 & L0 & Z0 & D0).
        rewrite RO in E0. injection E0 as ->. exists r0. split; [reflexivity|]. split; [exact L0|].
        exists j, idx. split; [exact J|]. split; [exact I|]. intros c LC. rewrite D0 by exact LC.
        unfold b_part, ev_part. rewrite FX. ring.
      - destruct (samples_columns st AL) as [TS _]. rewrite <- TS in P.
        pose proof (put_times_spec (fun s x => row_of o st (fst s) = Ok x) _ _ _ F P) as F2.
        refine (Forall2_impl_in _ _ _ _ _ F2). intros x s _ IS (row0 & RO & PL).
        pose proof (sample_pair st s IS) as IP.
        destruct (station_index st _ IP) as [j J]. destruct (event_index st _ IP) as [idx I].
        destruct (row_of_spec o st _ _ _ J I) as (r0 & E0 & L0 & Z0 & D0).
        rewrite RO in E0. injection E0 as ->. rewrite Forall_forall in TN. rewrite (TN s IS) in PL. cbn [fneg] in PL.
        destruct (put_last_spec r0 (- tof s)) as (row' & P' & L' & D').
        { intros Q. rewrite Q in L0. cbn in L0. unfold width in L0. pose proof (Ns_pos st AL).
          unfold fix01 in L0. rewrite FX in L0. lia. }
        rewrite P' in PL. injection PL as <-. exists row'. split; [reflexivity|]. split; [lia|].
        exists j, idx. split; [exact J|]. split; [exact I|]. intros c LC.
        rewrite D' by lia. rewrite D0 by exact LC. rewrite (Z0 FX). unfold b_part, ev_part. rewrite FX. ring. }
    clear - G. revert G. generalize (samples st). induction a as [|x a IH]; intros ss G; inversion G as [|? s ? ss' H G']; subst.
    - exists []. split; [reflexivity|constructor].
    - destruct (IH _ G') as (rows & -> & F). destruct H as (row & -> & H). exists (row :: rows).
      split; [reflexivity|]. constructor; assumption.
  Qed.

  (** ** The true parameters *)
  Variables (site source : string -> R) (bt : R).
  Hypothesis SITE : forall s, In s (stations st) -> 0 < site s.
  Hypothesis SOURCE : forall e, In e (eventids st) -> 0 < source e.

  Lemma in_station s : In s (samples st) -> In (snd (fst s)) (stations st).
  Proof. intros I. apply (proj2 (fromkeys_spec _)). apply in_map. exact (sample_pair st s I). Qed.

  Lemma in_event s : In s (samples st) -> In (fst (fst s)) (eventids st).
  Proof. intros I. apply (proj2 (fromkeys_spec _)). apply in_map. exact (sample_pair st s I). Qed.

  Definition first_event : string := hd "" (eventids st).

  Definition truth : list R :=
    map (fun s => ln (site s) + ln (source first_event)) (stations st) ++
    map (fun e => ln (source e) - ln (source first_event)) (tl (eventids st)) ++
    (if l_fix o then [] else [bt]).

  Lemma truth_length : List.length truth = width o st.
  Proof.
    unfold truth, width, fix01. rewrite !app_length, !map_length. fold (Ns st).
    pose proof (Ne_pos st AL) as EP. unfold Ne in *. destruct (eventids st); [cbn in EP; lia|].
    cbn [tl List.length]. destruct (l_fix o); cbn [List.length]; lia.
  Qed.

  Lemma truth_site j s : index_of (stations st) s = Ok j ->
    nth j truth 0 = ln (site s) + ln (source first_event).
  Proof.
    intros J. pose proof (index_of_lt _ _ _ J) as L. apply index_of_spec in J.
    unfold truth. rewrite app_nth1 by (now rewrite map_length).
    apply (map_nth_error (fun s => ln (site s) + ln (source first_event))) in J.
    exact (nth_error_nth _ _ _ J).
  Qed.

  Lemma truth_event idx e : index_of (eventids st) e = Ok idx ->
    ev_part truth idx = ln (source e) - ln (source first_event).
  Proof.
    intros I. pose proof (index_of_lt _ _ _ I) as L. apply index_of_spec in I.
    unfold ev_part. destruct idx as [|k].
    - change (Nat.ltb 0 0) with false. cbv iota. unfold first_event.
      destruct (eventids st); [discriminate|]. cbn in I. injection I as ->. cbn. lra.
    - change (Nat.ltb 0 (S k)) with true. cbv iota. unfold truth.
      rewrite app_nth2 by (rewrite map_length; fold (Ns st); lia). rewrite map_length. fold (Ns st).
      replace (Ns st + S k - 1 - Ns st)%nat with k by lia. unfold first_event.
      destruct (eventids st) as [|e0 evs]; [discriminate|]. cbn in I, L. cbn [tl hd].
      rewrite app_nth1 by (rewrite map_length; lia).
      apply (map_nth_error (fun e => ln (source e) - ln (source e0))) in I.
      exact (nth_error_nth _ _ _ I).
  Qed.

  Lemma truth_b s : b_part truth s = if l_fix o then 0 else bt * tof s.
  Proof.
    unfold b_part, truth. destruct (l_fix o); [reflexivity|].
    rewrite app_assoc, last_last. reflexivity.
  Qed.

  Definition target (s : sample) : R :=
    ln (source (fst (fst s))) + ln (site (snd (fst s))) - (if l_fix o then 0 else bt * tof s).

  Definition exact_rows (c : list R) (rows : list (list R)) : Prop :=
    Forall2 (fun r y => dotr r c = y) rows (map target (samples st)).

  Lemma Forall2_map_r {A B C} (P : A -> C -> Prop) (f : B -> C) l m :
    Forall2 (fun x y => P x (f y)) l m -> Forall2 P l (map f m).
  Proof. induction 1; cbn; constructor; auto. Qed.

  Lemma Forall2_map_r_inv {A B C} (P : A -> C -> Prop) (f : B -> C) l : forall m,
    Forall2 P l (map f m) -> Forall2 (fun x y => P x (f y)) l m.
  Proof. induction l; intros [|y m] H; inversion H; subst; constructor; auto. Qed.

  Definition good_rows (rows : list (list R)) : Prop :=
    Forall2 (fun row s => List.length row = width o st /\
        exists j idx, index_of (stations st) (snd (fst s)) = Ok j /\ index_of (eventids st) (fst (fst s)) = Ok idx /\
        forall c, List.length c = width o st ->
          dotr row c = nth j c 0 + ev_part c idx - b_part c s) rows (samples st).

  Lemma truth_exact rows : good_rows rows -> exact_rows truth rows.
  Proof.
    intros G. apply Forall2_map_r. refine (Forall2_impl_in _ _ _ _ _ G).
    intros row s _ IS (_ & j & idx & J & I & D). rewrite (D _ truth_length).
    rewrite (truth_site _ _ J), (truth_event _ _ I), truth_b. unfold target. ring.
  Qed.

  (** ** Identification *)
  Hypothesis CON : forall s1 s2, In s1 (stations st) -> In s2 (stations st) -> connected (pairs st) s1 s2.
  Hypothesis TT : l_fix o = false -> two_times st.
  Hypothesis NEM : Forall (fun e => e <> []) (w_ecoda st).

  Lemma connected_in s1 s2 : In s1 (stations st) -> connected (pairs st) s1 s2 -> In s2 (stations st).
  Proof.
    intros I H. induction H as [|ev s1 s2 s3 H IH I1 I2]; [exact I|].
    apply (proj2 (fromkeys_spec _)). now apply (in_map snd) in I2.
  Qed.

  Lemma identify c rows : good_rows rows -> List.length c = width o st -> exact_rows c rows ->
    (l_fix o = false -> last c 0 = bt) /\
    (forall j s, index_of (stations st) s = Ok j -> nth j c 0 = ln (site s) + ln (source first_event)) /\
    (forall idx e, index_of (eventids st) e = Ok idx -> ev_part c idx = ln (source e) - ln (source first_event)).
  Proof.
    intros G LC EX. apply Forall2_map_r_inv in EX.
    assert (EQ : forall s j idx, In s (samples st) ->
              index_of (stations st) (snd (fst s)) = Ok j -> index_of (eventids st) (fst (fst s)) = Ok idx ->
              nth j c 0 + ev_part c idx - b_part c s = target s).
    { intros s j idx IS J I.
      assert (Q : exists row, (exists j idx, index_of (stations st) (snd (fst s)) = Ok j /\ index_of (eventids st) (fst (fst s)) = Ok idx /\
        forall c, List.length c = width o st ->
          dotr row c = nth j c 0 + ev_part c idx - b_part c s) /\ dotr row c = target s).
      { clear - G EX IS. unfold good_rows in G. revert rows G EX IS. generalize (samples st).
        induction l as [|s0 l IH]; intros rows G EX IS; [destruct IS|].
        inversion G as [|row ? rows' ? G1 G2]; subst. inversion EX as [|? ? ? ? E1 E2]; subst.
        destruct IS as [->|IS]; [|exact (IH _ G2 E2 IS)].
        exists row. split; [exact (proj2 G1)|exact E1]. }
      destruct Q as (row & (j' & idx' & J' & I' & D) & T).
      rewrite J in J'. rewrite I in I'. injection J' as <-. injection I' as <-. now rewrite <- (D c LC), T. }
    assert (B0 : l_fix o = false -> last c 0 = bt).
    { intros FX. destruct (TT FX) as (p & t1 & t2 & e1 & e2 & NT & S1 & S2).
      pose proof (sample_pair st _ S1) as IP. cbn [fst] in IP.
      destruct (station_index st _ IP) as [j J]. destruct (event_index st _ IP) as [idx I].
      pose proof (EQ _ j idx S1 J I) as Q1. pose proof (EQ _ j idx S2 J I) as Q2.
      unfold b_part, target, tof, stime in Q1, Q2. rewrite FX in Q1, Q2. cbn [fst snd] in Q1, Q2.
      assert (Z : (last c 0 - bt) * (t1 - t2) = 0) by lra. apply Rmult_integral in Z. lra. }
    (* differences *)
    assert (D : forall ev s j idx, In (ev, s) (pairs st) ->
              index_of (stations st) s = Ok j -> index_of (eventids st) ev = Ok idx ->
              nth j c 0 - ln (site s) = ln (source ev) - ev_part c idx).
    { intros ev s j idx IP J I. destruct (pair_has_sample _ NEM IP) as (te & IS).
      pose proof (EQ _ j idx IS J I) as Q. unfold b_part, target in Q. cbn [fst snd] in Q.
      destruct (l_fix o) eqn:FX; [lra|]. rewrite (B0 eq_refl) in Q. lra. }
    assert (CS : forall s1 s2 j1 j2, connected (pairs st) s1 s2 ->
              index_of (stations st) s1 = Ok j1 -> index_of (stations st) s2 = Ok j2 ->
              nth j1 c 0 - ln (site s1) = nth j2 c 0 - ln (site s2)).
    { intros s1 s2 j1 j2 H. revert j1 j2. induction H as [s|ev s1 s2 s3 H IH I1 I2]; intros j1 j3 J1 J3.
      - rewrite J1 in J3. now injection J3 as <-.
      - destruct (station_index st _ I1) as [j2 J2]. destruct (event_index st _ I1) as [idx I]. cbn [fst snd] in *.
        rewrite (IH j1 j2 J1 J2). rewrite (D _ _ _ _ I1 J2 I), (D _ _ _ _ I2 J3 I). reflexivity. }
    (* the first event *)
    assert (FE : exists s0, In (first_event, s0) (pairs st)).
    { pose proof (proj2 (fromkeys_spec (map fst (pairs st))) first_event) as [Q _].
      pose proof (Ne_pos st AL) as EP. unfold Ne, first_event in *.
      destruct (eventids st) as [|e0 evs] eqn:E; [cbn in EP; lia|]. cbn [hd] in *.
      assert (I : In e0 (fromkeys (map fst (pairs st)))).
      { change (fromkeys (map fst (pairs st))) with (eventids st). rewrite E. now left. }
      apply Q in I. apply in_map_iff in I. destruct I as ([ev s0] & <- & I). eauto. }
    destruct FE as (s0 & I0). destruct (station_index st _ I0) as [j0 J0].
    assert (X0 : index_of (eventids st) first_event = Ok 0%nat).
    { unfold first_event. pose proof (Ne_pos st AL) as EP. unfold Ne in EP.
      destruct (eventids st) as [|e0 evs]; [cbn in EP; lia|]. cbn. now rewrite String.eqb_refl. }
    pose proof (D _ _ _ _ I0 J0 X0) as D0. unfold ev_part in D0. change (Nat.ltb 0 0) with false in D0. cbv iota in D0.
    cbn [fst snd] in *.
    assert (RS : forall j s, index_of (stations st) s = Ok j -> nth j c 0 = ln (site s) + ln (source first_event)).
    { intros j s J. assert (IN : forall s j, index_of (stations st) s = Ok j -> In s (stations st)).
      { intros s' j' J'. apply index_of_spec in J'. now apply nth_error_In in J'. }
      pose proof (CS s0 s j0 j (CON _ _ (IN _ _ J0) (IN _ _ J)) J0 J). lra. }
    split; [exact B0|]. split; [exact RS|].
    intros idx e I.
    assert (IE : exists s, In (e, s) (pairs st)).
    { pose proof (index_of_spec _ _ _ I) as IE. apply nth_error_In in IE. apply (proj2 (fromkeys_spec (map fst (pairs st))) e) in IE.
      apply in_map_iff in IE. destruct IE as ([ev s] & <- & IE). eauto. }
    destruct IE as (s & IE). destruct (station_index st _ IE) as [j J]. cbn [snd] in J.
    pose proof (D _ _ _ _ IE J I) as DE. rewrite (RS _ _ J) in DE. lra.
  Qed.

  Lemma index_of_nodup l : NoDup l -> forall i x, nth_error l i = Some x -> index_of l x = Ok i.
  Proof.
    induction 1 as [|y l NI ND IH]; intros [|i] x H; cbn in *; try discriminate.
    - injection H as ->. now rewrite String.eqb_refl.
    - destruct (String.eqb y x) eqn:E.
      + apply String.eqb_eq in E. subst. exfalso. apply NI. now apply nth_error_In in H.
      + rewrite (IH _ _ H). reflexivity.
  Qed.

  Hypothesis R0 : 0 < l_R0 o.
  Hypothesis GM : geometric_mean (map (fun s => FNum (site s)) (stations st)) (l_R0 o).

  Lemma site_mean : fold_right Rplus 0 (map (fun s => ln (site s)) (stations st)) = INR (Ns st) * ln (l_R0 o).
  Proof.
    destruct GM as (x & E & _ & _ & M).
    assert (X : x = map site (stations st)).
    { rewrite <- map_map in E. revert E. generalize (map site (stations st)). clear.
      induction x as [|y x IH]; intros [|z l] E; cbn in E; try discriminate; [reflexivity|].
      injection E as E1 E2. f_equal; auto. }
    subst x. rewrite map_map, map_length in M. fold (Ns st) in M. rewrite <- M. field.
    apply not_0_INR. pose proof (Ns_pos st AL). lia.
  Qed.

  Lemma decoded_truth c : List.length c = width o st ->
    (forall j s, index_of (stations st) s = Ok j -> nth j c 0 = ln (site s) + ln (source first_event)) ->
    (forall idx e, index_of (eventids st) e = Ok idx -> ev_part c idx = ln (source e) - ln (source first_event)) ->
    W_of o st c = map source (eventids st) /\ R_of o st c = map site (stations st).
  Proof.
    intros LC HS HE. pose proof (Ns_pos st AL) as NP. pose proof (Ne_pos st AL) as EP. pose proof (fix01_le o) as F1.
    assert (ND1 : NoDup (stations st)) by apply (fromkeys_spec).
    assert (ND2 : NoDup (eventids st)) by apply (fromkeys_spec).
    assert (E0 : In first_event (eventids st)).
    { unfold first_event, Ne in *. destruct (eventids st); [cbn in EP; lia|now left]. }
    assert (FN : firstn (Ns st) c = map (fun s => ln (site s) + ln (source first_event)) (stations st)).
    { apply (nth_ext _ _ 0 0).
      - rewrite firstn_length, map_length, LC. fold (Ns st). unfold width. lia.
      - intros j JL. rewrite firstn_length, LC in JL. assert (J : (j < Ns st)%nat) by lia.
        rewrite nth_firstn_R by exact J. unfold Ns in J. destruct (nth_error (stations st) j) as [s|] eqn:E.
        2:{ apply nth_error_None in E. lia. }
        rewrite (HS j s) by (now apply index_of_nodup).
        apply (map_nth_error (fun s => ln (site s) + ln (source first_event))) in E.
        symmetry. exact (nth_error_nth _ _ _ E). }
    assert (W0 : w0_of o st c = source first_event).
    { unfold w0_of, mean_of. rewrite FN.
      assert (S : forall l k, fold_right Rplus 0 (map (fun s => ln (site s) + k) l)
                 = fold_right Rplus 0 (map (fun s => ln (site s)) l) + INR (List.length l) * k).
      { clear. intros l k. induction l as [|x l IH]; [cbn; lra|]. cbn [map fold_right List.length].
        rewrite IH, S_INR. ring. }
      rewrite S, site_mean. fold (Ns st).
      replace ((INR (Ns st) * ln (l_R0 o) + INR (Ns st) * ln (source first_event)) / INR (Ns st))
        with (ln (l_R0 o) + ln (source first_event)) by (field; apply not_0_INR; lia).
      rewrite exp_plus, !exp_ln by auto. field. lra. }
    split.
    - unfold W_of. rewrite W0. apply (nth_ext _ _ 0 0).
      + cbn [List.length]. rewrite !map_length, skipn_length, firstn_length, LC. fold (Ne st). unfold width. lia.
      + intros k KL. cbn [List.length] in KL. rewrite map_length, skipn_length, firstn_length, LC in KL.
        assert (KE : (k < Ne st)%nat) by (unfold width in KL; lia). unfold Ne in KE.
        destruct (nth_error (eventids st) k) as [e|] eqn:E; [|apply nth_error_None in E; lia].
        rewrite (nth_error_nth _ _ 0 (map_nth_error source _ _ E)).
        pose proof (index_of_nodup _ ND2 _ _ E) as IX. specialize (HE _ _ IX). unfold ev_part in HE.
        destruct k as [|k]; cbn [nth].
        * unfold first_event. destruct (eventids st); [discriminate|]. cbn in E. now injection E as ->.
        * change (Nat.ltb 0 (S k)) with true in HE. cbv iota in HE.
          rewrite (nth_indep _ 0 (exp 0 * source first_event)).
          2:{ rewrite map_length, skipn_length, firstn_length, LC. unfold width. fold (Ne st) in KE. lia. }
          rewrite (map_nth (fun x => exp x * source first_event)). fold (Ne st) in KE.
          rewrite nth_skipn_R, nth_firstn_R by lia.
          replace (Ns st + k)%nat with (Ns st + S k - 1)%nat by lia. rewrite HE.
          unfold Rminus. rewrite exp_plus, exp_Ropp, !exp_ln; auto.
          -- field. pose proof (SOURCE _ E0). lra.
          -- apply SOURCE. now apply nth_error_In in E.
    - unfold R_of. rewrite FN, W0, map_map. apply map_ext_in. intros s I.
      rewrite exp_plus, !exp_ln; auto. field. pose proof (SOURCE _ E0). lra.
  Qed.
End P.
