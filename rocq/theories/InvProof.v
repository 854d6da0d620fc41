(** Proofs about the distribution of bands (C61) and fixed parameters (C62). *)
From Coq Require Import String List Bool Reals Lra Lia ZArith Arith Permutation.
From Verif Require Import Base Pyf FreqsModel FreqsProof SortModel EventModel InvModel InvSpec.
Import ListNotations.
Open Scope string_scope.
Open Scope list_scope.
Open Scope R_scope.

(** ** C61 *)
Section Jobs.
  Context {B S A : Type}.
  Variable work : B -> S -> S * res A.

  Lemma mapM_alone s bs l : mapM (fun b => snd (work b s)) bs = Ok l <-> each_alone work s bs l.
  Proof.
    unfold each_alone. revert l. induction bs as [|b bs IH]; intros l; cbn [mapM].
    - split; [intros [= <-]; constructor|]. intros H. now inversion H.
    - split.
      + destruct (snd (work b s)) as [x|] eqn:E; [|discriminate]. cbn [bind].
        destruct (mapM _ bs) as [r|] eqn:M; [|discriminate]. cbn [bind]. intros [= <-].
        constructor; [exact E|]. now apply IH.
      + intros H. inversion H as [|? ? ? l' E F]; subst. rewrite E. cbn [bind].
        apply IH in F. now rewrite F.
  Qed.

  Lemma run_shared_one s b : run_shared work [b] s = do x <- snd (work b s); Ok [x].
  Proof. cbn [run_shared]. destruct (work b s) as [s' [x|e]]; reflexivity. Qed.

  Lemma serial_alone s bs l : run_serial work bs s = Ok l <-> each_alone work s bs l.
  Proof.
    unfold run_serial. destruct (Nat.ltb 1 (List.length bs)) eqn:L; [apply mapM_alone|].
    apply Nat.ltb_ge in L. destruct bs as [|b [|b2 bs]]; [| |cbn in L; lia].
    - cbn. unfold each_alone. split; [intros [= <-]; constructor|]. intros H. now inversion H.
    - rewrite run_shared_one, <- mapM_alone. cbn [mapM]. destruct (snd (work b s)); reflexivity.
  Qed.

  Lemma mapM_err_in s bs e : mapM (fun b => snd (work b s)) bs = Err e -> exists b, In b bs /\ snd (work b s) = Err e.
  Proof.
    induction bs as [|b bs IH]; cbn [mapM]; [discriminate|].
    destruct (snd (work b s)) as [x|e'] eqn:E; cbn [bind].
    - destruct (mapM _ bs) as [r|e2]; cbn [bind]; [discriminate|]. intros [= ->].
      destruct (IH eq_refl) as (b' & I & H). exists b'. split; [now right|exact H].
    - intros [= ->]. exists b. split; [now left|exact E].
  Qed.

  Lemma serial_err s bs e : run_serial work bs s = Err e -> exists b, In b bs /\ snd (work b s) = Err e.
  Proof.
    unfold run_serial. destruct (Nat.ltb 1 (List.length bs)) eqn:L; [apply mapM_err_in|].
    apply Nat.ltb_ge in L. destruct bs as [|b [|b2 bs]]; [discriminate| |cbn in L; lia].
    rewrite run_shared_one. destruct (snd (work b s)) as [x|e'] eqn:E; cbn [bind]; [discriminate|].
    intros [= ->]. exists b. split; [now left|exact E].
  Qed.

  (** chunks of one band *)
  Lemma chunks_one_from (b : B) bs : chunks_from 1 0 [b] bs = map (fun b => [b]) (b :: bs).
  Proof.
    revert b. induction bs as [|b' bs IH]; intros b; [reflexivity|]. cbn [chunks_from Nat.sub].
    rewrite IH. reflexivity.
  Qed.

  Lemma chunks_one (bs : list B) : chunks 1 bs = map (fun b : B => [b]) bs.
  Proof. destruct bs as [|b bs]; [reflexivity|]. unfold chunks. cbn [chunks_from]. apply chunks_one_from. Qed.

  Lemma chunksize_one n w : (0 < w)%nat -> (0 < n <= 4 * w)%nat -> chunksize n w = 1%nat.
  Proof.
    intros W N. unfold chunksize. set (d := (4 * w)%nat) in *. assert (0 < d)%nat by lia.
    destruct (Nat.eq_dec n d) as [->|NE].
    - rewrite Nat.mod_same, Nat.div_same by lia. reflexivity.
    - rewrite Nat.div_small, Nat.mod_small by lia. destruct n; [lia|reflexivity].
  Qed.

  (** the stored results *)
  Lemma store_spec s cs order : forall m,
    NoDup order -> (forall i, In i order -> ~ In i (map fst (m_val m))) ->
    let m' := fold_left (store work s cs) order m in
    (m_err m' = None <-> m_err m = None /\ forall i, In i order -> exists l, run_shared work (nth i cs []) s = Ok l) /\
    (forall e, m_err m' = Some e -> m_err m = Some e \/ exists i, In i order /\ run_shared work (nth i cs []) s = Err e) /\
    (forall i, ~ In i order -> dget Nat.eqb (m_val m') i = dget Nat.eqb (m_val m) i) /\
    (forall i l, In i order -> run_shared work (nth i cs []) s = Ok l -> dget Nat.eqb (m_val m') i = Some l).
  Proof.
    induction order as [|i order IH]; intros m ND DIS; cbn [fold_left].
    - cbn. repeat split; try tauto; auto.
    - inversion ND as [|? ? NI ND']; subst.
      assert (DIS' : forall j, In j order -> ~ In j (map fst (m_val (store work s cs m i)))).
      { intros j J. unfold store. destruct (run_shared _ _ _) as [l|e]; cbn [m_val].
        - rewrite (dset_in_keys _ Nat.eqb_eq). intros [->|Q]; [contradiction|]. apply (DIS j); [now right|exact Q].
        - apply DIS. now right. }
      destruct (IH (store work s cs m i) ND' DIS') as (I1 & I2 & I3 & I4). split; [|split; [|split]].
      + rewrite I1. unfold store. destruct (run_shared work (nth i cs []) s) as [l|e] eqn:E; cbn [m_err].
        * split; intros [H1 H2]; (split; [exact H1|]); intros j J; [destruct J as [<-|J]; [eauto|auto]|apply H2; now right].
        * split.
          -- intros [H1 _]. destruct (m_err m); discriminate.
          -- intros [_ H2]. destruct (H2 i (or_introl eq_refl)) as (l & Q). congruence.
      + intros e H. apply I2 in H. unfold store in H.
        destruct (run_shared work (nth i cs []) s) as [l|e'] eqn:E; cbn [m_err] in H.
        * destruct H as [H|(j & J & H)]; [auto|]. right. exists j. split; [now right|exact H].
        * destruct H as [H|(j & J & H)]; [|right; exists j; split; [now right|exact H]].
          destruct (m_err m) as [e0|]; [left; congruence|]. right. exists i. split; [now left|congruence].
      + intros j J. rewrite I3 by (intros Q; apply J; now right). unfold store.
        destruct (run_shared _ _ _); cbn [m_val]; [|reflexivity].
        apply (dget_dset_neq _ Nat.eqb_eq). intros ->. apply J. now left.
      + intros j l [<-|J] E; [|now apply I4]. rewrite I3 by exact NI. unfold store. rewrite E. cbn [m_val].
        apply (dget_dset_eq _ Nat.eqb_eq).
  Qed.

  Lemma run_pool_spec w order bs s l :
    let cs := chunks (chunksize (List.length bs) w) bs in
    Permutation order (seq 0 (List.length cs)) ->
    (run_pool work w order bs s = Ok l <->
     exists ls, Forall2 (fun c x => run_shared work c s = Ok x) cs ls /\ l = concat ls).
  Proof.
    intros cs P. unfold run_pool. fold cs.
    assert (ND : NoDup order) by (apply (Permutation_NoDup (Permutation_sym P)), seq_NoDup).
    destruct (store_spec s cs order {| m_val := []; m_err := None |} ND (fun _ _ Q => Q)) as (S1 & _ & _ & S4).
    set (m := fold_left _ order _) in *. cbn [m_err m_val] in *.
    assert (K : forall ls, Forall2 (fun c x => run_shared work c s = Ok x) cs ls ->
              map (fun i => match dget Nat.eqb (m_val m) i with Some l => l | None => [] end) (seq 0 (List.length cs)) = ls).
    { intros ls F.
      assert (G : forall i x, nth_error ls i = Some x -> dget Nat.eqb (m_val m) i = Some x).
      { intros i x N. assert (N2 : exists c, nth_error cs i = Some c /\ run_shared work c s = Ok x).
        { clear - F N. revert i N. induction F as [|c y cs ls E F IH]; intros [|i] N; try discriminate.
          - injection N as <-. exists c. auto.
          - now apply IH. }
        destruct N2 as (c & N2 & E). apply S4.
        - apply (Permutation_in _ (Permutation_sym P)). apply in_seq. split; [lia|]. cbn.
          apply nth_error_Some. congruence.
        - rewrite (nth_error_nth _ _ [] N2). exact E. }
      assert (L : List.length cs = List.length ls) by (clear - F; induction F; cbn; congruence).
      rewrite L. clear - G.
      assert (H : forall (k : nat) (r : list (list A)), (forall i x, nth_error r i = Some x -> dget Nat.eqb (m_val m) (k + i)%nat = Some x) ->
                map (fun i => match dget Nat.eqb (m_val m) i with Some l => l | None => [] end) (seq k (List.length r)) = r).
      { intros k r. revert k. induction r as [|x r IH]; intros k H; [reflexivity|]. cbn [List.length seq map].
        pose proof (H 0%nat x eq_refl) as H0. rewrite Nat.add_0_r in H0. rewrite H0. f_equal. apply IH.
        intros i y N. replace (Datatypes.S k + i)%nat with (k + Datatypes.S i)%nat by lia. now apply H. }
      now apply (H 0%nat). }
    split.
    - destruct (m_err m) eqn:E; [discriminate|]. intros [= <-]. destruct (proj1 S1 eq_refl) as [_ OKS].
      assert (F : exists ls, Forall2 (fun c x => run_shared work c s = Ok x) cs ls).
      { assert (OK2 : forall c, In c cs -> exists x, run_shared work c s = Ok x).
        { intros c I. apply In_nth_error in I. destruct I as (i & N).
          destruct (OKS i) as (x & X).
          - apply (Permutation_in _ (Permutation_sym P)). apply in_seq. split; [lia|]. cbn.
            apply nth_error_Some. congruence.
          - rewrite (nth_error_nth _ _ [] N) in X. eauto. }
        clear - OK2. induction cs as [|c cs IH]; [exists []; constructor|].
        destruct (OK2 c (or_introl eq_refl)) as (x & X). destruct IH as (ls & F); [intros; apply OK2; now right|].
        exists (x :: ls). now constructor. }
      destruct F as (ls & F). exists ls. split; [exact F|]. now rewrite (K ls F).
    - intros (ls & F & ->).
      assert (E : m_err m = None).
      { apply S1. split; [reflexivity|]. intros i I. apply (Permutation_in _ P) in I. apply in_seq in I.
        destruct (nth_error cs i) as [c|] eqn:N; [|apply nth_error_None in N; cbn in I; lia].
        rewrite (nth_error_nth _ _ [] N). clear - F N. revert i N.
        induction F as [|c' x cs ls E F IH]; intros [|i] N; try discriminate; [injection N as <-; eauto|eauto]. }
      rewrite E. now rewrite (K ls F).
  Qed.

  Lemma pool_err w order bs s e :
    let cs := chunks (chunksize (List.length bs) w) bs in
    Permutation order (seq 0 (List.length cs)) ->
    run_pool work w order bs s = Err e -> exists c, In c cs /\ run_shared work c s = Err e.
  Proof.
    intros cs P. unfold run_pool. fold cs.
    assert (ND : NoDup order) by (apply (Permutation_NoDup (Permutation_sym P)), seq_NoDup).
    destruct (store_spec s cs order {| m_val := []; m_err := None |} ND (fun _ _ Q => Q)) as (_ & S2 & _).
    set (m := fold_left _ order _) in *. cbn [m_err m_val] in *.
    destruct (m_err m) as [e'|]; [|discriminate]. intros [= ->].
    destruct (S2 e eq_refl) as [Q|(i & I & E)]; [discriminate|].
    apply (Permutation_in _ P) in I. apply in_seq in I.
    destruct (nth_error cs i) as [c|] eqn:N; [|apply nth_error_None in N; cbn in I; lia].
    rewrite (nth_error_nth _ _ [] N) in E. exists c. split; [now apply nth_error_In in N|exact E].
  Qed.

  (** with at most four bands per worker *)
  Lemma pool_alone w order bs s l : (0 < w)%nat -> (List.length bs <= 4 * w)%nat ->
    Permutation order (seq 0 (List.length bs)) ->
    (run_pool work w order bs s = Ok l <-> each_alone work s bs l).
  Proof.
    intros W L P.
    assert (C : chunks (chunksize (List.length bs) w) bs = map (fun b => [b]) bs).
    { destruct bs as [|b bs]; [cbn; unfold chunks; reflexivity|]. rewrite chunksize_one by (cbn in *; lia). apply chunks_one. }
    rewrite run_pool_spec by (rewrite C, map_length; exact P). rewrite C. clear. unfold each_alone. split.
    - intros (ls & F & ->). revert ls F. induction bs as [|b bs IH]; intros ls F; inversion F as [|? x ? ls' E F']; subst; [constructor|].
      rewrite run_shared_one in E. destruct (snd (work b s)) as [y|] eqn:W; [|discriminate]. injection E as <-.
      cbn. constructor; [exact W|]. now apply IH.
    - intros F. exists (map (fun x => [x]) l). split.
      + induction F as [|b x bs l E F IH]; cbn; constructor; [|exact IH]. rewrite run_shared_one, E. reflexivity.
      + induction l as [|x l IH]; [reflexivity|]. inversion F; subst. cbn. f_equal.
        clear - IH. assert (H : forall r : list A, concat (map (fun x => [x]) r) = r).
        { induction r as [|y r I]; [reflexivity|]. cbn. now rewrite I. }
        now rewrite H.
  Qed.

  Lemma pool_alone_err w order bs s e : (0 < w)%nat -> (List.length bs <= 4 * w)%nat ->
    Permutation order (seq 0 (List.length bs)) ->
    run_pool work w order bs s = Err e -> exists b, In b bs /\ snd (work b s) = Err e.
  Proof.
    intros W L P H.
    assert (C : chunks (chunksize (List.length bs) w) bs = map (fun b => [b]) bs).
    { destruct bs as [|b bs]; [cbn; unfold chunks; reflexivity|]. rewrite chunksize_one by (cbn in *; lia). apply chunks_one. }
    apply pool_err in H; [|rewrite C, map_length; exact P]. rewrite C in H.
    destruct H as (c & I & E). apply in_map_iff in I. destruct I as (b & <- & I).
    rewrite run_shared_one in E. exists b. split; [exact I|].
    destruct (snd (work b s)) as [x|e']; [discriminate|]. now injection E as ->.
  Qed.

  Lemma jobs_agree w order bs s : (0 < w)%nat -> (List.length bs <= 4 * w)%nat ->
    Permutation order (seq 0 (List.length bs)) ->
    (forall l, run_pool work w order bs s = Ok l <-> run_serial work bs s = Ok l) /\
    (forall e, run_pool work w order bs s = Err e ->
       (exists b, In b bs /\ snd (work b s) = Err e) /\ exists e', run_serial work bs s = Err e').
  Proof.
    intros W L P. split.
    - intros l. now rewrite pool_alone, serial_alone.
    - intros e H. split; [now apply (pool_alone_err w order)|].
      destruct (run_serial work bs s) as [l|e'] eqn:E; [|eauto]. exfalso.
      apply serial_alone in E. rewrite <- (pool_alone w order) in E by assumption. congruence.
  Qed.

  Lemma schedule_free w order1 order2 bs s l :
    let n := List.length (chunks (chunksize (List.length bs) w) bs) in
    Permutation order1 (seq 0 n) -> Permutation order2 (seq 0 n) ->
    (run_pool work w order1 bs s = Ok l <-> run_pool work w order2 bs s = Ok l).
  Proof. intros n P1 P2. rewrite (run_pool_spec w order1), (run_pool_spec w order2) by assumption. reflexivity. Qed.
End Jobs.

(** bands in a chunk see the streams as filtered for the bands before *)
Lemma jobs_differ :
  exists (work : nat -> list nat -> list nat * res (list nat)) bs s workers order l1 l2,
    (forall b s, work b s = (b :: s, Ok (b :: s))) /\
    (1 < workers)%nat /\ Permutation order (seq 0 (List.length (chunks (chunksize (List.length bs) workers) bs))) /\
    run_serial work bs s = Ok l1 /\ run_pool work workers order bs s = Ok l2 /\
    l1 = map (fun b => [b]) bs /\ l1 <> l2.
Proof.
  exists (fun b s => (b :: s, Ok (b :: s))), (seq 1 9), [], 2%nat, [4; 2; 0; 1; 3]%nat.
  eexists _, _. split; [reflexivity|]. split; [lia|]. split.
  { change (seq 0 _) with [0; 1; 2; 3; 4]%nat.
    apply NoDup_Permutation; [repeat constructor; cbn; lia|repeat constructor; cbn; lia|]. cbn. lia. }
  split; [reflexivity|]. split; [reflexivity|]. split; [reflexivity|]. discriminate.
Qed.

(** ** C62 *)
Lemma band_eqb_spec a b : band_eqb a b = true <-> a = b.
Proof.
  unfold band_eqb. rewrite andb_true_iff, !reqb_spec. destruct a, b. cbn. split; [intros [-> ->]; auto|intros [= -> ->]; auto].
Qed.

Lemma same_set_spec a b : same_set a b = true <-> forall x, In x a <-> In x b.
Proof.
  unfold same_set. rewrite andb_true_iff, !forallb_forall. split.
  - intros [H1 H2] x. split; intros I.
    + apply (inb_In _ reqb_spec). now apply H1.
    + apply (inb_In _ reqb_spec). now apply H2.
  - intros H. split; intros x I; apply (inb_In _ reqb_spec); now apply H.
Qed.

Section Fix.
  Context {V : Type}.

  Lemma zip3_nth {A B C} (a : list A) (b : list B) (c : list C) i x :
    nth_error (zip3 a b c) i = Some x <->
    nth_error a i = Some (fst x) /\ nth_error b i = Some (fst (snd x)) /\ nth_error c i = Some (snd (snd x)).
  Proof.
    revert b c i. induction a as [|y a IH]; intros b c i.
    - destruct i; cbn; intuition discriminate.
    - destruct b as [|z b]; [destruct i; cbn; intuition discriminate|].
      destruct c as [|w c]; [destruct i; cbn; intuition discriminate|].
      destruct i as [|i]; cbn [zip3 nth_error]; [|apply IH].
      destruct x as [x1 [x2 x3]]. cbn. split; [intros [= -> -> ->]; auto|intros ([= ->] & [= ->] & [= ->]); auto].
  Qed.

  Lemma fix_errs freq_bands (fp : finput V) :
    (exists x, ~ (In x (fi_freq fp) <-> In x (dkeys freq_bands))) -> fix_params freq_bands fp = Err ValueError.
  Proof.
    intros (x & N). unfold fix_params. destruct (same_set _ _) eqn:E; [|reflexivity].
    exfalso. apply N. now apply same_set_spec.
  Qed.

  (** dictionaries of bands from lists in the order of the frequencies *)
  Lemma bands_dict {A} (freq_bands : bands) (xs : list (R * A)) l c band y :
    NoDup (map snd freq_bands) -> NoDup (map fst xs) ->
    mapM (fun x => do fb <- getitem reqb freq_bands (fst x); Ok (fb, snd x)) xs = Ok l ->
    dget reqb freq_bands c = Some band -> In (c, y) xs ->
    dget band_eqb (dict_of band_eqb l) band = Some y.
  Proof.
    intros NB NX M D I.
    assert (FS : Forall2 (fun x z => dget reqb freq_bands (fst x) = Some (fst z) /\ snd x = snd z) xs l).
    { clear - M. revert l M. induction xs as [|x xs IH]; intros l M; cbn [mapM] in M; [injection M as <-; constructor|].
      unfold getitem in M at 1. destruct (dget reqb freq_bands (fst x)) as [fb|] eqn:G; [|discriminate]. cbn [bind] in M.
      destruct (mapM _ xs) as [r|]; [|discriminate]. cbn [bind] in M. injection M as <-.
      constructor; [auto|]. now apply IH. }
    assert (INJ : forall c1 c2 b, dget reqb freq_bands c1 = Some b -> dget reqb freq_bands c2 = Some b -> c1 = c2).
    { clear - NB. intros c1 c2 b G1 G2. apply (dget_In _ reqb_spec) in G1, G2.
      induction freq_bands as [|[k v] d IH]; [destruct G1|]. cbn in NB. inversion NB as [|? ? NI NB']; subst.
      destruct G1 as [E1|G1], G2 as [E2|G2].
      - congruence.
      - injection E1 as -> ->. exfalso. apply NI. now apply (in_map snd) in G2.
      - injection E2 as -> ->. exfalso. apply NI. now apply (in_map snd) in G1.
      - now apply IH. }
    assert (NL : NoDup (map fst l)).
    { clear M I. induction FS as [|x z xs l (G & _) FS IH]; cbn; [constructor|]. cbn in NX.
      inversion NX as [|? ? NI NX']; subst. constructor; [|now apply IH].
      intros Q. apply NI. apply in_map_iff in Q. destruct Q as (z' & E & Q).
      assert (X : exists x', In x' xs /\ dget reqb freq_bands (fst x') = Some (fst z')).
      { clear - FS Q. induction FS as [|x z xs l (G & _) FS IH]; [destruct Q|].
        destruct Q as [<-|Q]; [exists x; split; [now left|exact G]|].
        destruct (IH Q) as (x' & I & H). exists x'. split; [now right|exact H]. }
      destruct X as (x' & I & G'). rewrite E in G'. rewrite (INJ _ _ _ G G'). now apply in_map. }
    unfold dict_of. apply (dupdate_get_in _ band_eqb_spec); [exact NL|].
    clear - FS I D. induction FS as [|x z xs l (G & E) FS IH]; [destruct I|].
    destruct I as [->|I]; [|right; now apply IH]. left. cbn in *. rewrite D in G. injection G as G.
    destruct z as [z1 z2]. cbn in *. congruence.
  Qed.

  Lemma fix_params_spec freq_bands (fp : finput V) p :
    NoDup (map snd freq_bands) -> NoDup (fi_freq fp) ->
    fix_params freq_bands fp = Ok p ->
    (forall x, In x (fi_freq fp) <-> In x (dkeys freq_bands)) /\
    forall i c band g0 b, nth_error (fi_freq fp) i = Some c -> dget reqb freq_bands c = Some band ->
      nth_error (fi_g0 fp) i = Some g0 -> nth_error (fi_b fp) i = Some b ->
      dget band_eqb p band = Some (g0, b).
  Proof.
    intros NB NF. unfold fix_params. destruct (same_set _ _) eqn:SS; [|discriminate]. cbn [negb].
    destruct (mapM _ _) as [l|] eqn:M; [|discriminate]. cbn [bind]. intros [= <-].
    split; [now apply same_set_spec|]. intros i c band g0 b N1 D N2 N3.
    apply (bands_dict freq_bands _ l c band (g0, b) NB) with (2 := M); [|exact D|].
    - clear - NF. assert (H : exists r, fi_freq fp = map fst (zip3 (fi_freq fp) (fi_g0 fp) (fi_b fp)) ++ r).
      { generalize (fi_freq fp) (fi_g0 fp) (fi_b fp). induction l as [|x l IH]; intros g b; [exists []; reflexivity|].
        destruct g as [|y g]; [eexists; reflexivity|]. destruct b as [|z b]; [eexists; reflexivity|].
        destruct (IH g b) as (r & E). exists r. cbn. now rewrite <- E. }
      destruct H as (r & E). rewrite E in NF. clear E.
      induction (map fst _) as [|y l IH]; [constructor|]. cbn in NF. inversion NF as [|? ? NI NF']; subst.
      constructor; [|now apply IH]. intros Q. apply NI. apply in_or_app. now left.
    - apply (nth_error_In _ i). now apply zip3_nth.
  Qed.

  Lemma sites_of_spec (sites : list (string * list (option V))) i s :
    NoDup (map fst sites) -> sites_of sites i = Ok s ->
    forall sta x, dget String.eqb s sta = Some x <->
      exists l, dget String.eqb sites sta = Some l /\ nth_error l i = Some (Some x).
  Proof.
    revert s. induction sites as [|[st val] sites IH]; intros s ND H sta x; cbn [sites_of] in H.
    - injection H as <-. cbn. split; [discriminate|intros (l & Q & _); discriminate].
    - cbn in ND. inversion ND as [|? ? NI ND']; subst.
      unfold item in H. destruct (nth_error val i) as [v|] eqn:N; [|discriminate]. cbn [bind] in H.
      destruct (sites_of sites i) as [rest|] eqn:S; [|discriminate]. cbn [bind] in H.
      specialize (IH _ ND' eq_refl). cbn [dget].
      destruct (String.eqb sta st) eqn:E.
      + apply String.eqb_eq in E. subst st. assert (R : dget String.eqb rest sta = None).
        { destruct (dget String.eqb rest sta) as [y|] eqn:G; [|reflexivity]. exfalso.
          apply IH in G. destruct G as (l & G & _). apply NI. apply (dget_In _ string_eqb_spec) in G.
          now apply (in_map fst) in G. }
        destruct v as [v|]; injection H as <-.
        * cbn [dget]. rewrite String.eqb_refl. split.
          -- intros [= <-]. exists val. auto.
          -- intros (l & [= <-] & Q). congruence.
        * rewrite R. split; [discriminate|]. intros (l & [= <-] & Q). congruence.
      + destruct v as [v|]; injection H as <-; [|apply IH]. cbn [dget]. rewrite E. apply IH.
  Qed.

  Lemma fix_sites_spec freq_bands (fp : finput V) p :
    NoDup (map snd freq_bands) -> NoDup (fi_freq fp) -> NoDup (map fst (fi_R fp)) ->
    fix_sites_params freq_bands fp = Ok p ->
    forall i c band, nth_error (fi_freq fp) i = Some c -> dget reqb freq_bands c = Some band ->
    exists s, dget band_eqb p band = Some s /\
      forall sta x, dget String.eqb s sta = Some x <->
        exists l, dget String.eqb (fi_R fp) sta = Some l /\ nth_error l i = Some (Some x).
  Proof.
    intros NB NF NR. unfold fix_sites_params. destruct (mapM _ _) as [l|] eqn:M; [|discriminate]. cbn [bind].
    intros [= <-] i c band N D.
    (* separate the sites from the bands *)
    assert (SP : forall xs l, mapM (fun x : nat * R => do fb <- getitem reqb freq_bands (snd x);
                        do s <- sites_of (fi_R fp) (fst x); Ok (fb, s)) xs = Ok l ->
              exists ys, mapM (fun x : R * list (string * V) => do fb <- getitem reqb freq_bands (fst x); Ok (fb, snd x)) ys = Ok l /\
                map fst ys = map snd xs /\
                forall k f, nth_error xs k = Some f -> exists s, nth_error ys k = Some (snd f, s) /\ sites_of (fi_R fp) (fst f) = Ok s).
    { clear. induction xs as [|x xs IH]; intros l M; cbn [mapM] in M.
      - injection M as <-. exists []. split; [reflexivity|]. split; [reflexivity|]. intros [|k] f N; discriminate.
      - destruct (getitem reqb freq_bands (snd x)) as [fb|] eqn:G; [|discriminate]. cbn [bind] in M.
        destruct (sites_of (fi_R fp) (fst x)) as [s|] eqn:S; [|discriminate]. cbn [bind] in M.
        destruct (mapM _ xs) as [r|]; [|discriminate]. cbn [bind] in M. injection M as <-.
        destruct (IH _ eq_refl) as (ys & M & E & H). exists ((snd x, s) :: ys). split.
        + cbn [mapM fst snd]. rewrite G. cbn [bind]. now rewrite M.
        + split; [cbn; now rewrite E|]. intros [|k] f N; cbn in N |- *; [injection N as <-; eauto|eauto]. }
    destruct (SP _ _ M) as (ys & M' & E & H).
    assert (NX : nth_error (combine (seq 0 (List.length (fi_freq fp))) (fi_freq fp)) i = Some (i, c)).
    { clear - N. assert (G : forall k (l : list R) i c, nth_error l i = Some c ->
                nth_error (combine (seq k (List.length l)) l) i = Some ((k + i)%nat, c)).
      { clear. intros k l. revert k. induction l as [|x l IH]; intros k [|i] c N; try discriminate.
        - cbn in *. injection N as <-. do 2 f_equal. lia.
        - cbn in *. rewrite (IH _ _ _ N). do 2 f_equal. lia. }
      now apply (G 0%nat). }
    destruct (H i (i, c) NX) as (s & NY & SO). cbn [fst snd] in NY, SO. exists s. split.
    - apply (bands_dict freq_bands ys l c band s NB) with (2 := M'); [|exact D|now apply nth_error_In in NY].
      rewrite E. clear - NF. assert (G : forall k (l : list R), map snd (combine (seq k (List.length l)) l) = l).
      { intros k l. revert k. induction l as [|x l IH]; intros k; [reflexivity|]. cbn. now rewrite IH. }
      now rewrite G.
    - now apply sites_of_spec.
  Qed.

  Lemma fix_kw_spec cmd freq_bands (fp : finput V) kw :
    NoDup (map snd freq_bands) -> NoDup (fi_freq fp) -> NoDup (map fst (fi_R fp)) ->
    fix_kw cmd freq_bands (Some fp) = Ok kw ->
    forall i c band, nth_error (fi_freq fp) i = Some c -> dget reqb freq_bands c = Some band ->
    (cmd <> Go -> exists p, kw_fix kw = Some p /\
       forall g0 b, nth_error (fi_g0 fp) i = Some g0 -> nth_error (fi_b fp) i = Some b ->
         dget band_eqb p band = Some (g0, b)) /\
    (cmd = Source -> exists p s, kw_fix_sites kw = Some p /\ dget band_eqb p band = Some s /\
       forall sta x, dget String.eqb s sta = Some x <->
         exists l, dget String.eqb (fi_R fp) sta = Some l /\ nth_error l i = Some (Some x)) /\
    (cmd <> Source -> kw_fix_sites kw = None) /\ (cmd = Go -> kw_fix kw = None).
  Proof.
    intros NB NF NR H i c band N D. destruct cmd; cbn [fix_kw] in H.
    - injection H as <-. cbn. split; [congruence|]. split; [discriminate|]. split; reflexivity.
    - destruct (fix_params freq_bands fp) as [p|] eqn:P; [|discriminate]. cbn [bind] in H. injection H as <-. cbn.
      split; [intros _; exists p; split; [reflexivity|]|split; [discriminate|split; [reflexivity|discriminate]]].
      intros g0 b. exact (proj2 (fix_params_spec freq_bands fp p NB NF P) i c band g0 b N D).
    - destruct (fix_params freq_bands fp) as [p|] eqn:P; [|discriminate]. cbn [bind] in H.
      destruct (fix_sites_params freq_bands fp) as [q|] eqn:Q; [|discriminate]. cbn [bind] in H. injection H as <-. cbn.
      split; [intros _; exists p; split; [reflexivity|]|split; [intros _|split; [congruence|discriminate]]].
      + intros g0 b. exact (proj2 (fix_params_spec freq_bands fp p NB NF P) i c band g0 b N D).
      + destruct (fix_sites_spec freq_bands fp q NB NF NR Q i c band N D) as (s & S1 & S2). exists q, s. auto.
  Qed.

  Lemma fix_kw_wrong cmd freq_bands (fp : finput V) x :
    cmd <> Go -> ~ (In x (fi_freq fp) <-> In x (dkeys freq_bands)) ->
    fix_kw cmd freq_bands (Some fp) = Err ValueError.
  Proof.
    intros C N. destruct cmd; [contradiction| |]; cbn [fix_kw]; rewrite fix_errs by eauto; reflexivity.
  Qed.

  (** the parameters can be determined if the lists are complete *)
  Lemma fix_kw_ok cmd freq_bands (fp : finput V) :
    (forall x, In x (fi_freq fp) <-> In x (dkeys freq_bands)) ->
    (cmd = Source -> forall sta l, In (sta, l) (fi_R fp) -> (List.length (fi_freq fp) <= List.length l)%nat) ->
    exists kw, fix_kw cmd freq_bands (Some fp) = Ok kw.
  Proof.
    intros SS LR.
    assert (G : forall f, In f (fi_freq fp) -> exists b, getitem reqb freq_bands f = Ok b).
    { intros f I. apply SS in I. unfold getitem. destruct (dget reqb freq_bands f) as [b|] eqn:E; [eauto|].
      apply (dget_None _ reqb_spec) in E. contradiction. }
    assert (P : exists p, fix_params freq_bands fp = Ok p).
    { unfold fix_params. rewrite (proj2 (same_set_spec _ _) SS). cbn [negb].
      assert (Z : forall x, In x (zip3 (fi_freq fp) (fi_g0 fp) (fi_b fp)) -> In (fst x) (fi_freq fp)).
      { intros x I. apply In_nth_error in I. destruct I as (i & N). apply zip3_nth in N. destruct N as [N _].
        now apply nth_error_In in N. }
      revert Z. generalize (zip3 (fi_freq fp) (fi_g0 fp) (fi_b fp)). clear - G. intros l Z.
      assert (H : exists r, mapM (fun x => do fb <- getitem reqb freq_bands (fst x); Ok (fb, snd x)) l = Ok r).
      { induction l as [|x l IH]; [eexists; reflexivity|]. cbn [mapM].
        destruct (G (fst x) (Z x (or_introl eq_refl))) as (b & ->). destruct IH as (r & E); [intros; apply Z; now right|].
        cbn [bind]. rewrite E. eexists; reflexivity. }
      destruct H as (r & ->). eexists; reflexivity. }
    destruct P as (p & P). destruct cmd; cbn [fix_kw]; rewrite ?P; cbn [bind]; [eexists; reflexivity|eexists; reflexivity|].
    assert (Q : exists q, fix_sites_params freq_bands fp = Ok q).
    { unfold fix_sites_params.
      assert (S : forall i, (i < List.length (fi_freq fp))%nat -> exists s, sites_of (fi_R fp) i = Ok s).
      { intros i L. specialize (LR eq_refl). revert LR. generalize (fi_R fp). clear - L.
        induction l as [|[sta v] l IH]; intros LR; [eexists; reflexivity|]. cbn [sites_of]. unfold item.
        destruct (nth_error v i) as [y|] eqn:N.
        - cbn [bind]. destruct IH as (s & ->); [intros; eapply LR; right; eauto|]. cbn [bind]. destruct y; eexists; reflexivity.
        - apply nth_error_None in N. specialize (LR sta v (or_introl eq_refl)). lia. }
      assert (Z : forall x, In x (combine (seq 0 (List.length (fi_freq fp))) (fi_freq fp)) ->
                In (snd x) (fi_freq fp) /\ (fst x < List.length (fi_freq fp))%nat).
      { intros [i f] I. cbn. split; [now apply in_combine_r in I|]. apply in_combine_l in I. apply in_seq in I. lia. }
      revert Z. generalize (combine (seq 0 (List.length (fi_freq fp))) (fi_freq fp)). intros l Z.
      assert (H : exists r, mapM (fun x => do fb <- getitem reqb freq_bands (snd x);
                         do s <- sites_of (fi_R fp) (fst x); Ok (fb, s)) l = Ok r).
      { induction l as [|x l IH]; [eexists; reflexivity|]. cbn [mapM].
        destruct (Z x (or_introl eq_refl)) as [Z1 Z2]. destruct (G _ Z1) as (b & ->). cbn [bind].
        destruct (S _ Z2) as (s & ->). cbn [bind]. destruct IH as (r & E); [intros; apply Z; now right|].
        rewrite E. eexists; reflexivity. }
      destruct H as (r & ->). eexists; reflexivity. }
    destruct Q as (q & ->). eexists; reflexivity.
  Qed.
End Fix.
