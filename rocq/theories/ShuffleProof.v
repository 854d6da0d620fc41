(** C132: the equations as a list of data. *)
From Coq Require Import String List Bool Reals Lra Lia ZArith Arith Permutation.
From Verif Require Import Base Pyf PyfOps StatModel StatProof FbModel FbProof3 SiteProof LsqfbModel LsqfbSpec LsqfbProof LsqfbProof2 LsqfbProof3 LsqfbProof4 LsqfbProof5 GainSpec GainProof GainProof2 ShuffleSpec.
Import ListNotations.
Open Scope string_scope.
Open Scope list_scope.
Open Scope R_scope.

Definition datum : Type := (sample * pyf * R)%type.
Definition d_s (d : datum) : sample := fst (fst d).
Definition d_g (d : datum) : pyf := snd (fst d).
Definition d_w (d : datum) : R := snd d.
Definition num (x : pyf) : R := match x with FNum y => y | _ => 0 end.
Definition ob_pair (ob : observed) : string * string := get_pair (ob_trace ob).

Definition tsum (f : datum -> R) (l : list datum) : R := fold_right Rplus 0 (map f l).
Lemma tsum_perm f l l2 : Permutation l l2 -> tsum f l = tsum f l2.
Proof. unfold tsum. induction 1; cbn in *; lra. Qed.

Lemma zip_map {A} (f : pyf -> pyf -> pyf) (g h k : A -> pyf) (ss : list A) z :
  zip_op f (map g ss) (map h ss) = Ok z -> (forall s, In s ss -> f (g s) (h s) = k s) -> z = map k ss.
Proof.
  revert z. induction ss as [|s ss IH]; intros z H K; cbn [map zip_op] in H.
  - now injection H as <-.
  - destruct (zip_op f _ _) as [r|] eqn:E; [|discriminate]. cbn [bind] in H. injection H as <-.
    cbn [map]. rewrite (K s) by now left. f_equal. apply IH; [reflexivity|]. intros; apply K; now right.
Qed.

Lemma map_fst_combine {A B} (l : list A) : forall (m : list B), List.length m = List.length l -> map fst (combine l m) = l.
Proof. induction l; intros [|y m] L; try discriminate; [reflexivity|]. cbn. f_equal. apply IHl. now injection L. Qed.
Lemma map_snd_combine {A B} (l : list A) : forall (m : list B), List.length m = List.length l -> map snd (combine l m) = m.
Proof. induction l; intros [|y m] L; try discriminate; [reflexivity|]. cbn. f_equal. apply IHl. now injection L. Qed.

Section O.
  Variables (o : lopts) (st : wstate) (x : R).

  (** Green's functions of an observation *)
  Definition g_coda (ob : observed) : list pyf :=
    match dget pair_eqb (w_distances st) (ob_pair ob) with
    | Some r => match l_gcoda o r (ob_times ob) (FNum x) with Ok gs => gs | Err _ => [] end
    | None => []
    end.
  Definition g_bulk (ob : observed) : pyf :=
    match dget pair_eqb (w_distances st) (ob_pair ob), dget pair_eqb (w_tbulk_window st) (ob_pair ob) with
    | Some r, Some t => match l_gbulk o r t (FNum x) with Ok g => g | Err _ => FNan end
    | _, _ => FNan
    end.

  Definition te_of (ob : observed) : list (pyf * pyf) := combine (map FNum (ob_times ob)) (ob_energies ob).
  Definition cod (ob : observed) : list datum :=
    map (fun p => ((ob_pair ob, fst p), snd p, 1)) (combine (te_of ob) (g_coda ob)).
  Definition blk (ob : observed) : datum := ((ob_pair ob, (ob_tbulk ob, ob_ebulk ob)), g_bulk ob, ob_weight ob).
  Definition data (l : list observed) : list datum :=
    flat_map cod l ++ (if l_bulk o then map blk l else []).

  Lemma data_perm l l2 : Permutation l l2 -> Permutation (data l) (data l2).
  Proof.
    intros P. unfold data. apply Permutation_app; [now apply Permutation_flat_map|].
    destruct (l_bulk o); [now apply Permutation_map|constructor].
  Qed.

  Lemma greens_map l : forall gc gb,
    greens o st (FNum x) (map ob_pair l) (map ob_energies l) (map ob_times l) = Ok (gc, gb) ->
    gc = map g_coda l /\ gb = (if l_bulk o then map g_bulk l else []) /\
    Forall (fun ob => exists r, dget pair_eqb (w_distances st) (ob_pair ob) = Some r /\ l_gcoda o r (ob_times ob) (FNum x) = Ok (g_coda ob)) l.
  Proof.
    induction l as [|ob l IH]; intros gc gb H; cbn [map greens] in H.
    - injection H as <- <-. split; [reflexivity|]. split; [now destruct (l_bulk o)|constructor].
    - destruct (Nat.eqb _ 0); [discriminate|].
      destruct (dget pair_eqb (w_distances st) (ob_pair ob)) as [r|] eqn:D; [|discriminate].
      destruct (l_gcoda o r (ob_times ob) (FNum x)) as [g|] eqn:G; [|discriminate]. cbn [bind] in H.
      match type of H with bind ?x _ = _ => destruct x as [gb1|] eqn:GB; [|discriminate] end. cbn [bind] in H.
      destruct (greens o st (FNum x) _ _ _) as [[gcs gbs]|] eqn:GS; [|discriminate]. cbn [bind] in H.
      injection H as <- <-. destruct (IH _ _ eq_refl) as (-> & -> & F).
      assert (E : g_coda ob = g) by (unfold g_coda; now rewrite D, G).
      split; [cbn [map]; now rewrite E|]. split; [|constructor; [exists r; split; [exact D|congruence]|exact F]].
      destruct (l_bulk o); [|now injection GB as <-].
      destruct (dget pair_eqb (w_tbulk_window st) (ob_pair ob)) as [t|] eqn:T; [|discriminate].
      destruct (l_gbulk o r t (FNum x)) as [g1|] eqn:G1; [|discriminate]. injection GB as <-.
      cbn [map app]. f_equal. unfold g_bulk. now rewrite D, T, G1.
  Qed.

  Definition full (ob : observed) : Prop :=
    List.length (ob_times ob) = List.length (ob_energies ob) /\ List.length (g_coda ob) = List.length (ob_times ob).

  Lemma te_length ob : full ob -> List.length (g_coda ob) = List.length (te_of ob).
  Proof. intros [L1 L2]. unfold te_of. rewrite combine_length, map_length. lia. Qed.

  Lemma cod_s ob : full ob -> map d_s (cod ob) = map (fun te => (ob_pair ob, te)) (te_of ob).
  Proof.
    intros F. unfold cod. rewrite map_map.
    rewrite <- (map_fst_combine (te_of ob) (g_coda ob) (te_length ob F)) at 2. rewrite map_map. reflexivity.
  Qed.
  Lemma cod_g ob : full ob -> map d_g (cod ob) = g_coda ob.
  Proof.
    intros F. unfold cod. rewrite map_map.
    rewrite <- (map_snd_combine (te_of ob) (g_coda ob) (te_length ob F)) at 2. reflexivity.
  Qed.
  Lemma cod_w ob : map d_w (cod ob) = repeat 1 (List.length (cod ob)).
  Proof. unfold cod. rewrite map_map, map_length. induction (combine _ _) as [|d q IH]; [reflexivity|]. cbn [map repeat List.length]. now rewrite IH. Qed.

  Lemma cods_s l : Forall full l -> map d_s (flat_map cod l) = flat_map (fun ob => map (fun te => (ob_pair ob, te)) (te_of ob)) l.
  Proof. induction 1; [reflexivity|]. cbn [flat_map]. now rewrite map_app, cod_s, IHForall. Qed.
  Lemma cods_g l : Forall full l -> map d_g (flat_map cod l) = concat (map g_coda l).
  Proof. induction 1; [reflexivity|]. cbn [flat_map map concat]. now rewrite map_app, cod_g, IHForall. Qed.
  Lemma cods_w l : map d_w (flat_map cod l) = repeat 1 (List.length (flat_map cod l)).
  Proof. induction l; [reflexivity|]. cbn [flat_map]. now rewrite map_app, app_length, repeat_app, cod_w, IHl. Qed.

  Lemma data_g l : Forall full l -> map d_g (data l) = concat (map g_coda l) ++ (if l_bulk o then map g_bulk l else []).
  Proof.
    intros F. unfold data. rewrite map_app, cods_g by exact F. f_equal.
    destruct (l_bulk o); [|reflexivity]. rewrite map_map. reflexivity.
  Qed.
End O.

(** the samples of the observations *)
Definition obs_samples (bulk : bool) (l : list observed) : list sample :=
  flat_map (fun ob => map (fun te => (ob_pair ob, te)) (te_of ob)) l ++
  (if bulk then map (fun ob => (ob_pair ob, (ob_tbulk ob, ob_ebulk ob))) l else []).

Section A.
  Variables (bulk : bool) (l : list observed) (st : wstate).
  Hypothesis AR : arranged bulk l st.

  Lemma arranged_pairs : pairs st = map ob_pair l.
  Proof. unfold pairs. rewrite (proj1 AR), map_map. reflexivity. Qed.

  Lemma arranged_samples : samples st = obs_samples bulk l.
  Proof.
    unfold samples, blocks, obs_samples. rewrite flat_map_app, arranged_pairs.
    destruct AR as (_ & -> & -> & B). f_equal.
    - clear. induction l as [|ob l' IH]; [reflexivity|]. cbn [map combine flat_map fst snd]. rewrite IH. reflexivity.
    - destruct bulk.
      + destruct B as (-> & -> & _). clear. induction l as [|ob l' IH]; [reflexivity|].
        cbn [map combine flat_map fst snd app]. now rewrite IH.
      + destruct B as (-> & ->). cbn. clear. induction l; [reflexivity|]. cbn. reflexivity.
  Qed.

  Lemma arranged_aligned : aligned st <-> l <> [] /\ Forall (fun ob => List.length (ob_times ob) = List.length (ob_energies ob)) l.
  Proof.
    unfold aligned. rewrite arranged_pairs. destruct AR as (_ & -> & -> & B). rewrite !map_length.
    assert (F : Forall2 (fun (t : list R) (e : list pyf) => List.length t = List.length e) (map ob_times l) (map ob_energies l) <->
      Forall (fun ob => List.length (ob_times ob) = List.length (ob_energies ob)) l).
    { clear. induction l as [|ob l' IH]; cbn; split; intros H; try constructor; inversion H; subst; try assumption; now apply IH. }
    rewrite F. split.
    - intros (N & _ & H & _). split; [|exact H]. intros ->. now apply N.
    - intros (N & H). split; [intros Q; apply N; now destruct l|]. split; [reflexivity|]. split; [exact H|].
      destruct bulk; [destruct B as (-> & -> & _); rewrite !map_length; auto|destruct B as (-> & ->); auto].
  Qed.
End A.

Lemma data_s o st x l : Forall (full o st x) l -> map d_s (data o st x l) = obs_samples (l_bulk o) l.
Proof.
  intros F. unfold data, obs_samples. rewrite map_app, cods_s by exact F. f_equal.
  destruct (l_bulk o); [|reflexivity]. rewrite map_map. reflexivity.
Qed.

Lemma obs_samples_perm bulk l l2 : Permutation l l2 -> Permutation (obs_samples bulk l) (obs_samples bulk l2).
Proof.
  intros P. unfold obs_samples. apply Permutation_app; [now apply Permutation_flat_map|].
  destruct bulk; [now apply Permutation_map|constructor].
Qed.

(** ** The second order *)
Section R.
  Variables (o : lopts) (st st2 : wstate).
  Hypothesis RE : reordered (l_bulk o) st st2.

  Lemma re_pairs : Permutation (pairs st) (pairs st2).
  Proof.
    destruct RE as ((l & l2 & P & A & A2) & _). rewrite (arranged_pairs _ _ _ A), (arranged_pairs _ _ _ A2). now apply Permutation_map.
  Qed.
  Lemma re_samples : Permutation (samples st) (samples st2).
  Proof.
    destruct RE as ((l & l2 & P & A & A2) & _). rewrite (arranged_samples _ _ _ A), (arranged_samples _ _ _ A2). now apply obs_samples_perm.
  Qed.
  Lemma re_aligned : aligned st -> aligned st2.
  Proof.
    destruct RE as ((l & l2 & P & A & A2) & _). rewrite (arranged_aligned _ _ _ A), (arranged_aligned _ _ _ A2).
    intros (N & F). split; [|now apply (Permutation_Forall P)]. intros ->. apply N. now apply Permutation_nil, Permutation_sym.
  Qed.
  Lemma re_numeric : numeric st -> numeric st2.
  Proof. unfold numeric. apply Permutation_Forall, re_samples. Qed.
  Lemma re_weights : good_weights o st -> good_weights o st2.
  Proof.
    destruct RE as ((l & l2 & P & (_ & _ & _ & B) & (_ & _ & _ & B2)) & _). unfold good_weights. intros G E. specialize (G E).
    rewrite E in B, B2. destruct B as (_ & _ & BW). destruct B2 as (_ & B2E & B2W). rewrite BW in G. rewrite B2E, B2W, !map_length.
    split; [|reflexivity]. exact (Permutation_Forall (Permutation_map _ P) (proj1 G)).
  Qed.
  Lemma re_coda r t : coda_of st2 r t -> coda_of st r t.
  Proof.
    destruct RE as ((l & l2 & P & A & A2) & DD & _). intros (i & p & IP & IT & D).
    rewrite (arranged_pairs _ _ _ A2) in IP. rewrite (proj1 (proj2 A2)) in IT. rewrite nth_error_map in IP, IT.
    destruct (nth_error l2 i) as [ob|] eqn:E; [|discriminate]. injection IP as <-. injection IT as <-.
    apply nth_error_In in E. apply (Permutation_in _ (Permutation_sym P)) in E. apply In_nth_error in E. destruct E as (j & E).
    exists j, (ob_pair ob). rewrite (arranged_pairs _ _ _ A), (proj1 (proj2 A)), !nth_error_map, E. rewrite DD in D. auto.
  Qed.
  Lemma re_bulk r w : bulk_of st2 r w -> bulk_of st r w.
  Proof.
    intros (p & IP & D & W). destruct RE as (_ & DD & WW). rewrite DD in D. rewrite WW in W. exists p. split; [|auto].
    exact (Permutation_in _ (Permutation_sym re_pairs) IP).
  Qed.
  Lemma re_positive : positive_greens o st -> positive_greens o st2.
  Proof.
    intros (P1 & P2). split; [intros r t x gs C; exact (P1 r t x gs (re_coda r t C))|intros r w x g C; exact (P2 r w x g (re_bulk r w C))].
  Qed.
  Lemma re_lengths : greens_lengths o st -> greens_lengths o st2.
  Proof. intros G r t x gs C. exact (G r t x gs (re_coda r t C)). Qed.
  Lemma re_times : two_times st -> two_times st2.
  Proof.
    intros (p & t1 & t2 & e1 & e2 & N & I1 & I2). exists p, t1, t2, e1, e2. split; [exact N|].
    split; now apply (Permutation_in _ re_samples).
  Qed.
  Lemma re_network : one_network st -> one_network st2.
  Proof.
    intros N s1 s2 I1 I2. pose proof (Permutation_map snd (Permutation_sym re_pairs)) as Q.
    pose proof (N s1 s2 (Permutation_in _ Q I1) (Permutation_in _ Q I2)) as C.
    induction C as [s|ev s1 s2 s3 C IH J1 J2]; [constructor|].
    assert (I : In s2 (map snd (pairs st2))).
    { apply (Permutation_in _ (Permutation_map snd re_pairs)). now apply (in_map snd) in J1. }
    apply (con_step _ ev s1 s2 s3); [now apply IH| |]; now apply (Permutation_in _ re_pairs).
  Qed.
  Lemma re_stations : Permutation (stations st) (stations st2).
  Proof.
    apply NoDup_Permutation; try apply fromkeys_spec. intros s. unfold stations.
    rewrite !(proj2 (fromkeys_spec _)). pose proof (Permutation_map snd re_pairs) as Q.
    split; apply Permutation_in; [exact Q|now apply Permutation_sym].
  Qed.
  Lemma re_events : Permutation (eventids st) (eventids st2).
  Proof.
    apply NoDup_Permutation; try apply fromkeys_spec. intros s. unfold eventids.
    rewrite !(proj2 (fromkeys_spec _)). pose proof (Permutation_map fst re_pairs) as Q.
    split; apply Permutation_in; [exact Q|now apply Permutation_sym].
  Qed.
  Lemma re_width : width o st2 = width o st.
  Proof.
    unfold width, Ns, Ne. rewrite (Permutation_length re_stations), (Permutation_length re_events). reflexivity.
  Qed.
  Lemma re_data x l : data o st2 x l = data o st x l.
  Proof.
    destruct RE as (_ & D & W).
    assert (E1 : forall ob, g_coda o st2 x ob = g_coda o st x ob) by (intros ob; unfold g_coda; now rewrite D).
    assert (E2 : forall ob, g_bulk o st2 x ob = g_bulk o st x ob) by (intros ob; unfold g_bulk; now rewrite D, W).
    unfold data. f_equal.
    - apply flat_map_ext. intros ob. unfold cod. now rewrite E1.
    - destruct (l_bulk o); [|reflexivity]. apply map_ext. intros ob. unfold blk. now rewrite E2.
  Qed.
End R.
