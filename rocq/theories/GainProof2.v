(** C131: the equations of the multiplied energies. *)
From Coq Require Import String List Bool Reals Lra Lia ZArith Arith.
From Verif Require Import Base Pyf PyfOps StatModel StatProof FbModel FbProof3 SiteProof LsqfbModel LsqfbSpec LsqfbProof LsqfbProof2 LsqfbProof3 LsqfbProof4 LsqfbProof5 GainSpec GainProof.
Import ListNotations.
Open Scope string_scope.
Open Scope list_scope.
Open Scope R_scope.

Section G.
  Variables (lam mu : string -> R) (o : lopts) (st : wstate).
  Hypothesis AL : aligned st.
  Let st' := gained lam mu st.
  Let k (p : string * string) := lam (fst p) * mu (snd p).

  Lemma gained_pairs : pairs st' = pairs st.
  Proof. reflexivity. Qed.

  Lemma gained_lengths : Forall2 (fun e e' : list pyf => List.length e' = List.length e) (w_ecoda st) (w_ecoda st').
  Proof.
    destruct AL as (_ & LE & _). unfold st', gained. cbn [w_ecoda]. revert LE. generalize (w_ecoda st) (pairs st).
    induction l as [|e l IH]; intros [|p ps] L; try discriminate; cbn [combine map]; constructor.
    - cbn. apply map_length.
    - apply IH. now injection L.
  Qed.

  Lemma gained_bulk_length : List.length (w_ebulk st') = List.length (w_ebulk st).
  Proof.
    unfold st', gained. cbn [w_ebulk]. rewrite map_length, combine_length.
    destruct AL as (_ & _ & _ & _ & [->|L]); cbn; lia.
  Qed.

  Lemma gained_aligned : aligned st'.
  Proof.
    destruct AL as (NE & LE & F & LB & LP). split; [exact NE|].
    split; [now rewrite <- (Forall2_len _ _ _ gained_lengths)|]. split; [|split].
    - change (w_tcoda st') with (w_tcoda st). pose proof gained_lengths as G.
      revert F G. generalize (w_tcoda st) (w_ecoda st) (w_ecoda st').
      induction l as [|t l IH]; intros l1 l2 F G; inversion F; subst; inversion G; subst; constructor; [congruence|eauto].
    - rewrite gained_bulk_length. exact LB.
    - rewrite gained_bulk_length. destruct LP as [E|L]; [left|right; exact L].
      pose proof gained_bulk_length as Q. rewrite E in Q. now destruct (w_ebulk st').
  Qed.

  Lemma gained_block_lengths : block_lengths st' = block_lengths st.
  Proof.
    unfold block_lengths. f_equal.
    - pose proof gained_lengths as G. induction G as [|e e' l l' H G IH]; [reflexivity|]. cbn. now rewrite H, IH.
    - pose proof gained_bulk_length as Q. revert Q. generalize (w_ebulk st') (w_ebulk st).
      induction l; intros [|y m] Q; try discriminate; [reflexivity|]. cbn. f_equal. apply IHl. now injection Q.
  Qed.

  Lemma gained_build : build o st' = build o st.
  Proof. unfold build. rewrite gained_block_lengths. reflexivity. Qed.

  Lemma gained_greens g : greens o st' g (pairs st') (w_ecoda st') (w_tcoda st') =
    greens o st g (pairs st) (w_ecoda st) (w_tcoda st).
  Proof.
    change (pairs st') with (pairs st). change (w_tcoda st') with (w_tcoda st).
    pose proof gained_lengths as G. revert G. generalize (w_tcoda st) (w_ecoda st) (w_ecoda st').
    induction (pairs st) as [|p ps IH]; intros tc ec ec' G; [reflexivity|].
    cbn [greens]. inversion G as [|e e' l l' H G']; subst; [reflexivity|]. rewrite H.
    destruct (Nat.eqb (List.length e) 0); [reflexivity|].
    change (w_distances st') with (w_distances st). destruct (dget pair_eqb (w_distances st) p); [|reflexivity].
    destruct tc as [|t tc]; [reflexivity|]. rewrite (IH tc l l' G').
    change (w_tbulk_window st') with (w_tbulk_window st). reflexivity.
  Qed.

  (** the samples *)
  Definition times_k (s : sample) : sample :=
    (fst s, (fst (snd s), fmul (FNum (lam (fst (fst s)) * mu (snd (fst s)))) (snd (snd s)))).

  Lemma gained_samples : samples st' = map times_k (samples st).
  Proof.
    unfold samples, blocks. rewrite !flat_map_app, map_app. f_equal.
    - change (pairs st') with (pairs st). change (w_tcoda st') with (w_tcoda st).
      unfold st', gained. cbn [w_ecoda]. generalize (w_tcoda st) (w_ecoda st).
      induction (pairs st) as [|p ps IH]; intros [|t tc] [|e ec]; try reflexivity.
      cbn [combine map flat_map fst snd]. rewrite map_app, IH. f_equal.
      rewrite map_map. clear. revert t. induction e as [|x e IH]; intros [|u t]; try reflexivity.
      cbn [combine map]. f_equal. apply IH.
    - change (pairs st') with (pairs st). change (w_tbulk st') with (w_tbulk st).
      unfold st', gained. cbn [w_ebulk]. generalize (w_tbulk st) (w_ebulk st).
      induction (pairs st) as [|p ps IH]; intros [|t tb] [|e eb]; try reflexivity.
      cbn [combine map flat_map fst snd app]. f_equal. apply IH.
  Qed.

  Hypothesis NU : numeric st.
  Hypothesis PL : positive_on (map fst (pairs st)) lam.
  Hypothesis PM : positive_on (map snd (pairs st)) mu.
  Hypothesis PG : positive_greens o st.

  Lemma numeric_times : Forall (fun s => stime s = FNum (tof s)) (samples st).
  Proof.
    refine (Forall_impl _ _ NU). intros s (t & e & E & _). unfold tof, stime. now rewrite E.
  Qed.

  Lemma greens_positive_of x ps : 0 < x -> forall ec tc gc gb,
    (forall i p t r, nth_error ps i = Some p -> nth_error tc i = Some t -> dget pair_eqb (w_distances st) p = Some r -> coda_of st r t) ->
    (forall p r w, In p ps -> dget pair_eqb (w_distances st) p = Some r -> dget pair_eqb (w_tbulk_window st) p = Some w -> bulk_of st r w) ->
    greens o st (FNum x) ps ec tc = Ok (gc, gb) ->
    Forall (fun g => exists y, g = FNum y /\ 0 < y) (concat gc ++ gb).
  Proof.
    intros X ec tc gc gb CO BO H. apply Forall_app. revert ec tc gc gb CO BO H.
    induction ps as [|p ps IH]; intros ec tc gc gb CO BO H; cbn [greens] in H.
    - injection H as <- <-. split; constructor.
    - destruct ec as [|e ec]; [discriminate|]. destruct (Nat.eqb _ 0); [discriminate|].
      destruct (dget pair_eqb (w_distances st) p) as [r|] eqn:D; [|discriminate].
      destruct tc as [|t tc]; [discriminate|].
      destruct (l_gcoda o r t (FNum x)) as [g|] eqn:G; [|discriminate]. cbn [bind] in H.
      match type of H with bind ?x _ = _ => destruct x as [gb1|] eqn:GB; [|discriminate] end. cbn [bind] in H.
      destruct (greens o st (FNum x) ps ec tc) as [[gcs gbs]|] eqn:GS; [|discriminate]. cbn [bind] in H.
      injection H as <- <-. destruct (IH _ _ _ _ (fun i => CO (S i)) (fun p r w I => BO p r w (or_intror I)) GS) as [I1 I2]. cbn [concat]. split; apply Forall_app; split; auto.
      + exact (proj1 PG _ _ _ _ (CO 0%nat _ _ _ eq_refl eq_refl D) X G).
      + destruct (l_bulk o); [|injection GB as <-; constructor].
        destruct (dget pair_eqb (w_tbulk_window st) p) as [w|] eqn:DW; [|discriminate].
        destruct (l_gbulk o r w (FNum x)) as [g1|] eqn:G1; [|discriminate]. cbn [bind] in GB. injection GB as <-.
        constructor; [|constructor]. exact (proj2 PG _ _ _ _ (BO p _ _ (or_introl eq_refl) D DW) X G1).
  Qed.

  Lemma greens_positive x gc gb : 0 < x -> greens o st (FNum x) (pairs st) (w_ecoda st) (w_tcoda st) = Ok (gc, gb) ->
    Forall (fun g => exists y, g = FNum y /\ 0 < y) (concat gc ++ gb).
  Proof.
    intros X. apply (greens_positive_of x _ X).
    - intros i p t r P T D. exists i, p. auto.
    - intros p r w I D W. exists p. auto.
  Qed.

  Definition gain_log (s : sample) : R := ln (lam (fst (fst s))) + ln (mu (snd (fst s))).

  Lemma zip_logs ss : forall gs z z',
    (forall s, In s ss -> 0 < lam (fst (fst s)) /\ 0 < mu (snd (fst s))) ->
    Forall (fun s => exists t e, snd s = (FNum t, FNum e) /\ 0 < e) ss ->
    Forall (fun g => exists y, g = FNum y /\ 0 < y) gs ->
    zip_op fsub (map flog (map senergy ss)) (map flog gs) = Ok z ->
    zip_op fsub (map flog (map senergy (map times_k ss))) (map flog gs) = Ok z' ->
    exists b, z = map FNum b /\ List.length b = List.length ss /\ z' = map FNum (vlin 1 b 1 (map gain_log ss)).
  Proof.
    induction ss as [|s ss IH]; intros [|g gs] z z' P N G H H'; cbn [map zip_op] in H, H'; try discriminate.
    - injection H as <-. injection H' as <-. exists []. auto.
    - destruct (zip_op fsub (map flog (map senergy ss)) _) as [r|] eqn:E; [|discriminate]. cbn [bind] in H. injection H as <-.
      destruct (zip_op fsub (map flog (map senergy (map times_k ss))) _) as [r'|] eqn:E'; [|discriminate]. cbn [bind] in H'. injection H' as <-.
      inversion N as [|? ? (t & e & ES & EP) N']; subst. inversion G as [|? ? (y & -> & YP) G']; subst.
      destruct (IH gs r r') as (b & -> & L & ->); auto; [intros; apply P; now right|].
      destruct (P s) as [P1 P2]; [now left|].
      exists ((ln e - ln y) :: b). unfold senergy, times_k. cbn [fst snd]. rewrite ES. cbn [snd fmul].
      rewrite !flog_num by (auto; repeat apply Rmult_lt_0_compat; auto).
      split; [reflexivity|]. split; [cbn; lia|]. unfold vlin. cbn [map combine fst snd]. f_equal.
      cbn [fsub fadd fneg]. f_equal. unfold gain_log. rewrite !ln_mult by (auto; repeat apply Rmult_lt_0_compat; auto). ring.
  Qed.

  Lemma factors_positive s : In s (samples st) -> 0 < lam (fst (fst s)) /\ 0 < mu (snd (fst s)).
  Proof.
    intros I. pose proof (sample_pair st s I) as IP.
    split; [apply PL; now apply in_map|apply PM; now apply in_map].
  Qed.

  (** a numeric list added to both *)
  Lemma zip_numeric (op : pyf -> pyf -> pyf) (f : R -> R -> R) :
    (forall x y, op (FNum x) (FNum y) = FNum (f x y)) ->
    (forall x y d, f (1 * x + 1 * d) y = 1 * f x y + 1 * d) ->
    forall b m d z z', List.length d = List.length b ->
    zip_op op (map FNum b) (map FNum m) = Ok z ->
    zip_op op (map FNum (vlin 1 b 1 d)) (map FNum m) = Ok z' ->
    exists b1, z = map FNum b1 /\ List.length b1 = List.length b /\ z' = map FNum (vlin 1 b1 1 d).
  Proof.
    intros HO HF. induction b as [|x b IH]; intros [|y m] [|u d] z z' L H H'; try discriminate.
    - injection H as <-. injection H' as <-. exists []. auto.
    - unfold vlin in H'. cbn [map combine fst snd zip_op] in H, H'. fold (vlin 1 b 1 d) in H'.
      destruct (zip_op op (map FNum b) _) as [r|] eqn:E; [|discriminate]. cbn [bind] in H. injection H as <-.
      destruct (zip_op op (map FNum (vlin 1 b 1 d)) _) as [r'|] eqn:E'; [|discriminate]. cbn [bind] in H'. injection H' as <-.
      destruct (IH m d r r') as (b1 & -> & LB & ->); [now injection L|exact E|exact E'|].
      exists (f x y :: b1). rewrite !HO. split; [reflexivity|]. split; [cbn; lia|].
      unfold vlin. cbn [map combine fst snd]. now rewrite HF.
  Qed.

  Lemma rhs_gained x bf fs bs z z' : 0 < x ->
    match bf with None => True | Some b => exists y, b = FNum y end ->
    (fs = true -> exists m, bs = map FNum m) ->
    rhs o st (FNum x) bf fs bs = Ok z -> rhs o st' (FNum x) bf fs bs = Ok z' ->
    exists b, z = map FNum b /\ List.length b = List.length (samples st) /\
      z' = map FNum (vlin 1 b 1 (map gain_log (samples st))).
  Proof.
    intros X NB NS. unfold rhs. rewrite gained_greens.
    destruct (greens o st (FNum x) (pairs st) (w_ecoda st) (w_tcoda st)) as [[gc gb]|] eqn:GR; [|discriminate].
    cbn [bind]. destruct (samples_columns st AL) as [ST SE]. destruct (samples_columns st' gained_aligned) as [ST' SE'].
    rewrite <- SE, <- SE', gained_samples. change (times st') with (times st). rewrite <- ST.
    destruct (zip_op fsub (map flog (map senergy (samples st))) _) as [z0|] eqn:E; [|discriminate].
    destruct (zip_op fsub (map flog (map senergy (map times_k (samples st)))) _) as [z0'|] eqn:E'; [|discriminate].
    destruct (zip_logs (samples st) _ _ _ factors_positive NU (greens_positive x _ _ X GR) E E') as (b & -> & L & ->).
    cbn [bind].
    assert (T : map stime (samples st) = map FNum (map tof (samples st))).
    { rewrite map_map. apply map_ext_in. intros s I. exact (proj1 (Forall_forall _ _) numeric_times s I). }
    rewrite T.
    assert (K : forall z1 z1',
      match nonzero bf with None => Ok (map FNum b) | Some bf => zip_op fadd (map FNum b) (map (fmul bf) (map FNum (map tof (samples st)))) end = Ok z1 ->
      match nonzero bf with None => Ok (map FNum (vlin 1 b 1 (map gain_log (samples st)))) | Some bf => zip_op fadd (map FNum (vlin 1 b 1 (map gain_log (samples st)))) (map (fmul bf) (map FNum (map tof (samples st)))) end = Ok z1' ->
      exists b1, z1 = map FNum b1 /\ List.length b1 = List.length (samples st) /\ z1' = map FNum (vlin 1 b1 1 (map gain_log (samples st)))).
    { intros z1 z1'. destruct bf as [bf|].
      - destruct NB as (y & ->). cbn [nonzero]. destruct (Req_EM_T y 0).
        + intros [= <-] [= <-]. exists b. auto.
        + assert (Q : map (fmul (FNum y)) (map FNum (map tof (samples st))) = map FNum (map (Rmult y) (map tof (samples st)))).
          { now rewrite !map_map. }
          rewrite Q. intros H H'.
          destruct (zip_numeric fadd Rplus (fun _ _ => eq_refl) ltac:(intros; ring) b _ (map gain_log (samples st)) _ _ ltac:(rewrite map_length; congruence) H H') as (b1 & E1 & L1 & E2).
          exists b1. split; [exact E1|]. split; [congruence|exact E2].
      - cbn [nonzero]. intros [= <-] [= <-]. exists b. auto. }
    match goal with |- bind ?x _ = _ -> _ => destruct x as [z1|] eqn:H1; [|discriminate] end.
    match goal with |- _ -> bind ?x _ = _ -> _ => destruct x as [z1'|] eqn:H2; [|discriminate] end.
    destruct (K _ _ eq_refl eq_refl) as (b1 & -> & L1 & ->). cbn [bind].
    destruct fs.
    - destruct (NS eq_refl) as (m & ->). intros H H'.
      destruct (zip_numeric fsub Rminus ltac:(intros; cbn; f_equal; ring) ltac:(intros; ring) b1 _ (map gain_log (samples st)) _ _ ltac:(rewrite map_length; congruence) H H') as (b2 & E1 & L2 & E2).
      exists b2. split; [exact E1|]. split; [congruence|exact E2].
    - intros [= <-] [= <-]. exists b1. auto.
  Qed.
End G.
