(** C133: the equations of the damped energies. *)
From Coq Require Import String List Bool Reals Lra Lia ZArith Arith.
From Verif Require Import Base Pyf PyfOps StatModel StatProof FbModel FbProof3 SiteProof LsqfbModel LsqfbSpec LsqfbProof LsqfbProof2 LsqfbProof3 LsqfbProof4 LsqfbProof5 GainSpec GainProof GainProof2 DampSpec.
Import ListNotations.
Open Scope string_scope.
Open Scope list_scope.
Open Scope R_scope.

Section D.
  Variables (d : R) (st : wstate).
  Hypothesis AL : aligned st.
  Let st' := damped d st.

  Lemma damped_lengths : Forall2 (fun e e' : list pyf => List.length e' = List.length e) (w_ecoda st) (w_ecoda st').
  Proof.
    destruct AL as (_ & _ & F & _). unfold st', damped. cbn [w_ecoda]. clear - F.
    induction F as [|t e l m L F IH]; cbn [combine map]; constructor; [|exact IH].
    cbn [fst snd]. rewrite map_length, combine_length. lia.
  Qed.

  Lemma damped_bulk_length : List.length (w_ebulk st') = List.length (w_ebulk st).
  Proof.
    unfold st', damped. cbn [w_ebulk]. rewrite map_length, combine_length.
    destruct AL as (_ & _ & _ & L & _). lia.
  Qed.

  Lemma damped_aligned : aligned st'.
  Proof.
    destruct AL as (NE & LE & F & LB & LP). split; [exact NE|].
    split; [now rewrite <- (Forall2_len _ _ _ damped_lengths)|]. split; [|split].
    - change (w_tcoda st') with (w_tcoda st). pose proof damped_lengths as G.
      revert F G. generalize (w_tcoda st) (w_ecoda st) (w_ecoda st').
      induction l as [|t l IH]; intros l1 l2 F G; inversion F; subst; inversion G; subst; constructor; [congruence|eauto].
    - rewrite damped_bulk_length. exact LB.
    - rewrite damped_bulk_length. destruct LP as [E|L]; [left|right; exact L].
      pose proof damped_bulk_length as Q. rewrite E in Q. now destruct (w_ebulk st').
  Qed.

  Lemma damped_block_lengths : block_lengths st' = block_lengths st.
  Proof.
    unfold block_lengths. f_equal.
    - pose proof damped_lengths as G. induction G as [|e e' l l' H G IH]; [reflexivity|]. cbn. now rewrite H, IH.
    - pose proof damped_bulk_length as Q. revert Q. generalize (w_ebulk st') (w_ebulk st).
      induction l; intros [|y m] Q; try discriminate; [reflexivity|]. cbn. f_equal. apply IHl. now injection Q.
  Qed.

  Lemma damped_build o : build o st' = build o st.
  Proof. unfold build. rewrite damped_block_lengths. reflexivity. Qed.

  Lemma damped_greens o g : greens o st' g (pairs st') (w_ecoda st') (w_tcoda st') =
    greens o st g (pairs st) (w_ecoda st) (w_tcoda st).
  Proof.
    change (pairs st') with (pairs st). change (w_tcoda st') with (w_tcoda st).
    pose proof damped_lengths as G. revert G. generalize (w_tcoda st) (w_ecoda st) (w_ecoda st').
    induction (pairs st) as [|p ps IH]; intros tc ec ec' G; [reflexivity|].
    cbn [greens]. inversion G as [|e e' l l' H G']; subst; [reflexivity|]. rewrite H.
    destruct (Nat.eqb (List.length e) 0); [reflexivity|].
    change (w_distances st') with (w_distances st). destruct (dget pair_eqb (w_distances st) p); [|reflexivity].
    destruct tc as [|t tc]; [reflexivity|]. rewrite (IH tc l l' G').
    change (w_tbulk_window st') with (w_tbulk_window st). reflexivity.
  Qed.

  Definition decayed (s : sample) : sample := (fst s, (stime s, decay d (stime s) (senergy s))).

  Lemma damped_samples : samples st' = map decayed (samples st).
  Proof.
    unfold samples, blocks. rewrite !flat_map_app, map_app. f_equal.
    - change (pairs st') with (pairs st). change (w_tcoda st') with (w_tcoda st).
      unfold st', damped. cbn [w_ecoda]. generalize (w_tcoda st) (w_ecoda st).
      induction (pairs st) as [|p ps IH]; intros [|t tc] [|e ec]; try reflexivity.
      cbn [combine map flat_map fst snd]. rewrite map_app, IH. f_equal.
      rewrite map_map. clear. revert t. induction e as [|x e IH]; intros [|u t]; try reflexivity.
      cbn [combine map]. f_equal. apply IH.
    - change (pairs st') with (pairs st). change (w_tbulk st') with (w_tbulk st).
      unfold st', damped. cbn [w_ebulk]. generalize (w_tbulk st) (w_ebulk st).
      induction (pairs st) as [|p ps IH]; intros [|t tb] [|e eb]; try reflexivity.
      cbn [combine map flat_map fst snd app]. f_equal. apply IH.
  Qed.

  Lemma zip_decay ss : forall gs z,
    Forall (fun s => exists t e, snd s = (FNum t, FNum e) /\ 0 < e) ss ->
    Forall (fun g => exists y, g = FNum y /\ 0 < y) gs ->
    zip_op fsub (map flog (map senergy ss)) (map flog gs) = Ok z ->
    exists b, z = map FNum b /\ List.length b = List.length ss /\
      zip_op fsub (map flog (map senergy (map decayed ss))) (map flog gs) = Ok (map FNum (vlin 1 b (- d) (map tof ss))).
  Proof.
    induction ss as [|s ss IH]; intros [|g gs] z N G H; cbn [map zip_op] in H; try discriminate.
    - injection H as <-. exists []. auto.
    - destruct (zip_op fsub (map flog (map senergy ss)) _) as [r|] eqn:E; [|discriminate]. cbn [bind] in H. injection H as <-.
      inversion N as [|? ? (t & e & ES & EP) N']; subst. inversion G as [|? ? (y & -> & YP) G']; subst.
      destruct (IH gs r N' G' E) as (b & -> & L & Q).
      exists ((ln e - ln y) :: b). cbn [map zip_op]. rewrite Q. cbn [bind].
      unfold senergy, decayed, tof, stime. cbn [fst snd]. unfold senergy. rewrite ES. cbn [fst snd decay fmul].
      pose proof (exp_pos (- (d * t))) as XP.
      rewrite !flog_num by (auto; apply Rmult_lt_0_compat; auto).
      split; [reflexivity|]. split; [cbn; lia|]. unfold vlin. cbn [map combine fst snd]. do 2 f_equal.
      cbn [fsub fadd fneg]. f_equal. rewrite ln_mult, ln_exp by auto. ring.
  Qed.

  (** the attenuation added to the right hand side *)
  Lemma add_bf b bf ts : List.length b = List.length ts ->
    match nonzero (Some (FNum bf)) with
    | None => Ok (map FNum b)
    | Some bf => zip_op fadd (map FNum b) (map (fmul bf) (map FNum ts))
    end = Ok (map FNum (vlin 1 b bf ts)).
  Proof.
    intros L. cbn [nonzero]. destruct (Req_EM_T bf 0) as [->|_].
    - do 2 f_equal. revert ts L. induction b as [|x b IH]; intros [|t ts] L; try discriminate; [reflexivity|].
      unfold vlin in *. cbn [map combine fst snd]. f_equal; [ring|]. apply IH. now injection L.
    - revert ts L. induction b as [|x b IH]; intros [|t ts] L; try discriminate; [reflexivity|].
      cbn [map zip_op]. rewrite IH by now injection L. cbn [bind fmul fadd]. unfold vlin. cbn [map combine fst snd].
      do 3 f_equal. ring.
  Qed.

  Lemma vlin_again b ts x y : List.length b = List.length ts -> vlin 1 (vlin 1 b x ts) y ts = vlin 1 b (x + y) ts.
  Proof.
    revert ts. induction b as [|u b IH]; intros [|t ts] L; try discriminate; [reflexivity|].
    unfold vlin in *. cbn [map combine fst snd]. f_equal; [ring|]. apply IH. now injection L.
  Qed.

  Hypothesis NU : numeric st.
  Variable o : lopts.
  Hypothesis PG : positive_greens o st.

  Lemma times_num : map stime (samples st) = map FNum (map tof (samples st)).
  Proof.
    rewrite map_map. apply map_ext_in. intros s I. exact (proj1 (Forall_forall _ _) (numeric_times st NU) s I).
  Qed.

  (** the start of the right hand side *)
  Lemma rhs_damped x bf fs bs z : 0 < x -> rhs o st (FNum x) bf fs bs = Ok z ->
    exists b, List.length b = List.length (samples st) /\
    rhs o st (FNum x) bf fs bs =
      bind (match nonzero bf with None => Ok (map FNum b) | Some bf => zip_op fadd (map FNum b) (map (fmul bf) (map FNum (map tof (samples st)))) end)
        (fun b => if fs then zip_op fsub b bs else Ok b) /\
    forall bf', rhs o st' (FNum x) bf' fs bs =
      bind (match nonzero bf' with None => Ok (map FNum (vlin 1 b (- d) (map tof (samples st))))
            | Some bf => zip_op fadd (map FNum (vlin 1 b (- d) (map tof (samples st)))) (map (fmul bf) (map FNum (map tof (samples st)))) end)
        (fun b => if fs then zip_op fsub b bs else Ok b).
  Proof.
    intros X H. unfold rhs in *.
    destruct (greens o st (FNum x) (pairs st) (w_ecoda st) (w_tcoda st)) as [[gc gb]|] eqn:GR; [|discriminate].
    cbn [bind] in *. destruct (samples_columns st AL) as [ST SE]. destruct (samples_columns st' damped_aligned) as [ST' SE'].
    rewrite <- SE in *. 
    destruct (zip_op fsub (map flog (map senergy (samples st))) _) as [z0|] eqn:E; [|discriminate].
    destruct (zip_decay (samples st) _ _ NU (greens_positive o st PG x _ _ X GR) E) as (b & -> & L & Q).
    exists b. split; [exact L|]. rewrite <- ST, times_num. split; [reflexivity|].
    intros bf'. pose proof (damped_greens o (FNum x)) as DG. rewrite GR in DG. rewrite DG. cbn [bind].
    rewrite <- SE', damped_samples. rewrite Q. cbn [bind]. change (times st') with (times st). rewrite <- ST, times_num. reflexivity.
  Qed.

  Lemma rhs_free x fs bs z : 0 < x -> fs = false -> rhs o st (FNum x) None fs bs = Ok z ->
    exists b, z = map FNum b /\ List.length b = List.length (samples st) /\
      rhs o st' (FNum x) None fs bs = Ok (map FNum (vlin 1 b (- d) (map tof (samples st)))).
  Proof.
    intros X -> H. destruct (rhs_damped x None false bs z X H) as (b & L & E & E'). specialize (E' None).
    rewrite H in E. cbn [nonzero bind] in E, E'. injection E as ->. eauto.
  Qed.

  Lemma rhs_bound x bf fs bs z : 0 < x -> rhs o st (FNum x) (Some (FNum bf)) fs bs = Ok z ->
    rhs o st' (FNum x) (Some (FNum (bf + d))) fs bs = Ok z.
  Proof.
    intros X H. destruct (rhs_damped x _ fs bs z X H) as (b & L & E & E'). specialize (E' (Some (FNum (bf + d)))).
    assert (LT : List.length b = List.length (map tof (samples st))) by now rewrite map_length.
    rewrite add_bf in E by exact LT. rewrite add_bf in E' by now apply vlin_length.
    rewrite vlin_again in E' by exact LT. replace (- d + (bf + d)) with bf in E' by ring. congruence.
  Qed.
End D.
