(** C135: the inversion with another unit of time, free transport parameters. *)
From Coq Require Import String List Bool Reals Lra Lia ZArith Arith.
From Verif Require Import Base Pyf PyfOps StatModel StatProof SmoothSpec RtSpec FbModel FbProof3 SiteProof LsqfbModel LsqfbSpec LsqfbProof LsqfbProof2 LsqfbProof3 LsqfbProof4 LsqfbProof5 GreenModel GainSpec GainProof GainProof2 GainProof3 GainProof4 ShuffleSpec ShuffleProof2 DampProof UnitSpec UnitProof2 ClockSpec ClockProof ClockProof2.
Import ListNotations.
Open Scope string_scope.
Open Scope list_scope.
Open Scope R_scope.

(** the last unknown multiplied *)
Fixpoint scale_last (k : R) (x : list R) : list R :=
  match x with
  | [] => []
  | [a] => [k * a]
  | a :: x => a :: scale_last k x
  end.

Lemma scale_last_length k x : List.length (scale_last k x) = List.length x.
Proof. induction x as [|a [|b x] IH]; [reflexivity..|]. cbn [scale_last List.length] in *. now rewrite IH. Qed.
Lemma scale_last_last k x : last (scale_last k x) 0 = k * last x 0.
Proof.
  induction x as [|a [|b x] IH]; [cbn; ring|reflexivity|]. change (scale_last k (a :: b :: x)) with (a :: scale_last k (b :: x)).
  pose proof (scale_last_length k (b :: x)) as L. destruct (scale_last k (b :: x)) as [|u l] eqn:E; [discriminate|]. exact IH.
Qed.
Lemma scale_last_nth k x : forall i, (S i < List.length x)%nat -> nth i (scale_last k x) 0 = nth i x 0.
Proof.
  induction x as [|a [|b x] IH]; intros i L; [cbn in L; lia..|]. change (scale_last k (a :: b :: x)) with (a :: scale_last k (b :: x)).
  destruct i as [|i]; [reflexivity|]. cbn [nth]. rewrite IH; [reflexivity|]. cbn [List.length] in *. lia.
Qed.
Lemma scale_last_firstn k x : forall n, (S n <= List.length x)%nat -> firstn n (scale_last k x) = firstn n x.
Proof.
  induction x as [|a [|b x] IH]; intros n L; [cbn in L; lia| |].
  - cbn [List.length] in L. replace n with 0%nat by lia. reflexivity.
  - change (scale_last k (a :: b :: x)) with (a :: scale_last k (b :: x)).
    destruct n as [|n]; [reflexivity|]. cbn [firstn]. rewrite IH; [reflexivity|]. cbn [List.length] in *. lia.
Qed.

Section G.
  Variables (k : R) (o : lopts) (st : wstate) (ty window : string) (sm : option R) (num : nat) (c0 : R) (dof : nat -> nat -> R).
  Hypothesis K : 0 < k.
  Hypothesis T : In ty documented_types.
  Hypothesis AL : aligned st.
  Hypothesis EV : evenly_sampled sm st.
  Hypothesis GC : l_gcoda o = coda_greens ty sm window c0.
  Hypothesis GB : l_gbulk o = bulk_greens ty num c0.
  Hypothesis NU : numeric st.
  Hypothesis PG : positive_greens o st.
  Hypothesis LS : least_squares_full (l_wls o) dof.
  Hypothesis WP : good_weights o st.
  Hypothesis CN : l_coda_norm o = false.
  Hypothesis FS : l_fix_sites o = None.
  Hypothesis R0 : 0 < l_R0 o.
  Hypothesis NET : one_network st.
  Hypothesis FX : l_fix o = false.
  Hypothesis TT : two_times st.
  Variables lo hi : R.
  Hypothesis BG : l_g0_bounds o = Some (lo, hi).
  Hypothesis LO : 0 < lo.
  Let o' := o_time k o ty window sm num c0.
  Let st' := retimed k st.

  Definition later (s : sample) : sample := (fst s, (fmul (FNum k) (stime s), senergy s)).

  Lemma retimed_samples : samples st' = map later (samples st).
  Proof.
    unfold samples, blocks. rewrite !flat_map_app, map_app. change (pairs st') with (pairs st). f_equal.
    - change (w_ecoda st') with (w_ecoda st). change (w_tcoda st') with (map (map (Rmult k)) (w_tcoda st)).
      generalize (w_tcoda st) (w_ecoda st).
      induction (pairs st) as [|p ps IH]; intros [|t tc] [|e ec]; try reflexivity.
      cbn [combine map flat_map fst snd]. rewrite map_app, IH. f_equal.
      rewrite map_map. clear. revert t. induction e as [|x e IH]; intros [|u t]; try reflexivity.
      cbn [combine map]. f_equal. apply IH.
    - change (w_ebulk st') with (w_ebulk st). change (w_tbulk st') with (map (fmul (FNum k)) (w_tbulk st)).
      generalize (w_tbulk st) (w_ebulk st).
      induction (pairs st) as [|p ps IH]; intros [|t tb] [|e eb]; try reflexivity.
      cbn [combine map flat_map fst snd app]. f_equal. apply IH.
  Qed.

  Lemma retimed_aligned : aligned st'.
  Proof.
    destruct AL as (NE & LE & F & LB & LP). split; [exact NE|]. split; [exact LE|]. split; [|split].
    - change (w_ecoda st') with (w_ecoda st). change (w_tcoda st') with (map (map (Rmult k)) (w_tcoda st)).
      clear - F. induction F as [|t e l m L F IH]; cbn [map]; constructor; [now rewrite map_length|exact IH].
    - change (w_ebulk st') with (w_ebulk st). change (w_tbulk st') with (map (fmul (FNum k)) (w_tbulk st)). now rewrite map_length.
    - exact LP.
  Qed.

  Lemma retimed_numeric : numeric st'.
  Proof.
    unfold numeric in *. rewrite retimed_samples. apply Forall_forall. intros s I. apply in_map_iff in I. destruct I as (s0 & <- & I).
    rewrite Forall_forall in NU. destruct (NU s0 I) as (t & e & E & P). exists (k * t), e. split; [|exact P].
    unfold later, stime, senergy. rewrite E. reflexivity.
  Qed.

  (** the equations of the two units *)
  Lemma rows_time rows rows' : good_rows o st rows -> good_rows o' st' rows' ->
    Forall2 (fun r r' => forall x, List.length x = width o st -> dotr r' x = dotr r (scale_last k x)) rows rows'.
  Proof.
    unfold good_rows. rewrite retimed_samples. change (width o' st') with (width o st). change (stations st') with (stations st).
    change (eventids st') with (eventids st). change (ev_part st') with (ev_part st). intros G G'.
    pose proof NU as N. unfold numeric in N. revert rows rows' G G'. induction N as [|s ss (t & e & ES & _) N IH]; intros rows rows' G G'.
    - inversion G; subst. inversion G'; subst. constructor.
    - inversion G as [|r ? rs ? (LR & j & idx & IJ & II & Q) G1]; subst. cbn [map] in G'.
      inversion G' as [|r' ? rs' ? (LR' & j' & idx' & IJ' & II' & Q') G1']; subst. constructor; [|now apply IH].
      change (fst (later s)) with (fst s) in IJ', II'. rewrite IJ in IJ'. injection IJ' as <-. rewrite II in II'. injection II' as <-.
      intros x LX. rewrite Q' by exact LX. rewrite Q by (rewrite scale_last_length; exact LX).
      assert (WD : width o st = (Ns st + Ne st)%nat) by (unfold width, fix01; rewrite FX; lia).
      pose proof (index_of_lt _ _ _ IJ) as LJ. pose proof (index_of_lt _ _ _ II) as LI. fold (Ns st) in LJ. fold (Ne st) in LI.
      rewrite scale_last_nth by lia. unfold ev_part. destruct (Nat.ltb_spec 0 idx).
      + rewrite scale_last_nth by lia. unfold b_part. change (l_fix o') with (l_fix o). rewrite FX, scale_last_last.
        unfold tof, later, stime. cbn [fst snd]. unfold stime. rewrite ES. cbn [fst fmul]. ring.
      + unfold b_part. change (l_fix o') with (l_fix o). rewrite FX, scale_last_last.
        unfold tof, later, stime. cbn [fst snd]. unfold stime. rewrite ES. cbn [fst fmul]. ring.
  Qed.

  Lemma sse_time rows rows' : Forall2 (fun r r' => forall x, List.length x = width o st -> dotr r' x = dotr r (scale_last k x)) rows rows' ->
    forall b w x, List.length x = width o st -> sse rows' b w x = sse rows b w (scale_last k x).
  Proof.
    intros F. induction F as [|r r' rs rs' E F IH]; intros b w x LX; [reflexivity|].
    destruct b as [|y b], w as [|u w]; try reflexivity. cbn [sse]. now rewrite E, IH.
  Qed.

  Lemma solve_go_time a bs rs a' bs' rs' x f f' : build o st = Ok (a, bs, rs) -> build o' st' = Ok (a', bs', rs') -> 0 < x ->
    solve_at o st a bs rs (FNum x) None false = Ok f -> solve_at o' st' a' bs' rs' (FNum x) None false = Ok f' ->
    f' = time_fit k f.
  Proof.
    intros BU BU' X H H'.
    destruct (solve_at_rhs _ _ _ _ _ _ _ _ _ H) as (z & RH).
    destruct (solve_at_rhs _ _ _ _ _ _ _ _ _ H') as (z' & RH').
    assert (NEM : Forall (fun e => e <> []) (w_ecoda st)).
    { destruct (rhs_lengths o st (FNum x) AL _ _ _ _ RH) as (gc & gb & GR & _). exact (ecoda_nonempty o st _ gc gb AL GR). }
    assert (ZZ : z' = z).
    { pose proof (rhs_time k o st ty window sm num c0 K T EV GC GB (FNum x) None false bs') as E. cbn [option_map] in E. fold o' st' in E.
      rewrite RH' in E. assert (RI : rhs o st (FNum x) None false bs' = rhs o st (FNum x) None false bs) by reflexivity.
      rewrite RI, RH in E. now injection E as ->. }
    subst z'. destruct (rhs_free 0 st AL NU o PG x false bs z X eq_refl RH) as (b & EZ & LB & _).
    destruct (rows_of o st AL a bs rs CN FS (numeric_times st NU) BU) as (rows & EA & G).
    destruct (rows_of o' st' retimed_aligned a' bs' rs' CN FS (numeric_times st' retimed_numeric) BU') as (rows' & EA' & G').
    destruct (good_lengths o st rows G) as [LR LL]. destruct (good_lengths o' st' rows' G') as [LR' LL'].
    rewrite retimed_samples, map_length in LL'. change (width o' st') with (width o st) in LR'.
    pose proof (rows_time rows rows' G G') as RT.
    assert (IND : independent (width o st) rows) by (apply (determined o st None AL NET (fun _ => TT)); [now rewrite FX|exact NEM|exact G]).
    assert (IND' : independent (width o st) rows').
    { intros v LV Z. assert (Q : Forall (fun row => dotr row (scale_last k v) = 0) rows).
      { clear - RT Z LV. induction RT; [constructor|]. inversion Z; subst. constructor; [|auto]. now rewrite <- H. }
      pose proof (IND (scale_last k v) ltac:(now rewrite scale_last_length) Q) as ZS.
      clear - ZS K. induction v as [|u v IH]; [constructor|]. destruct v as [|w v].
      - cbn in ZS. inversion ZS; subst. constructor; [|constructor]. apply Rmult_integral in H1. destruct H1; lra.
      - change (scale_last k (u :: w :: v)) with (u :: scale_last k (w :: v)) in ZS. inversion ZS; subst. constructor; auto. }
    unfold solve_at in H, H'. rewrite RH in H. rewrite RH' in H'. cbn [bind] in H, H'.
    change (weights o' st' z) with (weights o st z) in H'. change (l_wls o') with (l_wls o) in H'.
    assert (WO : match weights o st z with None => True | Some w => Forall (fun w => 0 < w) w /\ List.length w = List.length rows end).
    { rewrite LL. apply weights_ok; [rewrite EZ, map_length; exact LB|exact (bulk_le o st AL WP)]. }
    destruct (l_wls o z a (weights o st z)) as [[c mse]|] eqn:W; [|discriminate].
    destruct (l_wls o z a' (weights o st z)) as [[c' mse']|] eqn:W'; [|discriminate]. cbn [bind] in H, H'.
    rewrite EA in W. rewrite EA' in W'. rewrite EZ in W, W', WO.
    destruct (LS (width o st) rows b _ c mse LR ltac:(congruence) IND W) as (y & -> & LY & M & EM).
    destruct (LS (width o st) rows' b _ c' mse' LR' ltac:(congruence) IND' W') as (y' & -> & LY' & M' & EM').
    cbv zeta in M, EM, M', EM'. assert (LRR : List.length rows' = List.length rows) by congruence. rewrite LRR in M', EM'.
    set (w := match weights o st (map FNum b) with None => repeat 1 (List.length rows) | Some w => w end) in *.
    assert (WW : Forall (fun w => 0 < w) w /\ List.length w = List.length rows).
    { unfold w. destruct (weights o st (map FNum b)); [exact WO|]. rewrite repeat_length. split; [|reflexivity]. apply Forall_forall. intros v I. apply repeat_spec in I. lra. }
    destruct WW as [WW WL].
    assert (LS' : List.length (scale_last k y') = width o st) by now rewrite scale_last_length.
    assert (SS : forall v, List.length v = width o st -> exists u, List.length u = width o st /\ scale_last k u = v).
    { intros v LV. exists (scale_last (/ k) v). rewrite scale_last_length. split; [exact LV|]. clear - K.
      induction v as [|u [|q v] IH]; [reflexivity| |].
      - cbn. f_equal. field. lra.
      - change (scale_last (/ k) (u :: q :: v)) with (u :: scale_last (/ k) (q :: v)).
        pose proof (scale_last_length (/ k) (q :: v)) as L. destruct (scale_last (/ k) (q :: v)) as [|p l] eqn:E; [discriminate|].
        change (scale_last k (u :: p :: l)) with (u :: scale_last k (p :: l)). now rewrite IH. }
    destruct (min_unique rows b w y (scale_last k y') (width o st) WW ltac:(congruence) WL LY LS' M) as [SAME SE].
    { intros v LV. destruct (SS v LV) as (u & LU & <-). rewrite <- !(sse_time rows rows' RT) by assumption. now apply M'. }
    assert (EY : scale_last k y' = y).
    { pose proof (IND (vlin 1 (scale_last k y') (-1) y) (vlin_length _ _ _ _ _ LS' LY)) as Z.
      assert (ZR : Forall (fun row => dotr row (vlin 1 (scale_last k y') (-1) y) = 0) rows).
      { apply Forall_forall. intros r I. rewrite Forall_forall in SAME. rewrite dotr_vlin by congruence. rewrite (SAME r I). ring. }
      specialize (Z ZR). clear - Z LS' LY. revert Z. assert (L : List.length (scale_last k y') = List.length y) by congruence. revert L. clear.
      generalize (scale_last k y'). revert y. induction y as [|u y IH]; intros [|v l] L Z; try discriminate; [reflexivity|].
      unfold vlin in *. cbn [map combine fst snd] in Z. inversion Z; subst. f_equal; [lra|]. apply IH; [now injection L|assumption]. }
    subst y.
    assert (LN : (S (Ns st + Ne st - 1) = width o st)%nat).
    { unfold width, fix01. rewrite FX. pose proof (Ns_pos st AL). lia. }
    assert (EM0 : mse' = mse).
    { rewrite EM, EM'. do 2 f_equal. now apply sse_time. }
    rewrite (decode_spec o st AL (scale_last k y') rs R0 CN LY) in H.
    change (decode o' st' (map FNum y') false rs') with (decode o st (map FNum y') false rs') in H'.
    rewrite (decode_spec o st AL y' rs' R0 CN LY') in H'.
    assert (FN : forall n, (n <= Ns st + Ne st - 1)%nat -> firstn n (scale_last k y') = firstn n y') by (intros n I; apply scale_last_firstn; lia).
    pose proof (Ne_pos st AL) as EP.
    assert (EW0 : w0_of o st (scale_last k y') = w0_of o st y') by (unfold w0_of, mean_of; now rewrite (FN (Ns st)) by lia).
    assert (EW : W_of o st (scale_last k y') = W_of o st y') by (unfold W_of; rewrite EW0, (FN (Ns st + Ne st - 1)%nat) by lia; reflexivity).
    assert (ER : R_of o st (scale_last k y') = R_of o st y') by (unfold R_of; rewrite EW0, (FN (Ns st)) by lia; reflexivity).
    rewrite EW, ER in H. change (l_fix o') with (l_fix o) in H'. rewrite FX in H, H'.
    assert (NE' : y' <> []) by (intros ->; cbn in LY'; lia).
    assert (NE : scale_last k y' <> []) by (intros Q; rewrite Q in LY; cbn in LY; lia).
    assert (L1 := last_map_num _ NE). assert (L2 := last_map_num _ NE'). rewrite scale_last_last in L1.
    destruct (map FNum (scale_last k y')) as [|p q] eqn:MY; [now destruct (scale_last k y')|].
    destruct (map FNum y') as [|p' q'] eqn:MY'; [now destruct y'|].
    cbv zeta in H, H'. rewrite L1 in H. rewrite L2 in H'.
    assert (PU : FNum (last y' 0) = per_unit k (FNum (k * last y' 0))) by (cbn; f_equal; field; lra).
    rewrite PU in H'. assert (OT : b_outside o' (per_unit k (FNum (k * last y' 0))) = b_outside o (FNum (k * last y' 0))) by exact (outside_time k o ty window sm num c0 K _).
    rewrite OT in H'. change (g0_outside o') with (g0_outside o) in H'. rewrite EM0 in H'.
    cbn [bind] in H, H'. injection H as <-. injection H' as <-. reflexivity.
  Qed.

  Lemma minimize_time a bs rs a' bs' rs' : build o st = Ok (a, bs, rs) -> build o' st' = Ok (a', bs', rs') -> forall p s0 s0' s g s' g',
    minimize o st a bs rs p s0 = Ok (s, g) -> minimize o' st' a' bs' rs' p s0' = Ok (s', g') -> g' = g.
  Proof.
    intros BU BU'. induction p as [x q IH|x|e]; intros s0 s0' s g s' g' H H'; cbn [minimize] in H, H'.
    - unfold lstsq_opt in H, H'. change (g0_outside o') with (g0_outside o) in H'.
      destruct (g0_outside o x) eqn:GO; cbn [bind] in H, H'; [now apply (IH _ _ _ _ _ _ _ H H')|].
      destruct (inside_pos o lo hi BG LO x GO) as (u & -> & U).
      destruct (solve_at o st a bs rs (FNum u) None false) as [f|] eqn:S; [|discriminate].
      destruct (solve_at o' st' a' bs' rs' (FNum u) None false) as [f'|] eqn:S'; [|discriminate]. cbn [bind] in H, H'.
      rewrite (solve_go_time a bs rs a' bs' rs' u f f' BU BU' U S S') in H'. exact (IH _ _ _ _ _ _ _ H H').
    - injection H as _ <-. injection H' as _ <-. reflexivity.
    - discriminate.
  Qed.

  Lemma chosen_time y y' : choose o st = Ok y -> choose o' st' = Ok y' ->
    exists a bs rs a' bs' rs' g s f s' f', build o st = Ok (a, bs, rs) /\ build o' st' = Ok (a', bs', rs') /\ y = Some (s, f) /\ y' = Some (s', f') /\
      solve_at o st a bs rs g None false = Ok f /\ solve_at o' st' a' bs' rs' g None false = Ok f'.
  Proof.
    unfold choose. destruct (build o st) as [[[a bs] rs]|] eqn:BU; [|discriminate].
    destruct (build o' st') as [[[a' bs'] rs']|] eqn:BU'; [|discriminate]. cbn [bind].
    change (l_fix o') with (l_fix o). rewrite FX. change (l_optimize o') with (l_optimize o). change (l_g0_bounds o') with (l_g0_bounds o).
    change (l_optim o') with (l_optim o).
    assert (Q : forall s0 s0' g z z',
      bind (lstsq o st a bs rs s0 g None false) (fun y => Ok (Some y)) = Ok z ->
      bind (lstsq o' st' a' bs' rs' s0' g None false) (fun y => Ok (Some y)) = Ok z' ->
      exists s f s' f', z = Some (s, f) /\ z' = Some (s', f') /\
      solve_at o st a bs rs g None false = Ok f /\ solve_at o' st' a' bs' rs' g None false = Ok f').
    { intros s0 s0' g z z'. unfold lstsq. destruct (solve_at o st _ _ _ _ _ _) as [f|]; [|discriminate].
      destruct (solve_at o' st' _ _ _ _ _ _) as [f'|]; [|discriminate]. cbn [bind]. intros [= <-] [= <-]. eauto 8. }
    destruct (negb (l_optimize o)).
    - rewrite BG. intros H H'. destruct (Q _ _ _ _ _ H H') as (s & f & s' & f' & E). exists a, bs, rs, a', bs', rs'. eauto 10.
    - destruct (minimize o st a bs rs (l_optim o) _) as [[s1 g]|] eqn:M; [|discriminate].
      destruct (minimize o' st' a' bs' rs' (l_optim o) _) as [[s1' g']|] eqn:M'; [|discriminate]. cbn [bind].
      rewrite (minimize_time a bs rs a' bs' rs' BU BU' _ _ _ _ _ _ _ M M'). intros H H'.
      destruct (Q _ _ _ _ _ H H') as (s & f & s' & f' & E). exists a, bs, rs, a', bs', rs'. eauto 10.
  Qed.

  Lemma go_time v0 y y' s s' : invert_band o st v0 = Ok (y, s) -> invert_band o' st' (v0 / k) = Ok (y', s') ->
    both (timed_result k) y y'.
  Proof.
    rewrite (band_unfold o st v0 AL), (band_unfold o' st' (v0 / k) retimed_aligned).
    destruct (choose o st) as [z|] eqn:C; [|discriminate]. destruct (choose o' st') as [z'|] eqn:C'; [|discriminate].
    cbn [bind]. destruct (chosen_time z z' C C') as (a & bs & rs & a' & bs' & rs' & g & s1 & f & s1' & f' & BU & BU' & -> & -> & S & S').
    pose proof (solve_at_g0 o st _ _ _ _ _ _ _ S) as G. pose proof (solve_at_g0 o' st' _ _ _ _ _ _ _ S') as G'.
    change (l_g0_bounds o') with (l_g0_bounds o). rewrite G, G'.
    destruct (near_bounds (l_g0_bounds o) g) eqn:N.
    - rewrite !orb_true_r. intros [= <- _] [= <- _]. exact I.
    - destruct (near_outside o lo hi BG LO g N) as (u & -> & U).
      rewrite (solve_go_time a bs rs a' bs' rs' u f f' BU BU' U S S').
      change (f_b (time_fit k f)) with (per_unit k (f_b f)).
      assert (NB : near_bounds (l_b_bounds o') (per_unit k (f_b f)) = near_bounds (l_b_bounds o) (f_b f)) by exact (near_time k o ty window sm num c0 K _).
      rewrite NB, !orb_false_r. destruct (near_bounds (l_b_bounds o) (f_b f)); intros [= <- _] [= <- _]; [exact I|].
      cbn [both]. exact (arrange_time k o st ty window sm num c0 f v0).
  Qed.
End G.
