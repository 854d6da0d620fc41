(** C136: the fit of energies with errors. *)
From Coq Require Import String List Bool Reals Lra Lia ZArith Arith.
From Verif Require Import Base Pyf PyfOps StatModel StatProof FbModel FbProof3 SiteProof LsqfbModel LsqfbSpec LsqfbProof LsqfbProof2 LsqfbProof3 LsqfbProof4 LsqfbProof5 GainSpec GainProof GainProof2 GainProof3 ShuffleSpec ShuffleProof ShuffleProof2 ShuffleProof3 ShuffleProof4 NoiseSpec NoiseProof NoiseProof2.
Import ListNotations.
Open Scope string_scope.
Open Scope list_scope.
Open Scope R_scope.

(** the coda windows only *)
Definition no_bulk (st : wstate) : wstate :=
  {| w_energies := w_energies st; w_distances := w_distances st; w_tcoda := w_tcoda st; w_tbulk := [];
     w_tbulk_window := w_tbulk_window st; w_weights := w_weights st; w_ebulk := []; w_ecoda := w_ecoda st |}.
Definition csamples (st : wstate) : list sample := samples (no_bulk st).
Definition bsamples (st : wstate) : list sample :=
  flat_map (fun b => map (fun te => (fst b, te)) (snd b)) (combine (pairs st) (map (fun te => [te]) (combine (w_tbulk st) (w_ebulk st)))).

Section N.
  Variables (o : lopts) (st : wstate).
  Hypothesis AL : aligned st.

  Lemma no_bulk_aligned : aligned (no_bulk st).
  Proof. destruct AL as (A & B & C & _). repeat split; auto. Qed.

  Lemma csamples_flat : csamples st = flat_map (fun b => map (fun te => (fst b, te)) (snd b))
    (combine (pairs st) (map (fun te => combine (map FNum (fst te)) (snd te)) (combine (w_tcoda st) (w_ecoda st)))).
  Proof.
    unfold csamples, samples, blocks. cbn [no_bulk w_tbulk w_ebulk w_tcoda w_ecoda combine map].
    change (pairs (no_bulk st)) with (pairs st).
    replace (combine (pairs st) ([] : list (list (pyf * pyf)))) with ([] : list ((string * string) * list (pyf * pyf))) by now destruct (pairs st).
    now rewrite app_nil_r.
  Qed.

  Lemma samples_split : samples st = csamples st ++ bsamples st.
  Proof. rewrite csamples_flat. unfold samples, blocks, bsamples. now rewrite flat_map_app. Qed.

  Lemma csamples_length : List.length (csamples st) = List.length (concat (w_ecoda st)).
  Proof.
    unfold csamples. rewrite samples_length by exact no_bulk_aligned. cbn [no_bulk w_ecoda w_ebulk]. now rewrite app_nil_r.
  Qed.

  Lemma bsamples_length : List.length (bsamples st) = List.length (w_ebulk st).
  Proof.
    pose proof (samples_length st AL) as H. rewrite samples_split, !app_length, csamples_length in H. lia.
  Qed.

  Lemma csample_in s : In s (csamples st) -> In s (samples st).
  Proof. intros I. rewrite samples_split. apply in_or_app. now left. Qed.

  Lemma csample_time s : In s (csamples st) -> exists t, In t (w_tcoda st) /\ In (tof s) t.
  Proof.
    rewrite csamples_flat, in_flat_map. intros ((p & l) & I & J). apply in_map_iff in J. destruct J as (te & <- & J).
    cbn [fst snd] in *. apply in_combine_r in I. apply in_map_iff in I. destruct I as ((t & e) & <- & I). cbn [fst snd] in J.
    exists t. split; [now apply in_combine_l in I|]. destruct te as [x y]. apply in_combine_l in J.
    apply in_map_iff in J. destruct J as (u & <- & J). exact J.
  Qed.

  (** all samples of a coda window belong to one pair *)
  Lemma coda_pair t : In t (w_tcoda st) -> exists p, forall x, In x t -> exists e, In (p, (FNum x, e)) (csamples st).
  Proof.
    intros I. rewrite csamples_flat. destruct AL as (_ & LE & F & _). revert LE I. generalize (pairs st).
    induction F as [|t0 e0 tc ec L F IH]; intros [|p ps] LE I; try discriminate; [destruct I|].
    cbn [combine map flat_map fst snd]. destruct I as [->|I].
    - exists p. clear - L. revert e0 L. induction t as [|y t IH]; intros [|e e0] L x I; try discriminate; [destruct I|].
      cbn [map combine app] in *. destruct I as [->|I]; [exists e; now left|].
      destruct (IH e0 ltac:(now injection L) x I) as (e' & I'). exists e'. now right.
    - destruct (IH ps ltac:(now injection LE) I) as (q & Q). exists q. intros x J. destruct (Q x J) as (e & K).
      exists e. apply in_or_app. now right.
  Qed.

  (** the weights *)
  Definition wlist (n : nat) (z : list pyf) : list R := match weights o st z with None => repeat 1 n | Some w => w end.

  Lemma wlist_spec gc gb z eps g0 site source bt : good_weights o st ->
    greens o st g0 (pairs st) (w_ecoda st) (w_tcoda st) = Ok (gc, gb) ->
    noisy_band eps o st g0 site source bt ->
    List.length (samples st) = List.length (concat gc ++ gb) ->
    List.length z = List.length (samples st) ->
    let w := wlist (List.length (samples st)) z in
    Forall (fun w => 0 < w) w /\
    (exists w', w = repeat 1 (List.length (csamples st)) ++ w' /\ List.length w' = List.length (bsamples st)) /\
    fold_right Rplus 0 w = total_weight o st.
  Proof.
    intros WP GR NB LG LZ w. subst w. unfold wlist, weights, total_weight.
    assert (SU : forall n l, fold_right Rplus 0 (repeat 1 n ++ l) = INR n + fold_right Rplus 0 l).
    { clear. intros n l. induction n as [|n IH]; [cbn; lra|]. cbn [repeat app fold_right]. rewrite IH, S_INR. lra. }
    assert (PO : forall n, Forall (fun w => 0 < w) (repeat 1 n)).
    { clear. intros n. apply Forall_forall. intros y I. apply repeat_spec in I. lra. }
    destruct (l_bulk o) eqn:B.
    - destruct (WP B) as [P L].
      assert (E : (List.length z - List.length (w_weights st))%nat = List.length (csamples st)).
      { rewrite LZ, L, samples_split, app_length, bsamples_length. lia. }
      rewrite E. split; [apply Forall_app; auto|]. split; [exists (w_weights st); split; [reflexivity|now rewrite bsamples_length]|].
      now rewrite SU, csamples_length.
    - pose proof (ngreens_coda o st eps g0 site source bt _ _ _ _ _ GR (proj1 NB)) as FC. rewrite <- csamples_flat in FC.
      pose proof (ngreens_nobulk o st g0 _ _ _ _ _ B GR) as GB. subst gb.
      pose proof (Forall2_len _ _ _ FC) as LC. rewrite app_nil_r in LG.
      assert (Z : List.length (bsamples st) = 0%nat) by (rewrite samples_split, app_length in LG; lia).
      split; [apply PO|]. split.
      + exists []. split; [|now rewrite Z]. rewrite app_nil_r. f_equal. congruence.
      + rewrite LG, <- LC. rewrite <- (app_nil_r (repeat 1 _)), SU, csamples_length. reflexivity.
  Qed.

  (** adding the given attenuation *)
  Lemma add_known eps bt (K : sample -> R) b z :
    Forall (fun s => stime s = FNum (tof s)) (samples st) ->
    Forall2 (fun s y => Rabs (y - (K s - bt * tof s)) <= eps) (samples st) b ->
    match nonzero (Some (FNum bt)) with
    | None => Ok (map FNum b)
    | Some bb => zip_op fadd (map FNum b) (map (fmul bb) (times st))
    end = Ok z ->
    exists b', z = map FNum b' /\ Forall2 (fun s y => Rabs (y - K s) <= eps) (samples st) b'.
  Proof.
    intros TN F. cbn [nonzero]. destruct (Req_EM_T bt 0) as [B0|B0].
    - intros [= <-]. exists b. split; [reflexivity|]. refine (Forall2_impl_in _ _ _ _ _ F). intros s y _ _ Q.
      rewrite B0 in Q. now replace (y - K s) with (y - (K s - 0 * tof s)) by ring.
    - destruct (samples_columns st AL) as [<- _]. clear - TN F. revert z b F TN. generalize (samples st).
      induction l as [|s ss IH]; intros z b F TN H; inversion F as [|? y ? b' Q F']; subst; cbn [map zip_op] in H.
      + injection H as <-. exists []. split; [reflexivity|constructor].
      + destruct (zip_op fadd _ _) as [r|] eqn:E; [|discriminate]. cbn [bind] in H. injection H as <-.
        inversion TN as [|? ? T1 T2]; subst. destruct (IH r b' F' T2 E) as (b2 & -> & F2).
        exists (y + bt * tof s :: b2). rewrite T1. split; [reflexivity|]. constructor; [|exact F2].
        now replace (y + bt * tof s - K s) with (y - (K s - bt * tof s)) by ring.
  Qed.
End N.

Section F.
  Variables (o : lopts) (st : wstate) (dof : nat -> nat -> R) (eps : R) (g0 : pyf) (site source : string -> R) (bt : R).
  Hypothesis E0 : 0 <= eps.
  Hypothesis AL : aligned st.
  Hypothesis LS : least_squares_full (l_wls o) dof.
  Hypothesis WP : good_weights o st.
  Hypothesis CN : l_coda_norm o = false.
  Hypothesis SITE : positive_on (map snd (pairs st)) site.
  Hypothesis SOURCE : positive_on (map fst (pairs st)) source.
  Hypothesis NB : noisy_band eps o st g0 site source bt.
  Let d := eps * sqrt (total_weight o st).
  Let K (s : sample) := ln (source (fst (fst s))) + ln (site (snd (fst s))).

  Lemma rhs_known bf fs bs z : match bf with None => True | Some y => y = FNum bt end ->
    rhs o st g0 bf fs bs = Ok z ->
    exists gc gb b, greens o st g0 (pairs st) (w_ecoda st) (w_tcoda st) = Ok (gc, gb) /\
      List.length (samples st) = List.length (concat gc ++ gb) /\
      Forall (fun s => stime s = FNum (tof s)) (samples st) /\
      Forall2 (fun s y => Rabs (y - (K s - match bf with None => bt * tof s | Some _ => 0 end)) <= eps) (samples st) b /\
      (if fs then zip_op fsub (map FNum b) bs else Ok (map FNum b)) = Ok z.
  Proof.
    intros BF H. destruct (rhs_noisy o st eps g0 site source bt AL NB _ _ _ _ H) as (gc & gb & GR & FN).
    exists gc, gb. unfold rhs in H. rewrite GR in H. cbn [bind] in H. destruct (samples_columns st AL) as [_ SE]. rewrite <- SE in H.
    destruct (zip_op fsub _ (map flog (concat gc ++ gb))) as [z0|] eqn:E; [|discriminate]. cbn [bind] in H.
    assert (PS : forall s, In s (samples st) -> 0 < site (snd (fst s)) /\ 0 < source (fst (fst s))).
    { intros s I. apply sample_pair in I. split; [apply SITE|apply SOURCE]; now apply in_map. }
    destruct (zip_noisy eps site source bt _ _ _ PS FN E) as (b & -> & FB & TN).
    assert (LG : List.length (samples st) = List.length (concat gc ++ gb)) by exact (Forall2_len _ _ _ FN).
    destruct bf as [y|].
    - rewrite BF in H. match type of H with bind ?x _ = _ => destruct x as [z1|] eqn:Z1; [|discriminate] end. cbn [bind] in H.
      destruct (add_known st AL eps bt K b z1 TN FB Z1) as (b' & -> & FB').
      exists b'. split; [exact GR|]. split; [exact LG|]. split; [exact TN|]. split; [|exact H].
      refine (Forall2_impl_in _ _ _ _ _ FB'). intros s y0 _ _ Q. now rewrite Rminus_0_r.
    - cbn [nonzero bind] in H. exists b. split; [exact GR|]. split; [exact LG|]. split; [exact TN|]. split; [exact FB|exact H].
  Qed.

  Section Sites.
  Hypothesis FS : l_fix_sites o = None.
  Hypothesis R0 : 0 < l_R0 o.
  Hypothesis NET : one_network st.
  Hypothesis TT : l_fix o = false -> two_times st.

  Lemma fit_near a bs rs bf f : (if l_fix o then bf = Some (FNum bt) else bf = None) ->
    build o st = Ok (a, bs, rs) -> solve_at o st a bs rs g0 bf false = Ok f ->
    Forall (fun e => e <> []) (w_ecoda st) /\
    exists c mse, List.length c = width o st /\
      f_W f = map (fun e => FNum (source_at o st c e)) (eventids st) /\
      f_R f = map (fun s => FNum (site_at o st c s)) (stations st) /\
      (l_fix o = false -> f_b f = FNum (last c 0)) /\
      (l_fix o = true \/ inside_open (l_b_bounds o) (f_b f) /\ inside_closed (l_g0_bounds o) g0 ->
         f_err f = fsqrt (FNum (mse / dof (List.length (samples st)) (width o st)))) /\ 0 <= mse <= eps * eps * total_weight o st /\
      forall s, In s (csamples st) ->
        Rabs (target o (site_at o st c) (source_at o st c) (last c 0) s - target o site source bt s) <= d.
  Proof.
    intros BF BU H. unfold solve_at in H.
    destruct (rhs o st g0 bf false bs) as [z|] eqn:E; [|discriminate]. cbn [bind] in H.
    destruct (rhs_known bf false bs z) as (gc & gb & b & GR & LG & TN & FB & EZ); [destruct (l_fix o); subst bf; auto|exact E|].
    injection EZ as <-.
    pose proof (ecoda_nonempty o st g0 gc gb AL GR) as NEM. split; [exact NEM|].
    destruct (rows_of o st AL a bs rs CN FS TN BU) as (rows & EA & G). change (good_rows o st rows) in G.
    destruct (good_lengths o st rows G) as [LR LL].
    assert (LB : List.length b = List.length (samples st)) by (symmetry; exact (Forall2_len _ _ _ FB)).
    destruct (l_wls o (map FNum b) a _) as [[c' mse]|] eqn:W; [|discriminate]. cbn [bind] in H. rewrite EA in W.
    assert (NBF : if l_fix o then exists y, bf = Some (FNum y) else bf = None) by (destruct (l_fix o); eauto).
    destruct (LS (width o st) rows b _ c' mse LR ltac:(congruence) (determined o st bf AL NET TT NBF rows NEM G) W) as (c & -> & LC & M & EM).
    cbv zeta in M, EM. rewrite LL in M, EM.
    fold (wlist o st (List.length (samples st)) (map FNum b)) in M, EM.
    destruct (wlist_spec o st AL gc gb (map FNum b) eps g0 site source bt WP GR NB LG ltac:(now rewrite map_length)) as (W1 & W2 & W3).
    set (w := wlist o st (List.length (samples st)) (map FNum b)) in *.
    pose proof (at_exact o st R0 TT rows c LC G) as EX.
    pose proof (truth_exact o st AL site source bt (source_pos st source SOURCE) rows G) as EY.
    unfold exact_rows in EX, EY. apply Forall2_map_r_inv in EX. apply Forall2_map_r_inv in EY.
    rewrite samples_split in EX, EY.
    destruct (near_targets _ _ rows b w c (truth o st site source bt) (width o st) eps _ _ E0 W1 LC
      (truth_length o st AL site source bt (source_pos st source SOURCE)) EX EY) as [SB NT].
    - rewrite <- samples_split. refine (Forall2_impl_in _ _ _ _ _ FB). intros s y _ _ Q. unfold target.
      destruct (l_fix o); rewrite BF in Q; exact Q.
    - exact W2.
    - exact M.
    - rewrite W3 in SB, NT. fold d in NT. exists c, (sse rows b w c). split; [exact LC|].
      destruct (decoded o st AL R0 NET TT rows c NEM LC G) as [DW DR].
      rewrite (decode_spec o st AL c rs R0 CN LC), DW, DR, !map_map in H. rewrite CN in H.
      pose proof (sse_nonneg rows b w c W1) as S0.
      subst mse. destruct (l_fix o) eqn:FX.
      + rewrite BF in H. cbn [bind] in H. injection H as <-. cbn [f_W f_R f_b f_err].
        split; [reflexivity|]. split; [reflexivity|]. split; [discriminate|]. split; [reflexivity|].
        split; [lra|]. exact NT.
      + assert (NE : c <> []).
        { intros Q. rewrite Q in LC. cbn in LC. unfold width, fix01 in LC. rewrite FX in LC. pose proof (Ns_pos st AL). lia. }
        pose proof (last_map_num c NE) as LA. destruct (map FNum c) as [|p q] eqn:MC; [now destruct c|].
        cbv zeta in H. rewrite LA in H. cbn [bind] in H. injection H as <-. cbn [f_W f_R f_b f_err].
        split; [reflexivity|]. split; [reflexivity|]. split; [reflexivity|].
        split; [|split; [lra|exact NT]]. intros [Q|[B1 B2]]; [discriminate|].
        apply b_outside_spec in B1. apply g0_outside_spec in B2. now rewrite B1, B2.
  Qed.
  End Sites.
End F.
