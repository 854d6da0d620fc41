(** Proofs about the number of stations and the choice of g0 of a band. *)
From Coq Require Import String List Bool Reals Lra Lia ZArith Arith Permutation.
From Verif Require Import Base Pyf PyfOps FbModel StatProof LsqfbModel LsqfbSpec LsqfbProof LsqfbProof2 LsqfbProof3 LsqfbProof4 LsqfbProof5.
Import ListNotations.
Open Scope string_scope.
Open Scope list_scope.
Open Scope R_scope.

Lemma lists_once_length a b l : lists_once a l -> lists_once b l -> List.length a = List.length b.
Proof.
  intros [N1 I1] [N2 I2]. apply Permutation_length, NoDup_Permutation; auto.
  intros x. now rewrite I1, I2.
Qed.

Lemma stretch_in {A} ks (l : list A) i k x :
  nth_error ks i = Some k -> (0 < k)%nat -> nth_error l i = Some x -> In x (stretch ks l).
Proof.
  revert l i. induction ks as [|k' ks IH]; intros [|y l] [|i] K P X; cbn in K, X; try discriminate; cbn [stretch]; apply in_or_app.
  - injection K as ->. injection X as ->. left. destruct k; [lia|]. now left.
  - right. eauto.
Qed.

Lemma In_firstn_nth {A} (l : list A) : forall n x, In x (firstn n l) ->
  exists i, (i < n)%nat /\ nth_error l i = Some x.
Proof.
  induction l as [|y l IH]; intros [|n] x I; cbn in I; try contradiction.
  destruct I as [->|I]; [exists 0%nat; split; [lia|reflexivity]|].
  destruct (IH _ _ I) as (i & L & N). exists (S i). split; [lia|exact N].
Qed.

Section N.
  Variable o : lopts.
  Variable st : wstate.
  Hypothesis AL : aligned st.

  Lemma stations_le : (Ns st <= List.length (pairs st))%nat.
  Proof.
    unfold Ns. rewrite <- (map_length snd (pairs st)). apply NoDup_incl_length.
    - exact (proj1 (fromkeys_spec (map snd (pairs st)))).
    - intros x I. now apply (proj2 (fromkeys_spec (map snd (pairs st)))).
  Qed.

  Lemma sites_numbers params a bs rs : l_fix_sites o = Some params -> l_fix o = true ->
    Forall (fun e => e <> []) (w_ecoda st) -> build o st = Ok (a, bs, rs) ->
    List.length rs = Ns st /\ forall x, In x rs -> fisnan x = false.
  Proof.
    intros FS FX NE. unfold build. rewrite FS, FX.
    destruct (mapM (row_fix_sites st params) _) as [rows|] eqn:M; [|now destruct (l_coda_norm o)].
    cbn [bind]. destruct (existsb fisnan _) eqn:E; [now destruct (l_coda_norm o)|].
    intros H. assert (H' : rs = firstn (Ns st) (map snd rows)).
    { destruct (l_coda_norm o); cbn [bind] in H; injection H; auto. }
    rewrite H'. clear H H' rs.
    apply mapM_length in M. rewrite seq_length in M. unfold block_lengths in M.
    rewrite app_length, !map_length in M. destruct AL as (_ & LE & _). rewrite LE in M.
    pose proof stations_le as SL. split.
    - rewrite firstn_length, map_length. lia.
    - intros x I. destruct (In_firstn_nth _ _ _ I) as (i & L & N).
      destruct (nth_error (w_ecoda st) i) as [e|] eqn:EI.
      2:{ apply nth_error_None in EI. lia. }
      assert (J : In (flog x) (stretch (block_lengths st) (map (fun r => flog (snd r)) rows))).
      { apply (stretch_in _ _ i (List.length e)).
        - unfold block_lengths. rewrite nth_error_app1 by (rewrite map_length; lia).
          now rewrite nth_error_map, EI.
        - rewrite Forall_forall in NE. specialize (NE e (nth_error_In _ _ EI)). destruct e; [congruence|cbn; lia].
        - rewrite <- (map_map snd flog), nth_error_map, N. reflexivity. }
      destruct (fisnan x) eqn:F; [|reflexivity]. exfalso.
      assert (X : existsb fisnan (stretch (block_lengths st) (map (fun r => flog (snd r)) rows)) = true).
      { apply existsb_exists. exists (flog x). split; [exact J|]. destruct x; discriminate || reflexivity. }
      congruence.
  Qed.

  Lemma filter_all {A} (f : A -> bool) l : (forall x, In x l -> f x = true) -> filter f l = l.
  Proof.
    induction l as [|x l IH]; intros H; [reflexivity|]. cbn. rewrite (H x) by now left.
    f_equal. apply IH. intros y I. apply H. now right.
  Qed.

  (** C53: the number of stations *)
  Lemma nstations v0 r s l : (l_fix_sites o <> None /\ l_fix o = true \/ l_coda_norm o = true) ->
    invert_band o st v0 = Ok (Some r, s) -> lists_once l (map snd (pairs st)) ->
    fb_nstations r = List.length l.
  Proof.
    intros C H LO. rewrite (lists_once_length _ _ _ LO (fromkeys_spec (map snd (pairs st)))).
    change (fb_nstations r = Ns st).
    assert (P1 : forall l : list string, positive_on l (fun _ => 1)) by (intros k x _; lra).
    destruct (result_of o st (fun _ => 1) (fun _ => 1) (P1 _) (P1 _) v0 r s H) as (a & bs & rs & f & s0 & BU & -> & CA). unfold arrange. cbn [fb_nstations].
    assert (S : exists g bf fs, solve_at o st a bs rs g bf fs = Ok f /\
      (fs = true <-> l_fix o = true /\ l_fix_sites o <> None)).
    { destruct CA as [(FX & g & b & _ & L)|(FX & g & L)].
      - eexists _, _, _. split; [exact (lstsq_fit _ _ _ _ _ _ _ _ _ _ _ L)|].
        destruct (l_fix_sites o); split; intuition congruence.
      - eexists _, _, _. split; [exact (lstsq_fit _ _ _ _ _ _ _ _ _ _ _ L)|].
        split; [discriminate|]. intros [F _]. congruence. }
    destruct S as (g & bf & fs & S & FF).
    destruct (solve_at_rhs _ _ _ _ _ _ _ _ _ S) as (z & RH).
    unfold solve_at in S. rewrite RH in S. cbn [bind] in S.
    destruct (l_wls o z a (weights o st z)) as [[c mse]|]; [|discriminate]. cbn [bind] in S.
    match type of S with bind ?x _ = _ => destruct x as [[b e]|] eqn:BE; [|discriminate] end.
    cbn [bind] in S. destruct (decode o st c fs rs) as [w r'] eqn:D. injection S as <-. cbn [f_R].
    unfold decode in D. destruct fs.
    - destruct (proj1 FF eq_refl) as [FX FS]. destruct (l_fix_sites o) as [params|] eqn:FSE; [|congruence].
      assert (NE : Forall (fun e => e <> []) (w_ecoda st)).
      { unfold rhs in RH. destruct (greens o st g (pairs st) (w_ecoda st) (w_tcoda st)) as [gs|] eqn:GR; [|discriminate].
        apply (greens_nonempty _ _ _ _ _ _ _ GR). exact (proj1 (proj2 AL)). }
      destruct (sites_numbers params a bs rs FSE FX NE BU) as [LR NN].
      injection D as <- <-. rewrite filter_all; [exact LR|].
      intros x I. now rewrite (NN x I).
    - destruct C as [[FS FX]|CN].
      { exfalso. assert (Q : false = true) by (apply FF; auto). discriminate. }
      rewrite CN in D. injection D as <- <-. rewrite filter_all; [apply repeat_length|].
      intros x I. apply repeat_spec in I. now rewrite I.
  Qed.
End N.

(** C57: without optimisation *)
Lemma no_optimisation o st s f : choose o st = Ok (Some (s, f)) ->
  l_fix o = false -> l_optimize o = false ->
  exists g1 g2, l_g0_bounds o = Some (g1, g2) /\ f_g0 f = FNum (g1 + (g2 - g1) / 2).
Proof.
  unfold choose. destruct (build o st) as [[[a bs] rs]|]; [|discriminate]. cbn [bind].
  intros H FX OP. rewrite FX, OP in H. cbn [negb] in H.
  destruct (l_g0_bounds o) as [[g1 g2]|]; [|discriminate]. exists g1, g2. split; [reflexivity|].
  destruct (lstsq o st a bs rs _ _ None false) as [y|] eqn:L; [|discriminate]. cbn [bind] in H.
  injection H as ->. apply lstsq_fit in L. apply solve_at_g0 in L. rewrite L. f_equal. lra.
Qed.

(** C55: missing parameters *)
Lemma missing_params o st v0 abr g b : pairs st <> [] -> build o st = Ok abr -> l_fix o = true ->
  l_fix_params o = Some (g, b) -> g = None \/ b = None ->
  exists s, invert_band o st v0 = Ok (None, s).
Proof.
  intros NE BU FX FP M. unfold invert_band. destruct (pairs st) as [|p ps]; [congruence|].
  unfold choose. rewrite BU. cbn [bind]. destruct abr as [[a bs] rs]. rewrite FX, FP.
  eexists. destruct M as [->| ->]; [|destruct g]; reflexivity.
Qed.
