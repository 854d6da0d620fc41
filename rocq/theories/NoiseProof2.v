(** C136: the Green's functions of the samples. *)
From Coq Require Import String List Bool Reals Lra Lia ZArith Arith.
From Verif Require Import Base Pyf PyfOps StatModel StatProof FbModel FbProof3 SiteProof LsqfbModel LsqfbSpec LsqfbProof LsqfbProof2 LsqfbProof3 LsqfbProof4 LsqfbProof5 NoiseSpec.
Import ListNotations.
Open Scope string_scope.
Open Scope list_scope.
Open Scope R_scope.

Section G.
  Variable o : lopts.
  Variable st : wstate.
  Variables (eps : R) (g0 : pyf) (site source : string -> R) (bt : R).
  Let syn := noisy eps site source bt.

  Lemma ngreens_coda ps : forall ec tc gc gb,
    greens o st g0 ps ec tc = Ok (gc, gb) ->
    (forall i p r t e gs, nth_error ps i = Some p -> dget pair_eqb (w_distances st) p = Some r ->
       nth_error tc i = Some t -> nth_error ec i = Some e -> l_gcoda o r t g0 = Ok gs ->
       Forall2 (fun te g => syn (p, te) g) (combine (map FNum t) e) gs) ->
    Forall2 syn (flat_map (fun b => map (fun te => (fst b, te)) (snd b))
       (combine ps (map (fun te => combine (map FNum (fst te)) (snd te)) (combine tc ec)))) (concat gc).
  Proof.
    induction ps as [|p ps IH]; intros ec tc gc gb H K; cbn [greens] in H.
    - injection H as <- <-. constructor.
    - destruct ec as [|e ec]; [discriminate|]. destruct (Nat.eqb _ 0); [discriminate|].
      destruct (dget pair_eqb (w_distances st) p) as [r|] eqn:D; [|discriminate].
      destruct tc as [|t tc]; [discriminate|].
      destruct (l_gcoda o r t g0) as [g|] eqn:G; [|discriminate]. cbn [bind] in H.
      match type of H with bind ?x _ = _ => destruct x as [gb1|]; [|discriminate] end. cbn [bind] in H.
      destruct (greens o st g0 ps ec tc) as [[gcs gbs]|] eqn:GS; [|discriminate]. cbn [bind] in H.
      injection H as <- <-. cbn [combine map flat_map concat fst snd]. apply Forall2_app.
      + apply Forall2_map_l. exact (K 0%nat p r t e g eq_refl D eq_refl eq_refl G).
      + apply (IH ec tc gcs gbs GS). intros i. exact (K (S i)).
  Qed.

  Lemma ngreens_nobulk ps : forall ec tc gc gb, l_bulk o = false ->
    greens o st g0 ps ec tc = Ok (gc, gb) -> gb = [].
  Proof.
    intros ec tc gc gb B. revert ec tc gc gb.
    induction ps as [|p ps IH]; intros ec tc gc gb H; cbn [greens] in H.
    - now injection H as <- <-.
    - destruct ec as [|e ec]; [discriminate|]. destruct (Nat.eqb _ 0); [discriminate|].
      destruct (dget pair_eqb (w_distances st) p) as [r|] eqn:D; [|discriminate].
      destruct tc as [|t tc]; [discriminate|].
      destruct (l_gcoda o r t g0) as [g|] eqn:G; [|discriminate]. rewrite B in H. cbn [bind] in H.
      destruct (greens o st g0 ps ec tc) as [[gcs gbs]|] eqn:GS; [|discriminate]. cbn [bind] in H.
      injection H as <- <-. exact (IH _ _ _ _ GS).
  Qed.

  Lemma ngreens_bulk ps : forall ec tc gc gb tb eb, l_bulk o = true ->
    greens o st g0 ps ec tc = Ok (gc, gb) ->
    List.length tb = List.length eb ->
    (eb <> [] -> List.length eb = List.length ps) ->
    (forall i p r w t e g, nth_error ps i = Some p -> dget pair_eqb (w_distances st) p = Some r ->
       dget pair_eqb (w_tbulk_window st) p = Some w ->
       nth_error tb i = Some t -> nth_error eb i = Some e -> l_gbulk o r w g0 = Ok g -> syn (p, (t, e)) g) ->
    List.length gb = List.length ps /\
    (eb <> [] -> Forall2 syn (flat_map (fun b => map (fun te => (fst b, te)) (snd b))
       (combine ps (map (fun te => [te]) (combine tb eb)))) gb).
  Proof.
    intros ec tc gc gb tb eb B. revert ec tc gc gb tb eb.
    induction ps as [|p ps IH]; intros ec tc gc gb tb eb H LT LE K; cbn [greens] in H.
    - injection H as <- <-. split; [reflexivity|]. intros NE. specialize (LE NE). now destruct eb.
    - destruct ec as [|e ec]; [discriminate|]. destruct (Nat.eqb _ 0); [discriminate|].
      destruct (dget pair_eqb (w_distances st) p) as [r|] eqn:D; [|discriminate].
      destruct tc as [|t tc]; [discriminate|].
      destruct (l_gcoda o r t g0) as [g|] eqn:G; [|discriminate]. rewrite B in H. cbn [bind] in H.
      destruct (dget pair_eqb (w_tbulk_window st) p) as [w|] eqn:W; [|discriminate].
      destruct (l_gbulk o r w g0) as [g1|] eqn:G1; [|discriminate]. cbn [bind] in H.
      destruct (greens o st g0 ps ec tc) as [[gcs gbs]|] eqn:GS; [|discriminate]. cbn [bind] in H.
      injection H as <- <-. cbn [List.length app].
      destruct eb as [|e1 eb].
      + destruct tb; [|discriminate]. split; [|congruence]. f_equal.
        apply (IH ec tc gcs gbs [] [] GS eq_refl); [congruence|]. intros [|i]; cbn; discriminate.
      + destruct tb as [|t1 tb]; [discriminate|].
        assert (LE' : List.length eb = List.length ps) by (specialize (LE ltac:(discriminate)); cbn in LE; lia).
        destruct (IH ec tc gcs gbs tb eb GS) as [L F].
        * now injection LT.
        * auto.
        * intros i. exact (K (S i)).
        * split; [now rewrite L|]. intros _. cbn [combine map flat_map fst snd app]. constructor.
          -- exact (K 0%nat p r w t1 e1 g1 eq_refl D W eq_refl eq_refl G1).
          -- destruct eb as [|e2 eb]; [|apply F; discriminate].
             destruct ps; [|discriminate]. destruct gbs; [|discriminate]. constructor.
  Qed.

  Hypothesis AL : aligned st.
  Hypothesis SB : noisy_band eps o st g0 site source bt.

  Lemma samples_noisy gc gb :
    greens o st g0 (pairs st) (w_ecoda st) (w_tcoda st) = Ok (gc, gb) ->
    List.length (samples st) = List.length (concat gc ++ gb) ->
    Forall2 syn (samples st) (concat gc ++ gb).
  Proof.
    intros GR L. destruct SB as [S1 S2]. pose proof (ngreens_coda _ _ _ _ _ GR S1) as FC.
    unfold samples, blocks in *. rewrite flat_map_app in *. apply Forall2_app; [exact FC|].
    pose proof (Forall2_len _ _ _ FC) as LC. rewrite !app_length, LC in L.
    apply Nat.add_cancel_l in L. destruct AL as (NP & _ & _ & LT & LB).
    assert (LB' : w_ebulk st <> [] -> List.length (w_ebulk st) = List.length (pairs st)) by (destruct LB; tauto).
    destruct (l_bulk o) eqn:B.
    - destruct (ngreens_bulk _ _ _ _ _ _ _ B GR LT LB' S2) as [LG F].
      destruct (w_ebulk st) as [|x eb] eqn:EB; [|apply F; discriminate].
      exfalso. rewrite LG in L. destruct (w_tbulk st); [|discriminate].
      cbn [combine map] in L. replace (combine (pairs st) ([] : list (list (pyf * pyf)))) with ([] : list ((string * string) * list (pyf * pyf))) in L by now destruct (pairs st).
      cbn in L. destruct (pairs st); [contradiction|discriminate].
    - rewrite (ngreens_nobulk _ _ _ _ _ B GR) in *. cbn [List.length] in L.
      destruct (flat_map _ (combine (pairs st) (map (fun te => [te]) _))); [constructor|discriminate].
  Qed.

  Lemma nrhs_lengths bf fs bs z : rhs o st g0 bf fs bs = Ok z ->
    exists gc gb, greens o st g0 (pairs st) (w_ecoda st) (w_tcoda st) = Ok (gc, gb) /\
      List.length (samples st) = List.length (concat gc ++ gb).
  Proof.
    unfold rhs. destruct (greens _ _ _ _ _ _) as [[gc gb]|]; [|discriminate]. cbn [bind].
    destruct (zip_op fsub _ _) as [z0|] eqn:E; [|discriminate]. intros _. exists gc, gb. split; [reflexivity|].
    apply zip_op_spec in E. destruct E as [L _]. rewrite !map_length in L. rewrite <- L.
    now apply samples_length.
  Qed.

  Lemma rhs_noisy bf fs bs z : rhs o st g0 bf fs bs = Ok z ->
    exists gc gb, greens o st g0 (pairs st) (w_ecoda st) (w_tcoda st) = Ok (gc, gb) /\
      Forall2 syn (samples st) (concat gc ++ gb).
  Proof.
    intros H. destruct (nrhs_lengths _ _ _ _ H) as (gc & gb & GR & L). exists gc, gb.
    split; [exact GR|]. now apply samples_noisy.
  Qed.
End G.
