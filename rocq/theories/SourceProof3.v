From Coq Require Import String List Bool Reals Lra Lia Permutation Arith.
From Verif Require Import Base Pyf StatModel StatSpec StatProof PySort SortModel SortProof
  SourceModel SourceSpec SourceProof SourceProof2.
Import ListNotations.
Open Scope string_scope.
Open Scope list_scope.
Open Scope R_scope.

(** ** dictionaries agreeing on a key *)
Lemma dset_agree {V} (d1 d2 : list (string * V)) k v k' :
  dget String.eqb d1 k' = dget String.eqb d2 k' ->
  dget String.eqb (dset String.eqb d1 k v) k' = dget String.eqb (dset String.eqb d2 k v) k'.
Proof.
  intros H. destruct (string_dec k' k) as [->|N].
  - now rewrite !(dget_dset_eq _ string_eqb_spec).
  - now rewrite !(dget_dset_neq _ string_eqb_spec).
Qed.

Lemma dupdate_agree {V} (u d1 d2 : list (string * V)) k' :
  dget String.eqb d1 k' = dget String.eqb d2 k' ->
  dget String.eqb (dupdate String.eqb d1 u) k' = dget String.eqb (dupdate String.eqb d2 u) k'.
Proof.
  revert d1 d2. induction u as [|[k v] u IH]; intros d1 d2 H; cbn; [assumption|].
  apply IH. now apply dset_agree.
Qed.

Lemma dupdate_in_keys {V} (u d : list (string * V)) k :
  In k (map fst (dupdate String.eqb d u)) <-> In k (map fst d) \/ In k (map fst u).
Proof.
  revert d. induction u as [|[k' v] u IH]; intros d; [cbn; tauto|].
  change (dupdate String.eqb d ((k', v) :: u)) with (dupdate String.eqb (dset String.eqb d k' v) u).
  cbn [map fst In]. rewrite IH, (dset_in_keys _ string_eqb_spec). split; intuition.
Qed.

Lemma dget_dupdate_in {V} (u d : list (string * V)) k :
  In k (map fst u) -> exists v, In (k, v) u /\ dget String.eqb (dupdate String.eqb d u) k = Some v.
Proof.
  revert d. induction u as [|[k' v] u IH]; intros d; [cbn; tauto|]. cbn [map fst In]. intros H.
  change (dupdate String.eqb d ((k', v) :: u)) with (dupdate String.eqb (dset String.eqb d k' v) u).
  destruct (in_dec string_dec k (map fst u)) as [Hin|Hn].
  - destruct (IH (dset String.eqb d k' v) Hin) as (w & H1 & H2). eauto.
  - destruct H as [->|H]; [|contradiction].
    rewrite (dupdate_get_other _ string_eqb_spec) by assumption.
    rewrite (dget_dset_eq _ string_eqb_spec). eauto.
Qed.

Lemma dget_pops {V} ks (d : list (string * V)) k : NoDup (map fst d) ->
  dget String.eqb (fold_left (dpop String.eqb) ks d) k =
  if inb String.eqb k ks then None else dget String.eqb d k.
Proof.
  revert d. induction ks as [|k' ks IH]; intros d ND; cbn; [reflexivity|].
  rewrite IH by now apply dpop_nodup.
  unfold inb. cbn [existsb]. destruct (String.eqb k k') eqn:E; cbn [orb].
  - apply String.eqb_eq in E. subst. rewrite (dget_dpop_eq _ string_eqb_spec) by assumption.
    now destruct (existsb _ _).
  - apply String.eqb_neq in E. now rewrite (dget_dpop_neq _ string_eqb_spec).
Qed.

Lemma pops_nodup {V} ks (d : list (string * V)) : NoDup (map fst d) ->
  NoDup (map fst (fold_left (dpop String.eqb) ks d)).
Proof. revert d. induction ks as [|k ks IH]; intros d ND; cbn; auto. apply IH. now apply dpop_nodup. Qed.

Lemma pops_keys {V} ks (d : list (string * V)) k :
  In k (map fst (fold_left (dpop String.eqb) ks d)) -> In k (map fst d).
Proof.
  revert d. induction ks as [|k' ks IH]; intros d; cbn; auto. intros H.
  apply IH in H. now apply dpop_keys_incl in H.
Qed.

Section Src.
  Variable rlm1 : list R -> R.
  Variable lin2 : bool -> list R -> list R -> R * R.
  Variable min1 : (R -> R) -> option (R * R) -> res R.
  Variable minN : (list R -> R) -> list R -> list (option (R * R)) -> res (list R).
  Notation fit_sds := (fit_sds rlm1 lin2 min1 minN).
  Notation fit_model := (fit_model rlm1 lin2 min1 minN).
  Notation insert_source_inplace := (insert_source_inplace rlm1 lin2 min1 minN).
  Notation insert_source_properties := (insert_source_properties rlm1 lin2 min1 minN).
  Notation recalc_event := (recalc_event rlm1 lin2 min1 minN).
  Notation calculate_source_properties := (calculate_source_properties rlm1 lin2 min1 minN).

  Definition fit_keys : list string := ["M0"; "fit_error"; "fc"; "n"; "gamma"].
  Definition new_keys : list string := ["sds"; "M0"; "fit_error"; "fc"; "n"; "gamma"; "Mw"].

  Lemma fit_sds_keys meth freq omM o d : fit_sds meth freq omM o = Ok (Some d) ->
    NoDup (map fst d) /\ forall k, In k (map fst d) -> In k fit_keys.
  Proof.
    assert (FM : forall rf data, fit_model rf data o = Ok (Some d) ->
              NoDup (map fst d) /\ forall k, In k (map fst d) -> In k fit_keys).
    { intros rf data H. apply fit_model_outcome in H as [(-> & _)|(_ & H)].
      - split; [constructor|]. intros k [].
      - split.
        + destruct H; cbn; repeat (constructor; [cbn; intuition discriminate|]); constructor.
        + intros k Hk. apply (outcome_keys _ _ _ _ _ _ _ _ H) in Hk. unfold determined, fit_keys in *.
          destruct (o_fc o), (o_n o), (o_gamma o); cbn in *; tauto. }
    unfold SourceModel.fit_sds.
    destruct (String.eqb meth "mean").
    - unfold fit_mean. destruct (o_fc o); [|discriminate].
      destruct (too_few _ _); [discriminate|]. destruct (0 <? _)%nat; [|discriminate].
      destruct (gstat _ _ _ _ _ _) as [me|]; cbn [bind]; [|discriminate].
      intros [= <-]. cbn. split; [repeat (constructor; [cbn; intuition discriminate|]); constructor|tauto].
    - destruct (String.eqb meth "fit"); [apply FM|].
      destruct (String.eqb meth "robust_fit"); [apply FM|]. discriminate.
  Qed.

  (** the list of spectra *)
  Lemma sds_list W rho0 v0 rho v freq :
    truthy rho0 = Some rho -> truthy v0 = Some v -> length W = length freq ->
    mapM (fun p => sds_entry W rho0 v0 (fst p) (snd p)) (combine (seq 0 (length freq)) freq) =
    Ok (map (fun p => match truthy (fst p) with Some w => Some (sds w (snd p) v rho) | None => None end)
            (combine W freq)).
  Proof.
    intros Hr Hv HL.
    assert (G : forall k pre, length pre = k -> forall W' freq', length W' = length freq' -> W = pre ++ W' ->
      mapM (fun p => sds_entry W rho0 v0 (fst p) (snd p)) (combine (seq k (length freq')) freq') =
      Ok (map (fun p => match truthy (fst p) with Some w => Some (sds w (snd p) v rho) | None => None end)
            (combine W' freq'))).
    { intros k pre Hk W' freq'. revert k pre Hk W'. induction freq' as [|f fs IH]; intros k pre Hk [|w W'] HL' HW;
        try discriminate; [reflexivity|].
      cbn [length seq combine mapM]. unfold sds_entry at 1. cbn [fst snd].
      assert (nth_error W k = Some w) as ->.
      { rewrite HW, nth_error_app2 by lia. rewrite Hk, Nat.sub_diag. reflexivity. }
      rewrite Hr, Hv.
      rewrite (IH (S k) (pre ++ [w])) with (W' := W').
      - cbn [map fst snd bind]. destruct (truthy w); reflexivity.
      - rewrite app_length. cbn. lia.
      - cbn in HL'. lia.
      - rewrite HW, <- app_assoc. reflexivity. }
    apply (G 0%nat []); auto.
  Qed.

  (** value of every key after insertion *)
  Lemma insert_spec freq ev v0 rho0 method so catmag ev' W v rho :
    dget String.eqb ev "W" = Some (VList W) -> length W = length freq -> W <> [] ->
    truthy v0 = Some v -> truthy rho0 = Some rho ->
    insert_source_inplace freq ev v0 rho0 method so catmag = Ok ev' ->
    let s := map (fun p => match truthy (fst p) with Some w => Some (sds w (snd p) v rho) | None => None end)
                 (combine W freq) in
    dget String.eqb ev' "sds" = Some (VList s) /\
    exists fitd : fitdict,
      (NoDup (map fst fitd) /\ forall k, In k (map fst fitd) -> In k fit_keys) /\
      (fitd = [] \/ exists m o, method_truthy method = Some m /\ smo_kwargs so = Ok o /\
                     fit_sds m freq s o = Ok (Some fitd)) /\
      (forall k, In k fit_keys -> dget String.eqb ev' k =
         match dget String.eqb fitd k with Some x => Some (vopt x) | None => dget String.eqb ev k end) /\
      dget String.eqb ev' "Mw" =
        match dget String.eqb fitd "M0" with
        | Some M0 => Some (vopt (option_map moment_magnitude M0))
        | None => dget String.eqb ev "Mw"
        end /\
      (forall k, ~ In k new_keys -> k <> "Mcat" -> dget String.eqb ev' k = dget String.eqb ev k) /\
      (catmag = None -> dget String.eqb ev' "Mcat" = dget String.eqb ev "Mcat").
  Proof.
    intros HW HL Hne Hv Hr. unfold SourceModel.insert_source_inplace. rewrite HW.
    unfold insert_spectra.
    assert (start_spectra W v0 rho0 ev = dset String.eqb ev "sds" (VList [])) as ->.
    { unfold start_spectra. rewrite Hv, Hr. now destruct W. }
    cbn zeta.
    destruct freq as [|f0 freq0] eqn:EF; [now destruct W|]. rewrite <- EF in *.
    rewrite (sds_list W rho0 v0 rho v freq Hr Hv HL). cbn [bind].
    rewrite (dget_dset_eq _ string_eqb_spec). cbn [bind app].
    set (s := map _ (combine W freq)).
    set (ev1 := dset String.eqb (dset String.eqb ev "sds" (VList [])) "sds" (VList s)).
    assert (G1 : dget String.eqb ev1 "sds" = Some (VList s)) by apply (dget_dset_eq _ string_eqb_spec).
    assert (G2 : forall k, k <> "sds" -> dget String.eqb ev1 k = dget String.eqb ev k).
    { intros k N. unfold ev1. now rewrite !(dget_dset_neq _ string_eqb_spec). }
    clearbody ev1. cbn zeta. unfold insert_fit.
    destruct (method_truthy method) as [meth|] eqn:EM.
    2:{ intros [= <-]. split; [assumption|]. exists []. split; [split; [constructor|intros k []]|].
        split; [now left|]. cbn [dget]. split; [|split; [|split]].
        - intros k Hk. apply G2. intros ->. cbn in Hk. intuition discriminate.
        - now apply G2.
        - intros k Hk _. apply G2. intros ->. apply Hk. now left.
        - intros _. now apply G2. }
    rewrite G1. destruct (smo_kwargs so) as [o|] eqn:ES; cbn [bind]; [|discriminate].
    destruct (fit_sds meth freq s o) as [fr|] eqn:Efit; cbn [bind]; [|discriminate].
    set (ev2 := insert_fitresult fr ev1).
    intros H. apply (f_equal (fun r => match r with Ok x => x | Err _ => [] end)) in H. subst ev'.
    assert (GC : forall k, k <> "Mcat" -> dget String.eqb (insert_catmag catmag ev2) k = dget String.eqb ev2 k).
    { intros k N. unfold insert_catmag. destruct catmag; [|reflexivity]. now rewrite (dget_dset_neq _ string_eqb_spec). }
    set (fitd := match fr with Some d => d | None => [] end).
    assert (HK : NoDup (map fst fitd) /\ forall k, In k (map fst fitd) -> In k fit_keys).
    { unfold fitd. destruct fr as [d|]; [eapply fit_sds_keys; eauto|]. split; [constructor|intros k []]. }
    assert (HM : forall k, k <> "Mw" -> dget String.eqb ev2 k =
       match dget String.eqb fitd k with Some x => Some (vopt x) | None => dget String.eqb ev1 k end).
    { intros k N. unfold ev2, fitd, insert_fitresult in *. destruct fr as [d|]; [|reflexivity].
      assert (E : dget String.eqb (dupdate String.eqb ev1 (map (fun kv => (fst kv, vopt (snd kv))) d)) k =
        match dget String.eqb d k with Some x => Some (vopt x) | None => dget String.eqb ev1 k end).
      { destruct (dget String.eqb d k) as [x|] eqn:Ed.
        - apply (dupdate_get_in _ string_eqb_spec).
          + rewrite map_map. cbn. apply HK.
          + apply (dget_In _ string_eqb_spec) in Ed.
            apply (in_map (fun kv => (fst kv, vopt (snd kv)))) in Ed. exact Ed.
        - apply (dget_None _ string_eqb_spec) in Ed. apply (dupdate_get_other _ string_eqb_spec).
          now rewrite map_map. }
      destruct (dget String.eqb d "M0"); [rewrite (dget_dset_neq _ string_eqb_spec) by assumption|]; exact E. }
    assert (Nf : forall k, ~ In k fit_keys -> dget String.eqb fitd k = None).
    { intros k Hk. apply (dget_None _ string_eqb_spec). intros Hin. apply Hk. now apply HK. }
    assert (N1 : ~ In "sds" fit_keys) by (cbn; intuition discriminate).
    assert (N2 : ~ In "Mw" fit_keys) by (cbn; intuition discriminate).
    assert (N3 : ~ In "Mcat" fit_keys) by (cbn; intuition discriminate).
    split.
    { rewrite GC by discriminate. rewrite HM by discriminate. now rewrite (Nf _ N1). }
    exists fitd. split; [exact HK|]. split.
    { unfold fitd. destruct fr as [d|]; [right; exists meth, o; auto|now left]. }
    split; [|split; [|split]].
    - intros k Hk. rewrite GC by (intros ->; contradiction). rewrite HM by (intros ->; contradiction).
      destruct (dget String.eqb fitd k); [reflexivity|]. apply G2. intros ->. contradiction.
    - rewrite GC by discriminate. unfold ev2, fitd, insert_fitresult. destruct fr as [d|]; cbn [dget].
      + destruct (dget String.eqb d "M0"); [apply (dget_dset_eq _ string_eqb_spec)|].
        rewrite (dupdate_get_other _ string_eqb_spec); [now apply G2|].
        rewrite map_map. cbn. intros Hin. apply N2. now apply HK.
      + now apply G2.
    - intros k Hk NC. rewrite GC by assumption.
      assert (k <> "Mw" /\ k <> "sds" /\ ~ In k fit_keys) as (A & B & C).
      { cbn in *. intuition congruence. }
      rewrite HM by assumption. rewrite (Nf _ C). now apply G2.
    - intros ->. rewrite HM by discriminate. rewrite (Nf _ N3). now apply G2.
  Qed.

  (** two dictionaries that agree on W, sds and more are treated alike *)
  Lemma insert_agree (P : string -> Prop) freq ev1 ev2 v0 rho0 method so catmag ev1' :
    P "W" -> P "sds" -> (forall k, P k -> dget String.eqb ev1 k = dget String.eqb ev2 k) ->
    insert_source_inplace freq ev1 v0 rho0 method so catmag = Ok ev1' ->
    exists ev2', insert_source_inplace freq ev2 v0 rho0 method so catmag = Ok ev2' /\
      (forall k, P k -> dget String.eqb ev1' k = dget String.eqb ev2' k) /\
      (dget String.eqb ev1' "Mw" = dget String.eqb ev2' "Mw" \/
       dget String.eqb ev1' "Mw" = dget String.eqb ev1 "Mw" /\
       dget String.eqb ev2' "Mw" = dget String.eqb ev2 "Mw").
  Proof.
    intros PW PS A. unfold SourceModel.insert_source_inplace. rewrite <- (A "W" PW).
    destruct (dget String.eqb ev1 "W") as [[| |W|]|]; try discriminate.
    destruct (insert_spectra freq W v0 rho0 ev1) as [e1|] eqn:E1; cbn [bind]; [|discriminate].
    assert (S : exists e2, insert_spectra freq W v0 rho0 ev2 = Ok e2 /\
       (forall k, P k -> dget String.eqb e1 k = dget String.eqb e2 k) /\
       dget String.eqb e1 "Mw" = dget String.eqb ev1 "Mw" /\
       dget String.eqb e2 "Mw" = dget String.eqb ev2 "Mw").
    { unfold insert_spectra in *. cbn zeta in *.
      set (a1 := start_spectra W _ rho0 ev1) in E1.
      set (a2 := start_spectra W v0 rho0 ev2).
      assert (A1 : forall k, P k -> dget String.eqb a1 k = dget String.eqb a2 k).
      { intros k Pk. unfold a1, a2, start_spectra. destruct W; [auto|]. destruct (truthy rho0); [|auto].
        destruct (truthy v0); [|auto]. apply dset_agree. auto. }
      assert (M1 : dget String.eqb a1 "Mw" = dget String.eqb ev1 "Mw" /\
                   dget String.eqb a2 "Mw" = dget String.eqb ev2 "Mw").
      { unfold a1, a2, start_spectra. destruct W; [auto|]. destruct (truthy rho0); [|auto].
        destruct (truthy v0); [|auto]. now rewrite !(dget_dset_neq _ string_eqb_spec). }
      clearbody a1 a2. destruct M1 as [M1 M2].
      destruct freq as [|f fs].
      - injection E1 as <-. exists a2. auto.
      - destruct (mapM _ _) as [new|]; cbn [bind] in *; [|discriminate].
        rewrite <- (A1 "sds" PS). destruct (dget String.eqb a1 "sds") as [[| |old|]|]; try discriminate.
        apply (f_equal (fun r => match r with Ok x => x | Err _ => [] end)) in E1. subst e1.
        eexists. split; [reflexivity|]. split; [|now rewrite !(dget_dset_neq _ string_eqb_spec)].
        intros k Pk. apply dset_agree. auto. }
    destruct S as (e2 & -> & A2 & M1 & M2). cbn [bind]. unfold insert_fit.
    destruct (method_truthy method) as [meth|].
    2:{ intros [= <-]. exists e2. split; [reflexivity|]. auto. }
    rewrite <- (A2 "sds" PS). destruct (dget String.eqb e1 "sds") as [[| |omM|]|]; try discriminate.
    destruct (smo_kwargs so) as [o|]; cbn [bind]; [|discriminate].
    destruct (fit_sds meth freq omM o) as [fr|] eqn:Efit; cbn [bind]; [|discriminate].
    intros H. apply (f_equal (fun r => match r with Ok x => x | Err _ => [] end)) in H. subst ev1'.
    eexists. split; [reflexivity|].
    assert (A3 : forall k, P k -> dget String.eqb (insert_fitresult fr e1) k = dget String.eqb (insert_fitresult fr e2) k).
    { intros k Pk. unfold insert_fitresult. destruct fr as [d|]; [|auto].
      destruct (dget String.eqb d "M0"); [apply dset_agree|]; apply dupdate_agree; auto. }
    split.
    - intros k Pk. unfold insert_catmag. destruct catmag; [apply dset_agree|]; auto.
    - unfold insert_catmag.
      assert (X : dget String.eqb (insert_fitresult fr e1) "Mw" = dget String.eqb (insert_fitresult fr e2) "Mw" \/
        dget String.eqb (insert_fitresult fr e1) "Mw" = dget String.eqb ev1 "Mw" /\
        dget String.eqb (insert_fitresult fr e2) "Mw" = dget String.eqb ev2 "Mw").
      { unfold insert_fitresult. destruct fr as [d|]; [|auto].
        destruct (dget String.eqb d "M0").
        - left. now rewrite !(dget_dset_eq _ string_eqb_spec).
        - apply fit_sds_keys in Efit as [_ HK].
          assert (~ In "Mw" (map fst (map (fun kv : string * option R => (fst kv, vopt (snd kv))) d))).
          { rewrite map_map. cbn. intros Hin. apply HK in Hin. cbn in Hin. intuition discriminate. }
          right. rewrite !(dupdate_get_other _ string_eqb_spec) by assumption. auto. }
      destruct catmag; [|exact X]. now rewrite !(dget_dset_neq _ string_eqb_spec).
  Qed.

  (** keys and uniqueness of keys *)
  Lemma insert_keys freq ev v0 rho0 method so catmag ev' :
    insert_source_inplace freq ev v0 rho0 method so catmag = Ok ev' ->
    (NoDup (map fst ev) -> NoDup (map fst ev')) /\
    (forall k, In k (map fst ev) -> In k (map fst ev')) /\
    (forall k, In k (map fst ev') -> In k (map fst ev) \/ In k ("Mcat" :: new_keys)).
  Proof.
    unfold SourceModel.insert_source_inplace.
    destruct (dget String.eqb ev "W") as [[| |W|]|]; try discriminate.
    assert (SK : forall (d : evdict) v, let d' := dset String.eqb d "sds" v in
      (NoDup (map fst d) -> NoDup (map fst d')) /\ (forall k, In k (map fst d) -> In k (map fst d')) /\
      (forall k, In k (map fst d') -> In k (map fst d) \/ In k ("Mcat" :: new_keys))).
    { intros d v d'. unfold d'. split; [apply dset_nodup, string_eqb_spec|].
      split; intros k; rewrite (dset_in_keys _ string_eqb_spec); [now right|].
      intros [->|H]; [right; cbn; tauto|now left]. }
    destruct (insert_spectra freq W v0 rho0 ev) as [e1|] eqn:E1; cbn [bind]; [|discriminate].
    assert (S : (NoDup (map fst ev) -> NoDup (map fst e1)) /\
      (forall k, In k (map fst ev) -> In k (map fst e1)) /\
      (forall k, In k (map fst e1) -> In k (map fst ev) \/ In k ("Mcat" :: new_keys))).
    { unfold insert_spectra in *. cbn zeta in *.
      set (a1 := start_spectra W _ rho0 ev) in E1.
      assert (A : (NoDup (map fst ev) -> NoDup (map fst a1)) /\
        (forall k, In k (map fst ev) -> In k (map fst a1)) /\
        (forall k, In k (map fst a1) -> In k (map fst ev) \/ In k ("Mcat" :: new_keys))).
      { unfold a1, start_spectra. destruct W; [auto|]. destruct (truthy rho0); [|auto].
        destruct (truthy v0); [|auto]. apply SK. }
      clearbody a1. destruct freq as [|f fs]; [injection E1 as <-; exact A|].
      destruct (mapM _ _) as [new|]; cbn [bind] in *; [|discriminate].
      destruct (dget String.eqb a1 "sds") as [[| |old|]|]; try discriminate.
      apply (f_equal (fun r => match r with Ok x => x | Err _ => [] end)) in E1. subst e1.
      destruct (SK a1 (VList (old ++ new))) as (K1 & K2 & K3). destruct A as (B1 & B2 & B3).
      split; [auto|]. split; [auto|]. intros k Hk. apply K3 in Hk as [Hk|Hk]; auto. }
    destruct S as (S1 & S2 & S3). unfold insert_fit.
    destruct (method_truthy method) as [meth|]; [|intros [= <-]; auto].
    destruct (dget String.eqb e1 "sds") as [[| |omM|]|]; try discriminate.
    destruct (smo_kwargs so) as [o|]; cbn [bind]; [|discriminate].
    destruct (fit_sds meth freq omM o) as [fr|] eqn:Efit; cbn [bind]; [|discriminate].
    intros H. apply (f_equal (fun r => match r with Ok x => x | Err _ => [] end)) in H. subst ev'.
    set (f1 := insert_fitresult fr e1).
    assert (F : (NoDup (map fst e1) -> NoDup (map fst f1)) /\
      (forall k, In k (map fst e1) -> In k (map fst f1)) /\
      (forall k, In k (map fst f1) -> In k (map fst e1) \/ In k ("Mcat" :: new_keys))).
    { unfold f1, insert_fitresult. destruct fr as [d|]; [|auto].
      apply fit_sds_keys in Efit as [_ HK].
      set (u := map (fun kv : string * option R => (fst kv, vopt (snd kv))) d).
      assert (U : forall k, In k (map fst u) -> In k ("Mcat" :: new_keys)).
      { intros k. unfold u. rewrite map_map. cbn [fst]. intros Hin. apply HK in Hin. cbn in *. tauto. }
      destruct (dget String.eqb d "M0").
      - split; [intros; apply (dset_nodup _ string_eqb_spec), dupdate_nodup; auto; apply string_eqb_spec|].
        split; intros k; rewrite (dset_in_keys _ string_eqb_spec), dupdate_in_keys; [tauto|].
        intros [->|[H|H]]; auto. right. cbn. tauto.
      - split; [intros; apply dupdate_nodup; auto; apply string_eqb_spec|].
        split; intros k; rewrite dupdate_in_keys; [tauto|]. intros [H|H]; auto. }
    destruct F as (F1 & F2 & F3). unfold insert_catmag. destruct catmag.
    - split; [intros; apply dset_nodup; auto; apply string_eqb_spec|].
      split; intros k; rewrite (dset_in_keys _ string_eqb_spec); [right; auto|].
      intros [->|H]; [right; now left|]. apply F3 in H as [H|H]; auto.
    - split; [auto|]. split; [auto|]. intros k H. apply F3 in H as [H|H]; auto.
  Qed.

  Lemma known_sort {V} (d : list (string * V)) :
    (exists r, sort_dict DUMP_ORDER d = Ok r) <-> (forall k, In k (map fst d) -> In k DUMP_ORDER).
  Proof.
    split.
    - intros (r & E) k Hk. destruct (in_dec string_dec k DUMP_ORDER); [assumption|].
      rewrite (sort_dict_fails DUMP_ORDER d k) in E by assumption. discriminate.
    - intros H. destruct (sort_dict_ok DUMP_ORDER d H) as (r & E & _). eauto.
  Qed.

  Lemma new_keys_known k : In k ("Mcat" :: new_keys) -> In k DUMP_ORDER.
  Proof. cbn. tauto. Qed.

  (** ** recalculation of one event *)
  Definition strip (r : evdict) : evdict := fold_left (dpop String.eqb) stale_keys r.

  Lemma dget_strip r k : NoDup (map fst r) ->
    dget String.eqb (strip r) k = if inb String.eqb k stale_keys then None else dget String.eqb r k.
  Proof. apply dget_pops. Qed.

  Lemma strip_other r k : NoDup (map fst r) -> ~ In k stale_keys ->
    dget String.eqb (strip r) k = dget String.eqb r k.
  Proof.
    intros ND H. rewrite dget_strip by assumption.
    destruct (inb String.eqb k stale_keys) eqn:E; [|reflexivity].
    apply (inb_In _ string_eqb_spec) in E. contradiction.
  Qed.

  Lemma strip_stale r k : NoDup (map fst r) -> In k stale_keys -> dget String.eqb (strip r) k = None.
  Proof.
    intros ND H. rewrite dget_strip by assumption.
    apply (inb_In _ string_eqb_spec) in H. now rewrite H.
  Qed.

  Lemma recalc_cases freq v02 rho0 method so r r' :
    recalc_event freq v02 rho0 method so r = Ok r' ->
    (truthy (orelse (num_at r "v0") v02) = None /\ r' = strip r) \/
    (exists fr v, truthy (orelse (num_at r "v0") v02) = Some v /\ freq = Some fr /\
      insert_source_inplace fr (strip r) (orelse (num_at r "v0") v02) rho0 method so None = Ok r' /\
      forall k, In k (map fst r') -> In k DUMP_ORDER).
  Proof.
    unfold SourceModel.recalc_event. fold (strip r).
    destruct (truthy _) as [v|]; [|intros [= <-]; auto].
    destruct freq as [fr|]; [|discriminate].
    unfold SourceModel.insert_source_properties.
    destruct (insert_source_inplace _ _ _ _ _ _ _) as [e|] eqn:E; cbn [bind]; [|discriminate].
    destruct (sort_dict DUMP_ORDER e) as [srt|] eqn:Es; cbn [bind fst]; [|discriminate].
    intros [= <-]. right. exists fr, v. repeat split; auto. apply known_sort. eauto.
  Qed.

  Lemma recalc_ok freq v02 rho0 method so r v r' :
    truthy (orelse (num_at r "v0") v02) = Some v ->
    insert_source_inplace freq (strip r) (orelse (num_at r "v0") v02) rho0 method so None = Ok r' ->
    (forall k, In k (map fst r') -> In k DUMP_ORDER) ->
    recalc_event (Some freq) v02 rho0 method so r = Ok r'.
  Proof.
    intros Hv Hi Hk. unfold SourceModel.recalc_event. fold (strip r). rewrite Hv.
    unfold SourceModel.insert_source_properties. rewrite Hi. cbn [bind].
    apply known_sort in Hk as [srt ->]. reflexivity.
  Qed.

  Lemma insert_untouched freq ev v0 rho0 method so ev' k :
    insert_source_inplace freq ev v0 rho0 method so None = Ok ev' -> ~ In k new_keys ->
    dget String.eqb ev' k = dget String.eqb ev k.
  Proof.
    unfold SourceModel.insert_source_inplace. intros H Hk.
    assert (N : k <> "sds" /\ k <> "Mw" /\ ~ In k fit_keys) by (cbn in *; intuition congruence).
    destruct N as (N1 & N2 & N3).
    destruct (dget String.eqb ev "W") as [[| |W|]|]; try discriminate.
    destruct (insert_spectra freq W v0 rho0 ev) as [e1|] eqn:E1; cbn [bind] in H; [|discriminate].
    assert (S : dget String.eqb e1 k = dget String.eqb ev k).
    { unfold insert_spectra in *. cbn zeta in *.
      set (a1 := start_spectra W _ rho0 ev) in E1.
      assert (A : dget String.eqb a1 k = dget String.eqb ev k).
      { unfold a1, start_spectra. destruct W; [auto|]. destruct (truthy rho0); [|auto].
        destruct (truthy v0); [|auto]. now rewrite (dget_dset_neq _ string_eqb_spec). }
      clearbody a1. destruct freq as [|f fs]; [injection E1 as <-; exact A|].
      destruct (mapM _ _) as [new|]; cbn [bind] in *; [|discriminate].
      destruct (dget String.eqb a1 "sds") as [[| |old|]|]; try discriminate.
      apply (f_equal (fun r => match r with Ok x => x | Err _ => [] end)) in E1. subst e1.
      now rewrite (dget_dset_neq _ string_eqb_spec). }
    rewrite <- S. unfold insert_fit in H.
    destruct (method_truthy method) as [meth|]; [|injection H as <-; auto].
    destruct (dget String.eqb e1 "sds") as [[| |omM|]|]; try discriminate.
    destruct (smo_kwargs so) as [o|]; cbn [bind] in H; [|discriminate].
    destruct (fit_sds meth freq omM o) as [fr|] eqn:Efit; cbn [bind] in H; [|discriminate].
    apply (f_equal (fun r => match r with Ok x => x | Err _ => [] end)) in H. subst ev'.
    unfold insert_catmag, insert_fitresult. destruct fr as [d|]; [|auto].
    apply fit_sds_keys in Efit as [_ HK].
    assert (U : ~ In k (map fst (map (fun kv : string * option R => (fst kv, vopt (snd kv))) d))).
    { rewrite map_map. cbn [fst]. intros Hin. apply N3. now apply HK. }
    destruct (dget String.eqb d "M0").
    - rewrite (dget_dset_neq _ string_eqb_spec) by assumption. now apply (dupdate_get_other _ string_eqb_spec).
    - now apply (dupdate_get_other _ string_eqb_spec).
  Qed.

  Lemma recalc_untouched freq v02 rho0 method so r r' k :
    NoDup (map fst r) -> recalc_event freq v02 rho0 method so r = Ok r' -> ~ In k new_keys ->
    dget String.eqb r' k = dget String.eqb r k.
  Proof.
    intros ND H Hk.
    assert (Hs : dget String.eqb (strip r) k = dget String.eqb r k).
    { apply strip_other; [assumption|]. cbn in *. tauto. }
    apply recalc_cases in H as [(_ & ->)|(fr & v & _ & _ & Hi & _)]; [assumption|].
    rewrite <- Hs. eapply insert_untouched; eauto.
  Qed.

  Lemma recalc_fresh freq v02 rho0 method so r1 r1' r2 :
    NoDup (map fst r1) -> NoDup (map fst r2) ->
    dget String.eqb r1 "W" = dget String.eqb r2 "W" ->
    num_at r1 "v0" = num_at r2 "v0" ->
    (forall k, In k (map fst r2) -> In k DUMP_ORDER) ->
    recalc_event freq v02 rho0 method so r1 = Ok r1' ->
    exists r2', recalc_event freq v02 rho0 method so r2 = Ok r2' /\
      forall k, In k stale_keys -> dget String.eqb r1' k = dget String.eqb r2' k.
  Proof.
    intros N1 N2 HW Hv HK H.
    apply recalc_cases in H as [(E & ->)|(fr & v & E & -> & Hi & Hkn)].
    - exists (strip r2). split.
      + unfold SourceModel.recalc_event. rewrite <- Hv, E. reflexivity.
      + intros k Hk. now rewrite !strip_stale.
    - destruct (insert_agree (fun k => k = "W" \/ In k stale_keys) fr (strip r1) (strip r2)
        (orelse (num_at r1 "v0") v02) rho0 method so None r1') as (r2' & Hi2 & A & _).
      + now left.
      + right. now left.
      + intros k [->|Hk]; [|now rewrite !strip_stale].
        rewrite !strip_other; auto; cbn; intuition discriminate.
      + assumption.
      + rewrite Hv in E, Hi2. exists r2'. split; [|intros k Hk; apply A; now right].
        eapply recalc_ok; eauto. intros k Hk.
        apply insert_keys in Hi2 as (_ & _ & KK). apply KK in Hk as [Hk|Hk].
        * apply HK. now apply pops_keys in Hk.
        * now apply new_keys_known.
  Qed.

  Lemma recalc_nodup freq v02 rho0 method so r r' :
    NoDup (map fst r) -> recalc_event freq v02 rho0 method so r = Ok r' -> NoDup (map fst r').
  Proof.
    intros ND H. apply recalc_cases in H as [(_ & ->)|(fr & v & _ & _ & Hi & _)].
    - now apply pops_nodup.
    - apply insert_keys in Hi as (K & _). apply K. now apply pops_nodup.
  Qed.

  Lemma recalc_idempotent freq v02 rho0 method so r r' :
    NoDup (map fst r) -> recalc_event freq v02 rho0 method so r = Ok r' ->
    exists r'', recalc_event freq v02 rho0 method so r' = Ok r'' /\
      forall k, dget String.eqb r'' k = dget String.eqb r' k.
  Proof.
    intros ND H.
    assert (ND' := recalc_nodup _ _ _ _ _ _ _ ND H).
    assert (UT := fun k => recalc_untouched _ _ _ _ _ _ _ k ND H).
    assert (Ev : num_at r' "v0" = num_at r "v0").
    { unfold num_at. rewrite UT; [reflexivity|]. cbn. intuition discriminate. }
    apply recalc_cases in H as [(E & ->)|(fr & v & E & -> & Hi & Hkn)].
    - exists (strip (strip r)). split.
      + unfold SourceModel.recalc_event. rewrite Ev, E. reflexivity.
      + intros k. rewrite dget_strip by assumption.
        destruct (inb String.eqb k stale_keys) eqn:Ek; [|reflexivity].
        apply (inb_In _ string_eqb_spec) in Ek. now rewrite strip_stale.
    - destruct (insert_agree (fun k => k <> "Mw") fr (strip r) (strip r')
        (orelse (num_at r "v0") v02) rho0 method so None r') as (r'' & Hi2 & A & M).
      + discriminate.
      + discriminate.
      + intros k Hk. rewrite !dget_strip by assumption.
        destruct (inb String.eqb k stale_keys) eqn:Ek; [reflexivity|].
        symmetry. apply UT. intros Hin.
        assert (~ In k stale_keys) by (intros X; apply (inb_In _ string_eqb_spec) in X; congruence).
        cbn in *. intuition.
      + assumption.
      + rewrite <- Ev in Hi2, E. exists r''. split.
        * eapply recalc_ok; eauto. intros k Hk.
          apply insert_keys in Hi2 as (_ & _ & KK). apply KK in Hk as [Hk|Hk].
          -- apply Hkn. now apply pops_keys in Hk.
          -- now apply new_keys_known.
        * intros k. destruct (string_dec k "Mw") as [->|N]; [|symmetry; now apply A].
          destruct M as [M|[_ M]]; [now symmetry|]. rewrite M.
          apply strip_other; [assumption|]. cbn. intuition discriminate.
  Qed.

  Lemma recalc_Mw freq v02 rho0 method so r r' M0 :
    NoDup (map fst r) -> recalc_event freq v02 rho0 method so r = Ok r' ->
    dget String.eqb r' "M0" = Some M0 ->
    dget String.eqb r' "Mw" = Some (match M0 with VNum x => VNum (moment_magnitude x) | _ => VNone end).
  Proof.
    intros ND H HM.
    apply recalc_cases in H as [(E & ->)|(fr & v & E & -> & Hi & Hkn)].
    { rewrite strip_stale in HM; [discriminate|assumption|cbn; tauto]. }
    unfold SourceModel.insert_source_inplace in Hi.
    destruct (dget String.eqb (strip r) "W") as [[| |W|]|]; try discriminate.
    destruct (insert_spectra fr W _ rho0 (strip r)) as [e1|] eqn:E1; cbn [bind] in Hi; [|discriminate].
    assert (S : dget String.eqb e1 "M0" = None).
    { rewrite <- (strip_stale r "M0" ND) by (cbn; tauto).
      unfold insert_spectra in *. cbn zeta in *.
      set (a1 := start_spectra W _ rho0 (strip r)) in E1.
      assert (A : dget String.eqb a1 "M0" = dget String.eqb (strip r) "M0").
      { unfold a1, start_spectra. destruct W; [auto|]. destruct (truthy rho0); [|auto]. rewrite E.
        now rewrite (dget_dset_neq _ string_eqb_spec). }
      clearbody a1. destruct fr as [|f fs]; [injection E1 as <-; exact A|].
      destruct (mapM _ _) as [new|]; cbn [bind] in *; [|discriminate].
      destruct (dget String.eqb a1 "sds") as [[| |old|]|]; try discriminate.
      apply (f_equal (fun r => match r with Ok x => x | Err _ => [] end)) in E1. subst e1.
      now rewrite (dget_dset_neq _ string_eqb_spec). }
    unfold insert_fit in Hi.
    destruct (method_truthy method) as [meth|]; [|injection Hi as <-; congruence].
    destruct (dget String.eqb e1 "sds") as [[| |omM|]|]; try discriminate.
    destruct (smo_kwargs so) as [o|]; cbn [bind] in Hi; [|discriminate].
    destruct (fit_sds meth fr omM o) as [fitr|] eqn:Efit; cbn [bind] in Hi; [|discriminate].
    apply (f_equal (fun r => match r with Ok x => x | Err _ => [] end)) in Hi. subst r'.
    unfold insert_catmag, insert_fitresult in *. destruct fitr as [d|]; [|congruence].
    apply fit_sds_keys in Efit as [NDd HK].
    destruct (dget String.eqb d "M0") as [m|] eqn:Ed.
    - rewrite (dget_dset_eq _ string_eqb_spec).
      rewrite (dget_dset_neq _ string_eqb_spec) in HM by discriminate.
      rewrite (dupdate_get_in _ string_eqb_spec _ _ "M0" (vopt m)) in HM.
      + injection HM as <-. destruct m; reflexivity.
      + rewrite map_map. exact NDd.
      + apply (dget_In _ string_eqb_spec) in Ed.
        apply (in_map (fun kv => (fst kv, vopt (snd kv)))) in Ed. exact Ed.
    - exfalso. apply (dget_None _ string_eqb_spec) in Ed.
      rewrite (dupdate_get_other _ string_eqb_spec) in HM; [congruence|]. now rewrite map_map.
  Qed.
End Src.
