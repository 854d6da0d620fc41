(** C54 (conclusions), C55, C56, C57. *)
From Coq Require Import String List Bool Reals Lra Lia ZArith Arith.
From Verif Require Import Base Pyf PyfOps StatModel StatProof FbModel FbProof3 LsqfbModel LsqfbSpec LsqfbProof LsqfbProof2 LsqfbProof3.
Import ListNotations.
Open Scope string_scope.
Open Scope list_scope.
Open Scope R_scope.

Lemma rleb_cases lo r : (fleb (FNum lo) (FNum r) = true <-> lo <= r).
Proof.
  unfold fleb. cbn. rewrite negb_true_iff, rltb_false. tauto.
Qed.

Lemma fltb_num_l lo x : fltb (FNum lo) x = true <-> x = FPInf \/ exists r, x = FNum r /\ lo < r.
Proof.
  destruct x as [| | |r]; cbn; split; try discriminate; auto.
  - intros [?|(r & ? & _)]; discriminate.
  - intros [?|(r & ? & _)]; discriminate.
  - rewrite rltb_true. eauto.
  - intros [?|(s & [= <-] & H)]; [discriminate|]. now apply rltb_true.
Qed.

Lemma fltb_num_r hi x : fltb x (FNum hi) = true <-> x = FNInf \/ exists r, x = FNum r /\ r < hi.
Proof.
  destruct x as [| | |r]; cbn; split; try discriminate; auto.
  - intros [?|(r & ? & _)]; discriminate.
  - intros [?|(r & ? & _)]; discriminate.
  - rewrite rltb_true. eauto.
  - intros [?|(s & [= <-] & H)]; [discriminate|]. now apply rltb_true.
Qed.

Lemma between lo hi x : (fltb (FNum lo) x && fltb x (FNum hi))%bool = true <->
  exists r, x = FNum r /\ lo < r < hi.
Proof.
  rewrite andb_true_iff, fltb_num_l, fltb_num_r. split.
  - intros [[->|(r & -> & H)] [|(s & E & H')]]; try discriminate. injection E as <-. eauto.
  - intros (r & -> & H). split; right; exists r; split; auto; lra.
Qed.

Lemma between_closed lo hi x : (fleb (FNum lo) x && fleb x (FNum hi))%bool = true <->
  exists r, x = FNum r /\ lo <= r <= hi.
Proof.
  rewrite andb_true_iff. destruct x as [| | |r].
  - cbn. split; [intros [? _]; discriminate|intros (r & ? & _); discriminate].
  - cbn. split; [intros [_ ?]; discriminate|intros (r & ? & _); discriminate].
  - cbn. split; [intros [? _]; discriminate|intros (r & ? & _); discriminate].
  - rewrite !rleb_cases. split; [intros; exists r; auto|]. intros (s & [= <-] & H). exact H.
Qed.

Section B.
  Variable o : lopts.

  Lemma b_outside_spec x : b_outside o x = false <-> inside_open (l_b_bounds o) x.
  Proof.
    unfold b_outside, inside_open. destruct (l_b_bounds o) as [[lo hi]|].
    - rewrite negb_false_iff, between. split.
      + intros H lo' hi' [= <- <-]. exact H.
      + intros H. exact (H lo hi eq_refl).
    - split; [|reflexivity]. intros _ lo hi H. discriminate.
  Qed.

  Lemma g0_outside_spec x : g0_outside o x = false <-> inside_closed (l_g0_bounds o) x.
  Proof.
    unfold g0_outside, inside_closed. destruct (l_g0_bounds o) as [[lo hi]|].
    - rewrite negb_false_iff, between_closed. split.
      + intros H lo' hi' [= <- <-]. exact H.
      + intros H. exact (H lo hi eq_refl).
    - split; [|reflexivity]. intros _ lo hi H. discriminate.
  Qed.

  Lemma near_bounds_spec bounds x : near_bounds bounds x = false <-> well_inside bounds x.
  Proof.
    unfold near_bounds, well_inside. destruct bounds as [[lo hi]|].
    - rewrite negb_false_iff, between. split.
      + intros (r & -> & H) lo' hi' [= <- <-]. exists r. split; [reflexivity|]. lra.
      + intros H. destruct (H lo hi eq_refl) as (r & -> & H'). exists r. split; [reflexivity|]. lra.
    - split; [|reflexivity]. intros _ lo hi H. discriminate.
  Qed.
End B.

Lemma Forall2_len {A B} (P : A -> B -> Prop) l m : Forall2 P l m -> List.length l = List.length m.
Proof. induction 1; cbn; congruence. Qed.

(** ** C54 *)
Section R.
  Variable o : lopts.
  Variable st : wstate.
  Variables (g0 : pyf) (a : list (list pyf)) (bs rs : list pyf) (gc : list (list pyf)) (gb : list pyf).
  Variables (site source : string -> R) (bt : R).

  Lemma weights_ok n b : (List.length b = n)%nat ->
    (l_bulk o = true -> Forall (fun w => 0 < w) (w_weights st) /\ (List.length (w_weights st) <= n)%nat) ->
    match weights o st b with
    | None => True
    | Some w => Forall (fun w => 0 < w) w /\ List.length w = n
    end.
  Proof.
    intros L H. unfold weights. destruct (l_bulk o); [|exact I]. destruct (H eq_refl) as [P LE]. split.
    - apply Forall_app. split; [|exact P]. apply Forall_forall. intros y I. apply repeat_spec in I. lra.
    - rewrite app_length, repeat_length. lia.
  Qed.

  Hypothesis AL : aligned st.
  Hypothesis LS : least_squares (l_wls o).
  Hypothesis WP : l_bulk o = true -> Forall (fun w => 0 < w) (w_weights st) /\
                    List.length (w_weights st) = List.length (w_ebulk st).
  Hypothesis BU : build o st = Ok (a, bs, rs).
  Hypothesis GR : greens o st g0 (pairs st) (w_ecoda st) (w_tcoda st) = Ok (gc, gb).
  Hypothesis SY : Forall2 (synthetic site source bt) (samples st) (concat gc ++ gb).
  Hypothesis SITE : forall s, In s (stations st) -> 0 < site s.
  Hypothesis SOURCE : forall e, In e (eventids st) -> 0 < source e.

  Lemma samples_length : List.length (samples st) = List.length (concat (w_ecoda st) ++ w_ebulk st).
  Proof. destruct (samples_columns st AL) as [_ <-]. now rewrite map_length. Qed.

  Lemma bulk_le : l_bulk o = true -> Forall (fun w => 0 < w) (w_weights st) /\
                    (List.length (w_weights st) <= List.length (samples st))%nat.
  Proof.
    intros B. destruct (WP B) as [P L]. split; [exact P|]. rewrite samples_length, app_length. lia.
  Qed.

  Lemma ecoda_nonempty : Forall (fun e => e <> []) (w_ecoda st).
  Proof. apply (greens_nonempty _ _ _ _ _ _ _ GR). apply AL. Qed.

  Lemma positive_sample s : In s (samples st) -> 0 < site (snd (fst s)) /\ 0 < source (fst (fst s)).
  Proof. intros I. split; [apply SITE, in_station; auto|apply SOURCE, in_event; auto]. Qed.

  (** the logarithm of energy over Green's function *)
  Lemma rhs_start bf fs z : rhs o st g0 bf fs bs = Ok z ->
    Forall (fun s => stime s = FNum (tof s)) (samples st) /\
    bind match nonzero bf with
         | None => Ok (map FNum (map (fun s => ln (source (fst (fst s))) + ln (site (snd (fst s))) - bt * tof s) (samples st)))
         | Some b => zip_op fadd (map FNum (map (fun s => ln (source (fst (fst s))) + ln (site (snd (fst s))) - bt * tof s) (samples st)))
                       (map (fmul b) (times st))
         end
         (fun b => if fs then zip_op fsub b bs else Ok b) = Ok z.
  Proof.
    unfold rhs. rewrite GR. cbn [bind]. destruct (samples_columns st AL) as [_ SE]. rewrite <- SE.
    destruct (zip_op fsub _ (map flog (concat gc ++ gb))) as [z0|] eqn:E; [|discriminate]. cbn [bind].
    destruct (zip_synthetic site source bt _ _ _ positive_sample SY E) as [-> T]. intros H. split; [exact T|]. exact H.
  Qed.

  Hypothesis CN : l_coda_norm o = false.
  Hypothesis CON : l_fix_sites o = None ->
    forall s1 s2, In s1 (stations st) -> In s2 (stations st) -> connected (pairs st) s1 s2.

  Lemma good_lengths rows : good_rows o st rows -> Forall (fun r => List.length r = width o st) rows /\
    List.length rows = List.length (samples st).
  Proof.
    intros G. split.
    - unfold good_rows in G. clear - G. revert G. generalize (samples st).
      induction rows as [|r rows IH]; intros l G; inversion G; subst; constructor; [tauto|eauto].
    - exact (Forall2_len _ _ _ G).
  Qed.

  Lemma recover_sites c mse z fx : l_fix_sites o = None -> l_fix o = fx ->
    (fx = false -> two_times st) -> 0 < l_R0 o ->
    geometric_mean (map (fun s => FNum (site s)) (stations st)) (l_R0 o) ->
    Forall (fun s => stime s = FNum (tof s)) (samples st) ->
    z = map FNum (map (target o site source bt) (samples st)) ->
    l_wls o z a (weights o st z) = Ok (c, mse) ->
    decode o st c false rs = (map (fun e => FNum (source e)) (eventids st), map (fun s => FNum (site s)) (stations st)) /\
    mse = FNum 0 /\ (fx = false -> c <> [] /\ last c FNan = FNum bt).
  Proof.
    intros FS FX TT R0 GM TN Z H.
    destruct (rows_of o st AL a bs rs CN FS TN BU) as (rows & EA & G). rewrite EA, Z in H.
    destruct (good_lengths rows G) as [LR LL].
    assert (WO := weights_ok (List.length (samples st)) z). rewrite Z in WO.
    rewrite !map_length in WO. specialize (WO eq_refl bulk_le).
    destruct (lsq_exact (l_wls o) (width o st) rows (map (target o site source bt) (samples st))
      (weights o st (map FNum (map (target o site source bt) (samples st)))) c mse (truth o st site source bt) LS LR) as (c' & EC & LC & EX & MS).
    - now rewrite map_length, LL.
    - rewrite LL. exact WO.
    - now apply truth_length.
    - exact (truth_exact o st AL site source bt SOURCE rows G).
    - exact H.
    - destruct (identify o st AL site source bt SOURCE (CON FS) ltac:(rewrite FX; exact TT) ecoda_nonempty c' rows G LC EX) as (B & HS & HE).
      destruct (decoded_truth o st AL site source SITE SOURCE R0 GM c' LC HS HE) as [EW ER].
      rewrite EC. split; [|split; [exact MS|]].
      + rewrite decode_spec by assumption. rewrite EW, ER, !map_map. reflexivity.
      + intros F. rewrite F in FX. assert (NE : c' <> []).
        { intros Q. rewrite Q in LC. cbn in LC. unfold width, fix01 in LC. rewrite FX in LC.
          pose proof (Ns_pos st AL). lia. }
        split; [now destruct c'|]. rewrite <- (B FX). clear - NE.
        induction c' as [|x c' IH]; [contradiction|]. destruct c' as [|y c']; [reflexivity|].
        apply IH. discriminate.
  Qed.

  (** command go *)
  Lemma recover_free f : l_fix_sites o = None -> l_fix o = false -> two_times st -> 0 < l_R0 o ->
    geometric_mean (map (fun s => FNum (site s)) (stations st)) (l_R0 o) ->
    solve_at o st a bs rs g0 None false = Ok f ->
    f_g0 f = g0 /\ f_b f = FNum bt /\
    f_W f = map (fun e => FNum (source e)) (eventids st) /\
    f_R f = map (fun s => FNum (site s)) (stations st) /\
    (inside_open (l_b_bounds o) (FNum bt) -> inside_closed (l_g0_bounds o) g0 -> f_err f = FNum 0).
  Proof.
    intros FS FX TT R0 GM H. unfold solve_at in H. rewrite FX in H.
    destruct (rhs o st g0 None false bs) as [z|] eqn:E; [|discriminate]. cbn [bind] in H.
    destruct (rhs_start _ _ _ E) as [TN EZ]. cbn [nonzero bind] in EZ. injection EZ as EZ.
    destruct (l_wls o z a (weights o st z)) as [[c mse]|] eqn:W; [|discriminate]. cbn [bind] in H.
    destruct (recover_sites c mse z false FS FX (fun _ => TT) R0 GM TN) as (D & M & L).
    - rewrite <- EZ. f_equal. apply map_ext. intros s. unfold target. now rewrite FX.
    - exact W.
    - destruct (L eq_refl) as [NE EL]. destruct c as [|c0 c]; [contradiction|]. cbn [bind] in H.
      rewrite D in H. rewrite EL in H. injection H as <-. cbn.
      split; [reflexivity|]. split; [reflexivity|]. split; [reflexivity|]. split; [reflexivity|].
      intros B1 B2. apply b_outside_spec in B1. apply g0_outside_spec in B2. rewrite B1, B2. cbn.
      rewrite M. cbn. destruct (Rlt_dec 0 0); [lra|]. now rewrite sqrt_0.
  Qed.

  (** adding the known attenuation *)
  Lemma add_fixed z bf : bf = FNum bt ->
    Forall (fun s => stime s = FNum (tof s)) (samples st) ->
    match nonzero (Some bf) with
    | None => Ok (map FNum (map (fun s => ln (source (fst (fst s))) + ln (site (snd (fst s))) - bt * tof s) (samples st)))
    | Some b => zip_op fadd (map FNum (map (fun s => ln (source (fst (fst s))) + ln (site (snd (fst s))) - bt * tof s) (samples st)))
                  (map (fmul b) (times st))
    end = Ok z ->
    z = map FNum (map (fun s => ln (source (fst (fst s))) + ln (site (snd (fst s)))) (samples st)).
  Proof.
    intros -> TN. cbn [nonzero]. destruct (Req_EM_T bt 0) as [B0|B0].
    - intros [= <-]. f_equal. apply map_ext. intros s. rewrite B0. ring.
    - destruct (samples_columns st AL) as [<- _]. rewrite !map_map. intros H.
      rewrite (zip_op_map _ _ _ (fun s => FNum (ln (source (fst (fst s))) + ln (site (snd (fst s))))) _ _ H).
      { reflexivity. }
      intros s I. rewrite Forall_forall in TN. rewrite (TN s I). cbn. f_equal. ring.
  Qed.

  (** command fixed *)
  Lemma recover_fixed f : l_fix_sites o = None -> l_fix o = true -> 0 < l_R0 o ->
    geometric_mean (map (fun s => FNum (site s)) (stations st)) (l_R0 o) ->
    solve_at o st a bs rs g0 (Some (FNum bt)) false = Ok f ->
    f_g0 f = g0 /\ f_b f = FNum bt /\
    f_W f = map (fun e => FNum (source e)) (eventids st) /\
    f_R f = map (fun s => FNum (site s)) (stations st) /\ f_err f = FNum 0.
  Proof.
    intros FS FX R0 GM H. unfold solve_at in H. rewrite FX, CN in H.
    destruct (rhs o st g0 (Some (FNum bt)) false bs) as [z|] eqn:E; [|discriminate]. cbn [bind] in H.
    destruct (rhs_start _ _ _ E) as [TN EZ].
    match type of EZ with bind ?x _ = _ => destruct x as [z'|] eqn:EZ'; [|discriminate] end.
    cbn [bind] in EZ. injection EZ as <-. apply add_fixed in EZ'; auto.
    destruct (l_wls o z' a (weights o st z')) as [[c mse]|] eqn:W; [|discriminate]. cbn [bind] in H.
    destruct (recover_sites c mse z' true FS FX ltac:(discriminate) R0 GM TN) as (D & M & _).
    - rewrite EZ'. f_equal. apply map_ext. intros s. unfold target. rewrite FX. ring.
    - exact W.
    - rewrite D in H. injection H as <-. cbn. rewrite M.
      cbn. destruct (Rlt_dec 0 0); [lra|]. rewrite sqrt_0. auto.
  Qed.

  (** command source *)
  Lemma recover_source f params : l_fix_sites o = Some params -> l_fix o = true ->
    (forall s, In s (stations st) -> dget String.eqb params s = Some (FNum (site s))) ->
    solve_at o st a bs rs g0 (Some (FNum bt)) true = Ok f ->
    f_g0 f = g0 /\ f_b f = FNum bt /\
    f_W f = map (fun e => FNum (source e)) (eventids st) /\ f_err f = FNum 0.
  Proof.
    intros FS FX PA H. unfold solve_at in H. rewrite FX, CN in H.
    destruct (rhs o st g0 (Some (FNum bt)) true bs) as [z|] eqn:E; [|discriminate]. cbn [bind] in H.
    destruct (rhs_start _ _ _ E) as [TN EZ].
    match type of EZ with bind ?x _ = _ => destruct x as [z'|] eqn:EZ'; [|discriminate] end.
    cbn [bind] in EZ. apply add_fixed in EZ'; auto.
    destruct (build_sites o st AL params a bs rs FS FX BU) as (xs & F & EA & EB & NB).
    assert (EBS : bs = map (fun s => FNum (ln (site (snd (fst s))))) (samples st)).
    { rewrite EB. assert (G : Forall2 (fun x s => flog (snd x) = FNum (ln (site (snd (fst s))))) xs (samples st)).
      { refine (Forall2_impl_in _ _ _ _ _ F). intros x s _ IS RO. pose proof (sample_pair st s IS) as IP.
        destruct (event_index st _ IP) as [idx I].
        destruct (row_sites_spec st params _ _ _ I RO) as (row & _ & _ & V & _).
        rewrite (PA _ (in_station st s IS)) in V. injection V as <-. apply flog_num.
        apply SITE, in_station. exact IS. }
      clear - G. revert G. generalize (samples st).
      induction xs as [|x xs IH]; intros l G; inversion G; subst; cbn; [reflexivity|]. f_equal; auto. }
    rewrite EZ', EBS, map_map in EZ.
    apply (zip_op_map _ _ _ (fun s => FNum (ln (source (fst (fst s)))))) in EZ.
    2:{ intros s I. cbn. f_equal. ring. }
    assert (RW : exists rows, a = map (map FNum) rows /\
              Forall2 (fun row s => List.length row = Ne st /\
                exists idx, index_of (eventids st) (fst (fst s)) = Ok idx /\
                forall c, List.length c = Ne st -> dotr row c = nth idx c 0) rows (samples st)).
    { assert (G : Forall2 (fun x s => exists row, fst x = map FNum row /\ List.length row = Ne st /\
                exists idx, index_of (eventids st) (fst (fst s)) = Ok idx /\
                forall c, List.length c = Ne st -> dotr row c = nth idx c 0) xs (samples st)).
      { refine (Forall2_impl_in _ _ _ _ _ F). intros x s _ IS RO. pose proof (sample_pair st s IS) as IP.
        destruct (event_index st _ IP) as [idx I].
        destruct (row_sites_spec st params _ _ _ I RO) as (row & E1 & L & V & D). exists row. eauto 7. }
      rewrite EA. clear - G. revert G. generalize (samples st).
      induction xs as [|x xs IH]; intros ss G; inversion G as [|? s ? ss' H G']; subst.
      - exists []. split; [reflexivity|constructor].
      - destruct (IH _ G') as (rows & E2 & F). destruct H as (row & E1 & H). exists (row :: rows).
        cbn [map]. rewrite E1, E2. split; [reflexivity|]. constructor; assumption. }
    destruct RW as (rows & ER & G).
    destruct (l_wls o z a (weights o st z)) as [[c mse]|] eqn:W; [|discriminate]. cbn [bind] in H.
    assert (EZ2 : z = map FNum (map (fun s => ln (source (fst (fst s)))) (samples st))) by (now rewrite map_map).
    rewrite ER, EZ2 in W.
    assert (LL : List.length rows = List.length (samples st)) by exact (Forall2_len _ _ _ G).
    assert (WO := weights_ok (List.length (samples st)) z). rewrite EZ2 in WO.
    rewrite !map_length in WO. specialize (WO eq_refl bulk_le).
    set (cT := map (fun e => ln (source e)) (eventids st)).
    assert (HT : forall idx e, index_of (eventids st) e = Ok idx -> nth idx cT 0 = ln (source e)).
    { intros idx e I. apply index_of_spec in I. apply (map_nth_error (fun e => ln (source e))) in I.
      exact (nth_error_nth _ _ _ I). }
    destruct (lsq_exact (l_wls o) (Ne st) rows (map (fun s => ln (source (fst (fst s)))) (samples st))
      (weights o st (map FNum (map (fun s => ln (source (fst (fst s)))) (samples st)))) c mse cT LS)
      as (c' & EC & LC & EX & MS).
    - clear - G. revert G. generalize (samples st).
      induction rows as [|r rows IH]; intros l G; inversion G; subst; constructor; [tauto|eauto].
    - now rewrite map_length, LL.
    - rewrite LL. exact WO.
    - unfold cT. now rewrite map_length.
    - apply Forall2_map_r. refine (Forall2_impl_in _ _ _ _ _ G).
      intros row s _ IS (_ & idx & I & D). rewrite D by (unfold cT; now rewrite map_length). now apply HT.
    - exact W.
    - assert (CT : c' = cT).
      { apply (nth_ext _ _ 0 0); [rewrite LC; unfold cT; now rewrite map_length|].
        intros k KL. rewrite LC in KL. unfold Ne in KL.
        destruct (nth_error (eventids st) k) as [e|] eqn:EE; [|apply nth_error_None in EE; lia].
        assert (ND2 : NoDup (eventids st)) by apply (fromkeys_spec).
        pose proof (index_of_nodup _ ND2 _ _ EE) as IX. rewrite (HT _ _ IX).
        assert (IE : exists s, In (e, s) (pairs st)).
        { apply nth_error_In in EE. apply (proj2 (fromkeys_spec (map fst (pairs st))) e) in EE.
          apply in_map_iff in EE. destruct EE as ([ev s] & <- & IE). eauto. }
        destruct IE as (sta & IE). destruct (pair_has_sample st AL _ ecoda_nonempty IE) as (te & IS).
        apply Forall2_map_r_inv in EX.
        assert (Q : exists row, (exists idx, index_of (eventids st) e = Ok idx /\
                forall c, List.length c = Ne st -> dotr row c = nth idx c 0) /\ dotr row c' = ln (source e)).
        { clear - G EX IS. revert rows G EX IS. generalize (samples st).
          induction l as [|s0 l IH]; intros rows G EX IS; [destruct IS|].
          inversion G as [|row ? rows' ? G1 G2]; subst. inversion EX as [|? ? ? ? E1 E2]; subst.
          destruct IS as [->|IS]; [|exact (IH _ G2 E2 IS)].
          exists row. split; [exact (proj2 G1)|exact E1]. }
        destruct Q as (row & (idx' & IX' & D) & T). rewrite IX in IX'. injection IX' as <-.
        now rewrite <- (D c' LC). }
      unfold decode in H. injection H as <-. cbn. rewrite EC, MS, CT. unfold cT. rewrite !map_map.
      split; [reflexivity|]. split; [reflexivity|]. split.
      + apply map_ext_in. intros e I. cbn. now rewrite exp_ln by auto.
      + cbn. destruct (Rlt_dec 0 0); [lra|]. now rewrite sqrt_0.
  Qed.
End R.

(** ** C55, C56, C57 *)
Section C.
  Variable o : lopts.
  Variable st : wstate.

  Lemma solve_at_g0 a bs rs g0 bf fs f : solve_at o st a bs rs g0 bf fs = Ok f -> f_g0 f = g0.
  Proof.
    unfold solve_at. destruct (rhs _ _ _ _ _ _) as [z|]; [|discriminate]. cbn [bind].
    destruct (l_wls o z a _) as [[c mse]|]; [|discriminate]. cbn [bind].
    match goal with |- bind ?x _ = _ -> _ => destruct x as [[b err]|]; [|discriminate] end. cbn [bind].
    destruct (decode o st c fs rs). now intros [= <-].
  Qed.

  Lemma solve_at_err a bs rs g0 fs f : l_fix o = false -> solve_at o st a bs rs g0 None fs = Ok f ->
    (inside_open (l_b_bounds o) (f_b f) /\ inside_closed (l_g0_bounds o) g0 /\
       exists z c mse, l_wls o z a (weights o st z) = Ok (c, mse) /\ f_err f = fsqrt mse) \/
    f_err f = FPInf /\ ~ (inside_open (l_b_bounds o) (f_b f) /\ inside_closed (l_g0_bounds o) g0).
  Proof.
    intros FX. unfold solve_at. rewrite FX. destruct (rhs _ _ _ _ _ _) as [z|]; [|discriminate]. cbn [bind].
    destruct (l_wls o z a _) as [[c mse]|] eqn:W; [|discriminate]. cbn [bind].
    destruct c as [|c0 c]; [discriminate|]. set (b := last (c0 :: c) FNan). cbv zeta. cbn [bind].
    destruct (decode o st (c0 :: c) fs rs) as [w r].
    intros [= <-]. cbn [f_b f_err]. clearbody b.
    destruct (b_outside o b) eqn:B1; cbn [orb].
    - right. split; [reflexivity|]. intros [Q _]. apply b_outside_spec in Q. congruence.
    - destruct (g0_outside o g0) eqn:B2.
      + right. split; [reflexivity|]. intros [_ Q]. apply g0_outside_spec in Q. congruence.
      + left. split; [now apply b_outside_spec|]. split; [now apply g0_outside_spec|]. eauto 6.
  Qed.

  (** C56 *)
  Lemma misfit_outside a bs rs s g0 s' err : l_fix o = false ->
    lstsq_opt o st a bs rs s g0 = Ok (s', err) ->
    (~ inside_closed (l_g0_bounds o) g0 -> err = FPInf /\ s' = s) /\
    (err <> FPInf -> inside_closed (l_g0_bounds o) g0 /\
       exists f, solve_at o st a bs rs g0 None false = Ok f /\ f_err f = err /\
                 inside_open (l_b_bounds o) (f_b f)).
  Proof.
    intros FX. unfold lstsq_opt. destruct (g0_outside o g0) eqn:G.
    - intros [= <- <-]. split; [auto|congruence].
    - pose proof (proj1 (g0_outside_spec o g0) G) as IC.
      destruct (solve_at _ _ _ _ _ _ _ _) as [f|] eqn:S; [|discriminate]. cbn [bind].
      intros [= <- <-]. split; [tauto|]. intros NE. split; [exact IC|]. exists f.
      split; [reflexivity|]. split; [reflexivity|].
      destruct (solve_at_err _ _ _ _ _ _ FX S) as [(B & _)|[E _]]; [exact B|contradiction].
  Qed.

  Lemma misfit_same a bs rs s g0 s' err s2 s2' f : l_fix o = false ->
    lstsq_opt o st a bs rs s g0 = Ok (s', err) ->
    lstsq o st a bs rs s2 g0 None false = Ok (s2', f) -> f_err f = err.
  Proof.
    intros FX H1 H2. unfold lstsq in H2. destruct (solve_at _ _ _ _ _ _ _ _) as [f'|] eqn:S; [|discriminate].
    cbn [bind] in H2. injection H2 as <- <-. unfold lstsq_opt in H1. rewrite S in H1.
    destruct (g0_outside o g0) eqn:G.
    - injection H1 as <- <-. destruct (solve_at_err _ _ _ _ _ _ FX S) as [(_ & IC & _)|[E _]]; [|exact E].
      apply g0_outside_spec in IC. congruence.
    - cbn [bind] in H1. now injection H1.
  Qed.

  (** the optimum is inside of the bounds if some trial value is finite *)
  Lemma optimum_inside a bs rs s s1 x s2 ex y s3 ey : l_fix o = false ->
    lstsq_opt o st a bs rs s x = Ok (s1, ex) -> lstsq_opt o st a bs rs s2 y = Ok (s3, FNum ey) ->
    fleb ex (FNum ey) = true ->
    inside_closed (l_g0_bounds o) x /\
    exists f, solve_at o st a bs rs x None false = Ok f /\ f_err f = ex /\
              inside_open (l_b_bounds o) (f_b f).
  Proof.
    intros FX H1 H2 L. destruct (misfit_outside _ _ _ _ _ _ _ FX H1) as [_ M]. apply M.
    intros ->. cbn in L. discriminate.
  Qed.

  (** where the fit comes from *)
  Lemma choose_cases y : choose o st = Ok (Some y) -> exists a bs rs, build o st = Ok (a, bs, rs) /\
    ((l_fix o = true /\ exists g b s0, l_fix_params o = Some (Some g, Some b) /\
        lstsq o st a bs rs s0 g (Some b) (match l_fix_sites o with None => false | Some _ => true end) = Ok y) \/
     (l_fix o = false /\ exists s0 g, lstsq o st a bs rs s0 g None false = Ok y)).
  Proof.
    unfold choose. destruct (build o st) as [[[a bs] rs]|]; [|discriminate]. cbn [bind].
    intros H. exists a, bs, rs. split; [reflexivity|]. destruct (l_fix o).
    - left. split; [reflexivity|]. destruct (l_fix_params o) as [[[g|] [b|]]|]; try discriminate.
      destruct (lstsq o st a bs rs _ g (Some b) _) as [y'|] eqn:L; [|discriminate]. cbn [bind] in H.
      destruct (_ && _)%bool; [|discriminate]. injection H as <-. eauto 7.
    - right. split; [reflexivity|]. destruct (negb (l_optimize o)).
      + destruct (l_g0_bounds o) as [[g1 g2]|]; [|discriminate].
        destruct (lstsq o st a bs rs _ _ None false) as [y'|] eqn:L; [|discriminate]. cbn [bind] in H.
        injection H as <-. eauto.
      + destruct (minimize o st a bs rs _ _) as [[s g]|]; [|discriminate]. cbn [bind] in H.
        destruct (lstsq o st a bs rs s g None false) as [y'|] eqn:L; [|discriminate]. cbn [bind] in H.
        injection H as <-. eauto.
  Qed.

  (** C55 *)
  Lemma accepted_inside v0 r s : invert_band o st v0 = Ok (Some r, s) ->
    (forall b, fb_b r = Some b -> well_inside (l_b_bounds o) b) /\
    (forall g, fb_g0 r = Some g -> well_inside (l_g0_bounds o) g) /\
    (l_fix o = false -> exists b g, fb_b r = Some b /\ fb_g0 r = Some g) /\
    (l_fix o = true -> fb_b r = None /\ fb_g0 r = None /\ exists b g,
       l_fix_params o = Some (Some g, Some b) /\ well_inside (l_b_bounds o) b /\ well_inside (l_g0_bounds o) g) /\
    (positive_bounds (l_b_bounds o) -> positive_bounds (l_g0_bounds o) ->
       exists z a c mse, l_wls o z a (weights o st z) = Ok (c, mse) /\ fb_error r = fsqrt mse).
  Proof.
    unfold invert_band. destruct (pairs st); [discriminate|].
    destruct (choose o st) as [[[s0 f]|]|] eqn:CH; [| |]; cbn [bind]; try discriminate.
    destruct (near_bounds (l_b_bounds o) (f_b f)) eqn:N1; [discriminate|].
    destruct (near_bounds (l_g0_bounds o) (f_g0 f)) eqn:N2; [discriminate|]. cbn [orb].
    intros [= <- <-]. apply near_bounds_spec in N1. apply near_bounds_spec in N2.
    destruct (choose_cases _ CH) as (a & bs & rs & BU & [(FX & g & b & s1 & FP & L)|(FX & s1 & g & L)]).
    - unfold lstsq in L. destruct (solve_at _ _ _ _ _ _ _ _) as [f'|] eqn:S; [|discriminate]. cbn [bind] in L.
      injection L as <- <-. pose proof (solve_at_g0 _ _ _ _ _ _ _ S) as G0.
      unfold solve_at in S. rewrite FX in S. destruct (rhs _ _ _ _ _ _) as [z|]; [|discriminate]. cbn [bind] in S.
      destruct (l_wls o z a _) as [[c mse]|] eqn:W; [|discriminate]. cbn [bind] in S.
      destruct (l_coda_norm o); [discriminate|]. cbn [bind] in S.
      destruct (decode _ _ _ _ _) as [w r']. injection S as S.
      unfold arrange. cbn. rewrite FX. split; [discriminate|]. split; [discriminate|]. split; [discriminate|].
      split; [|intros _ _; exists z, a, c, mse; split; [exact W|now rewrite <- S]].
      intros _. split; [reflexivity|]. split; [reflexivity|]. exists b, g. split; [exact FP|].
      rewrite G0 in N2. rewrite <- S in N1. cbn in N1. auto.
    - unfold lstsq in L. destruct (solve_at _ _ _ _ _ _ _ _) as [f'|] eqn:S; [|discriminate]. cbn [bind] in L.
      injection L as <- <-. pose proof (solve_at_g0 _ _ _ _ _ _ _ S) as G0.
      unfold arrange. cbn. rewrite FX. split; [now intros b [= <-]|]. split; [now intros b [= <-]|].
      split; [eauto|]. split; [discriminate|]. intros P1 P2.
      destruct (solve_at_err _ _ _ _ _ _ FX S) as [(_ & _ & z & c & mse & W & E)|[_ NI]]; [eauto 6|].
      exfalso. apply NI. split.
      + intros lo hi B. destruct (N1 lo hi B) as (x & X & H). specialize (P1 lo hi B).
        exists x. split; [exact X|]. lra.
      + intros lo hi B. rewrite G0 in N2. destruct (N2 lo hi B) as (x & X & H). specialize (P2 lo hi B).
        exists x. split; [exact X|]. lra.
  Qed.

  Lemma accepted_iff v0 s f : choose o st = Ok (Some (s, f)) -> pairs st <> [] ->
    (exists r, invert_band o st v0 = Ok (Some r, s)) <->
    well_inside (l_b_bounds o) (f_b f) /\ well_inside (l_g0_bounds o) (f_g0 f).
  Proof.
    intros CH NE. unfold invert_band. destruct (pairs st); [contradiction|]. rewrite CH. cbn [bind].
    rewrite <- !near_bounds_spec. destruct (near_bounds _ _), (near_bounds _ _); cbn [orb];
    (split; [intros (r & H); try discriminate; auto|intros [? ?]; try discriminate; eauto]).
  Qed.

  (** *** Records *)
  Definition rec_ok (a : list (list pyf)) (bs rs : list pyf) (bf : option pyf) (fs : bool) (s : rstate) : Prop :=
    distinct_numbers (map f_g0 (r_record s)) /\
    Forall (fun f => solve_at o st a bs rs (f_g0 f) bf fs = Ok f) (r_record s).

  Lemma feqb_num x y : feqb x (FNum y) = true <-> x = FNum y.
  Proof.
    unfold feqb. destruct x as [| | |r]; cbn; try (split; discriminate).
    rewrite andb_true_iff, !negb_true_iff, !rltb_false. split.
    - intros [? ?]. f_equal. lra.
    - intros [= ->]. lra.
  Qed.

  Lemma distinct_app l x : distinct_numbers l -> (forall r, x = FNum r -> ~ In (FNum r) l) ->
    distinct_numbers (l ++ [x]).
  Proof.
    intros D N i j r Hi Hj.
    assert (K : forall k, nth_error (l ++ [x]) k = Some (FNum r) ->
              (k < List.length l)%nat /\ nth_error l k = Some (FNum r) \/ k = List.length l /\ x = FNum r).
    { intros k H. destruct (Nat.lt_ge_cases k (List.length l)) as [C|C].
      - left. rewrite nth_error_app1 in H by exact C. auto.
      - right. rewrite nth_error_app2 in H by exact C. destruct (k - List.length l)%nat as [|m] eqn:E.
        + cbn in H. injection H as ->. split; [lia|reflexivity].
        + cbn in H. destruct m; discriminate. }
    destruct (K i Hi) as [[_ H1]|[-> H1]]; destruct (K j Hj) as [[_ H2]|[-> H2]]; auto.
    - exact (D i j r H1 H2).
    - exfalso. apply (N r H2). now apply nth_error_In in H1.
    - exfalso. apply (N r H1). now apply nth_error_In in H2.
  Qed.

  Lemma add_record_ok a bs rs bf fs s f opt :
    rec_ok a bs rs bf fs s -> solve_at o st a bs rs (f_g0 f) bf fs = Ok f ->
    rec_ok a bs rs bf fs (add_record o s f opt).
  Proof.
    intros [D F] S. unfold add_record.
    set (s1 := if (l_plot_optimization o && opt)%bool then _ else s).
    assert (E : r_record s1 = r_record s) by (subst s1; destruct (_ && _)%bool; reflexivity).
    destruct (_ && _ && _)%bool eqn:C; unfold rec_ok; cbn [r_record]; rewrite ?E; [|auto].
    apply andb_true_iff in C. destruct C as [C _]. apply andb_true_iff in C. destruct C as [_ C].
    rewrite negb_true_iff, E in C. split.
    - rewrite map_app. cbn [map]. apply distinct_app; [exact D|]. intros r R I. apply in_map_iff in I.
      destruct I as (f' & R' & I). assert (Q : existsb (fun x => feqb (f_g0 x) (f_g0 f)) (r_record s) = true).
      { apply existsb_exists. exists f'. split; [exact I|]. rewrite R', R. now apply feqb_num. }
      congruence.
    - apply Forall_app. split; [exact F|]. constructor; [exact S|constructor].
  Qed.

  Lemma add_record_length s f opt : (Z.of_nat (List.length (r_record s)) <= Z.max 0 (l_num o - 1))%Z ->
    (Z.of_nat (List.length (r_record (add_record o s f opt))) <=
       if opt then Z.max 0 (l_num o - 1) else Z.max 1 (l_num o))%Z.
  Proof.
    intros L. unfold add_record.
    set (s1 := if (l_plot_optimization o && opt)%bool then _ else s).
    assert (E : r_record s1 = r_record s) by (subst s1; destruct (_ && _)%bool; reflexivity).
    destruct (_ && _ && _)%bool eqn:C; cbn [r_record]; rewrite ?E.
    - rewrite app_length. cbn [List.length]. apply andb_true_iff in C. destruct C as [_ C]. rewrite E in C.
      destruct opt; [|lia]. cbn [negb] in C. rewrite orb_false_r in C. apply Z.ltb_lt in C. lia.
    - destruct opt; lia.
  Qed.

  Lemma add_record_g0 s f : r_g0 (add_record o s f true) =
    if l_plot_optimization o then r_g0 s ++ [(f_err f, f_g0 f)] else r_g0 s.
  Proof.
    unfold add_record. destruct (l_plot_optimization o); cbn [andb]; [|reflexivity].
    destruct (_ && _)%bool; reflexivity.
  Qed.

  Lemma add_record_final_g0 s f : r_g0 (add_record o s f false) = r_g0 s.
  Proof.
    unfold add_record. rewrite andb_false_r.
    destruct (_ && _ && _)%bool; reflexivity.
  Qed.

  Lemma add_record_has s f r : l_plot_optimization o = true -> f_g0 f = FNum r ->
    In (FNum r) (map f_g0 (r_record (add_record o s f false))).
  Proof.
    intros P G. unfold add_record. rewrite P. cbn [andb negb].
    rewrite orb_true_r, andb_true_r.
    destruct (existsb _ (r_record s)) eqn:E; cbn [negb r_record].
    - apply existsb_exists in E. destruct E as (x & I & Q). rewrite G in Q. apply feqb_num in Q.
      rewrite <- Q. now apply in_map.
    - rewrite map_app. apply in_or_app. right. left. exact G.
  Qed.

  Definition misfit (a : list (list pyf)) (bs rs : list pyf) (x y : pyf) : Prop :=
    exists s s', lstsq_opt o st a bs rs s x = Ok (s', y).

  Lemma minimize_records a bs rs p : forall s s' x,
    minimize o st a bs rs p s = Ok (s', x) ->
    rec_ok a bs rs None false s -> (Z.of_nat (List.length (r_record s)) <= Z.max 0 (l_num o - 1))%Z ->
    rec_ok a bs rs None false s' /\ (Z.of_nat (List.length (r_record s')) <= Z.max 0 (l_num o - 1))%Z /\
    exists l l', trials (misfit a bs rs) p l x /\
      selected (fun t => inside_closed (l_g0_bounds o) (snd t)) l l' /\
      (l_plot_optimization o = true -> r_g0 s' = r_g0 s ++ l').
  Proof.
    induction p as [x k IH|x|e]; intros s s' z H OK L; cbn [minimize] in H.
    - destruct (lstsq_opt o st a bs rs s x) as [[s1 err]|] eqn:Q; [|discriminate]. cbn [bind] in H.
      assert (M : misfit a bs rs x err) by (exists s, s1; exact Q).
      unfold lstsq_opt in Q. destruct (g0_outside o x) eqn:G.
      + injection Q as <- <-. destruct (IH _ _ _ _ H OK L) as (A & B & l & l' & T & S & E).
        split; [exact A|]. split; [exact B|]. exists ((FPInf, x) :: l), l'. split; [now constructor|].
        split; [|exact E]. apply sel_no; [|exact S]. cbn. rewrite <- g0_outside_spec. congruence.
      + destruct (solve_at _ _ _ _ _ _ _ _) as [f|] eqn:S0; [|discriminate]. cbn [bind] in Q.
        injection Q as <- <-. pose proof (solve_at_g0 _ _ _ _ _ _ _ S0) as G0.
        destruct (IH _ _ _ _ H) as (A & B & l & l' & T & S & E).
        * apply add_record_ok; [exact OK|]. now rewrite G0.
        * pose proof (add_record_length s f true L) as Q. exact Q.
        * split; [exact A|]. split; [exact B|]. exists ((f_err f, x) :: l), ((f_err f, x) :: l').
          split; [now constructor|]. split.
          -- apply sel_yes; [|exact S]. cbn. now apply g0_outside_spec.
          -- intros P. rewrite (E P), add_record_g0, P, G0, <- app_assoc. reflexivity.
    - injection H as <- <-. split; [exact OK|]. split; [exact L|]. exists [], [].
      split; [constructor|]. split; [constructor|]. intros _. now rewrite app_nil_r.
    - discriminate.
  Qed.

  (** C57 *)
  Lemma records s f : choose o st = Ok (Some (s, f)) ->
    (Z.of_nat (List.length (r_record s)) <= Z.max 1 (l_num o))%Z /\
    distinct_numbers (map f_g0 (r_record s)) /\
    (forall r, l_plot_optimization o = true -> f_g0 f = FNum r -> In (FNum r) (map f_g0 (r_record s))) /\
    exists a bs rs, build o st = Ok (a, bs, rs) /\
      (l_fix o = false -> Forall (fun f => solve_at o st a bs rs (f_g0 f) None false = Ok f) (r_record s)) /\
      (l_fix o = false -> l_optimize o = true -> l_plot_optimization o = true ->
         exists l, trials (misfit a bs rs) (l_optim o) l (f_g0 f) /\
           selected (fun t => inside_closed (l_g0_bounds o) (snd t)) l (r_g0 s)).
  Proof.
    unfold choose. destruct (build o st) as [[[a bs] rs]|]; [|discriminate]. cbn [bind].
    set (s0 := {| r_record := []; r_g0 := [] |}).
    assert (OK0 : forall bf fs, rec_ok a bs rs bf fs s0).
    { intros bf fs. split; [intros [|i] j x; cbn; discriminate|constructor]. }
    assert (L0 : (Z.of_nat (List.length (r_record s0)) <= Z.max 0 (l_num o - 1))%Z) by (cbn; lia).
    assert (K : forall s1 g bf fs, rec_ok a bs rs bf fs s1 ->
              (Z.of_nat (List.length (r_record s1)) <= Z.max 0 (l_num o - 1))%Z ->
              lstsq o st a bs rs s1 g bf fs = Ok (s, f) ->
              rec_ok a bs rs bf fs s /\ (Z.of_nat (List.length (r_record s)) <= Z.max 1 (l_num o))%Z /\
              (forall r, l_plot_optimization o = true -> f_g0 f = FNum r -> In (FNum r) (map f_g0 (r_record s))) /\
              f_g0 f = g /\ r_g0 s = r_g0 s1).
    { intros s1 g bf fs OK L Q. unfold lstsq in Q. destruct (solve_at _ _ _ _ _ _ _ _) as [f'|] eqn:S; [|discriminate].
      cbn [bind] in Q. injection Q as <- <-. pose proof (solve_at_g0 _ _ _ _ _ _ _ S) as G0.
      split; [apply add_record_ok; [exact OK|now rewrite G0]|].
      split; [exact (add_record_length s1 f' false L)|].
      split; [intros r P G; now apply add_record_has|]. split; [exact G0|]. apply add_record_final_g0. }
    destruct (l_fix o) eqn:FX.
    - destruct (l_fix_params o) as [[[g|] [b|]]|]; try discriminate.
      destruct (lstsq o st a bs rs _ g (Some b) _) as [[s1 f1]|] eqn:L; [|discriminate]. cbn [bind].
      destruct (_ && _)%bool; [|discriminate]. intros H. injection H as -> ->.
      destruct (K _ _ _ _ (OK0 _ _) L0 L) as ((D & F) & LE & HAS & _).
      split; [exact LE|]. split; [exact D|]. split; [exact HAS|]. exists a, bs, rs.
      split; [reflexivity|]. split; discriminate.
    - destruct (l_optimize o) eqn:OP; cbn [negb].
      + destruct (minimize o st a bs rs (l_optim o) s0) as [[s1 g]|] eqn:M; [|discriminate]. cbn [bind].
        destruct (lstsq o st a bs rs s1 g None false) as [[s2 f2]|] eqn:L; [|discriminate]. cbn [bind].
        intros H. injection H as -> ->.
        destruct (minimize_records _ _ _ _ _ _ _ M (OK0 _ _) L0) as (OK1 & L1 & l & l' & T & S & E).
        destruct (K _ _ _ _ OK1 L1 L) as ((D & F) & LE & HAS & G & RG).
        split; [exact LE|]. split; [exact D|]. split; [exact HAS|]. exists a, bs, rs.
        split; [reflexivity|]. split; [auto|]. intros _ _ P. exists l. rewrite G. split; [exact T|].
        rewrite RG, (E P). exact S.
      + destruct (l_g0_bounds o) as [[g1 g2]|]; [|discriminate].
        destruct (lstsq o st a bs rs _ _ None false) as [[s2 f2]|] eqn:L; [|discriminate]. cbn [bind].
        intros H. injection H as -> ->.
        destruct (K _ _ _ _ (OK0 _ _) L0 L) as ((D & F) & LE & HAS & G & RG).
        split; [exact LE|]. split; [exact D|]. split; [exact HAS|]. exists a, bs, rs.
        split; [reflexivity|]. split; [auto|]. discriminate.
  Qed.
End C.
