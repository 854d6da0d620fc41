(** Runs of the inversion in a band with a solver that knows some solutions. *)
From Coq Require Import String List Bool Reals Lra Lia ZArith Arith ClassicalDescription.
From Verif Require Import Base Pyf PyfOps FbModel LsqfbModel LsqfbSpec LsqfbProof LsqfbProof2 LsqfbProof3 LsqfbProof4 LsqfbProof5 LsqfbEx.
Import ListNotations.
Open Scope string_scope.
Open Scope list_scope.
Open Scope R_scope.

(** the first candidate that solves the system *)
Fixpoint wls_list (cands : list (list R)) (z : list pyf) (a : list (list pyf)) (ws : option (list R)) : res (list pyf * pyf) :=
  match cands with
  | [] => Err ValueError
  | c :: cands => match wls_ex c z a ws with Ok x => Ok x | Err _ => wls_list cands z a ws end
  end.

Lemma wls_list_least cands : least_squares (wls_list cands).
Proof.
  induction cands as [|c cands IH]; intros n rows b ws x mse LR LB H; cbn [wls_list] in H; [discriminate|].
  destruct (wls_ex c (map FNum b) (map (map FNum) rows) ws) as [y|] eqn:E.
  - injection H as ->. exact (wls_ex_least c n rows b ws x mse LR LB E).
  - exact (IH n rows b ws x mse LR LB H).
Qed.

Lemma wls_list_ok cands c z a ws : In c cands -> solved c z a ws ->
  exists c', wls_list cands z a ws = Ok (map FNum c', FNum 0) /\ List.length c' = List.length c.
Proof.
  intros I S. induction cands as [|d cands IH]; [contradiction|]. cbn [wls_list].
  destruct (wls_ex d z a ws) as [y|] eqn:E.
  - unfold wls_ex in E. destruct (excluded_middle_informative _) as [(rows & b & E1 & E2 & NE & L & _)|]; [|discriminate].
    injection E as <-. exists d. split; [reflexivity|].
    destruct S as (rows' & b' & E1' & _ & _ & L' & _). rewrite E1 in E1'. apply FNum_inj2 in E1'. subst rows'.
    destruct rows; [contradiction|]. inversion L; subst. inversion L'; subst. congruence.
  - destruct I as [-> |I]; [rewrite (wls_ex_ok _ _ _ _ S) in E; discriminate|]. auto.
Qed.

Section S.
  Variable o : lopts.
  Variable st : wstate.
  Variables (g0 : pyf) (a : list (list pyf)) (bs rs : list pyf) (gc : list (list pyf)) (gb : list pyf).
  Variables (site source : string -> R) (bt : R) (cands : list (list R)).
  Hypothesis AL : aligned st.
  Hypothesis WP : good_weights o st.
  Hypothesis BU : build o st = Ok (a, bs, rs).
  Hypothesis GR : greens o st g0 (pairs st) (w_ecoda st) (w_tcoda st) = Ok (gc, gb).
  Hypothesis SY : Forall2 (synthetic site source bt) (samples st) (concat gc ++ gb).
  Hypothesis SITE : forall s, In s (stations st) -> 0 < site s.
  Hypothesis SOURCE : forall e, In e (eventids st) -> 0 < source e.
  Hypothesis CN : l_coda_norm o = false.
  Hypothesis WL : l_wls o = wls_list cands.

  Lemma solve_sites bf : l_fix_sites o = None ->
    (if l_fix o then bf = Some (FNum bt) else bf = None) ->
    In (truth o st site source bt) cands -> exists f, solve_at o st a bs rs g0 bf false = Ok f.
  Proof.
    intros FS FB IC. destruct (rhs_total o st g0 bs gc gb site source bt AL GR SY bf false ltac:(discriminate)) as (z & RH).
    destruct (rhs_start o st g0 bs gc gb site source bt AL GR SY SITE SOURCE _ _ _ RH) as [TN EZ].
    assert (Z : z = map FNum (map (target o site source bt) (samples st))).
    { match type of EZ with bind ?x _ = _ => destruct x as [z'|] eqn:EZ'; [|discriminate] end.
      cbn [bind] in EZ. injection EZ as <-. unfold target. destruct (l_fix o).
      - subst bf. rewrite (add_fixed st site source bt AL _ _ eq_refl TN EZ'). f_equal. apply map_ext.
        intros s. ring.
      - subst bf. cbn [nonzero] in EZ'. now injection EZ' as <-. }
    destruct (rows_of o st AL a bs rs CN FS TN BU) as (rows & EA & G).
    destruct (good_lengths o st rows G) as [LR LL].
    assert (SO : solved (truth o st site source bt) z a (weights o st z)).
    { exists rows, (map (target o site source bt) (samples st)). split; [exact EA|]. split; [exact Z|].
      split; [|split; [|split]].
      + intros Q. rewrite Q in LL. pose proof (samples_nonempty o st g0 gc gb AL GR). now destruct (samples st).
      + rewrite (truth_length o st AL site source bt SOURCE). exact LR.
      + exact (truth_exact o st AL site source bt SOURCE rows G).
      + exact (weights_positive o st WP z). }
    destruct (wls_list_ok cands _ z a _ IC SO) as (c & E & LC).
    unfold solve_at. rewrite RH. cbn [bind]. rewrite WL, E. cbn [bind]. rewrite CN. destruct (l_fix o) eqn:FX.
    + subst bf. cbn [bind]. destruct (decode _ _ _ _ _). eauto.
    + rewrite (truth_length o st AL site source bt SOURCE) in LC.
      destruct c as [|c0 c].
      { unfold width, fix01 in LC. rewrite FX in LC. cbn in LC. pose proof (Ns_pos st AL). lia. }
      cbn [map bind]. destruct (decode _ _ _ _ _). eauto.
  Qed.

  Lemma solve_source params : l_fix_sites o = Some params -> l_fix o = true ->
    (forall s, In s (stations st) -> dget String.eqb params s = Some (FNum (site s))) ->
    In (map (fun e => ln (source e)) (eventids st)) cands -> exists f, solve_at o st a bs rs g0 (Some (FNum bt)) true = Ok f.
  Proof.
    intros FS FX PA IC.
    destruct (build_sites o st AL params a bs rs FS FX BU) as (xs & F & EA & EB & NB).
    assert (EBS : bs = map (fun s => FNum (ln (site (snd (fst s))))) (samples st)).
    { rewrite EB. assert (G : Forall2 (fun x s => flog (snd x) = FNum (ln (site (snd (fst s))))) xs (samples st)).
      { refine (Forall2_impl_in _ _ _ _ _ F). intros x s _ IS RO. pose proof (sample_pair st s IS) as IP.
        destruct (event_index st _ IP) as [idx I].
        destruct (row_sites_spec st params _ _ _ I RO) as (row & _ & _ & V & _).
        rewrite (PA _ (in_station st s IS)) in V. injection V as <-. apply flog_num.
        apply SITE, in_station. exact IS. }
      clear - G. revert G. generalize (samples st).
      induction xs as [|x xs IH]; intros l G; inversion G; subst; cbn; [reflexivity|]. f_equal; auto. }
    destruct (rhs_total o st g0 bs gc gb site source bt AL GR SY (Some (FNum bt)) true) as (z & RH).
    { intros _. now rewrite EBS, map_length. }
    destruct (rhs_start o st g0 bs gc gb site source bt AL GR SY SITE SOURCE _ _ _ RH) as [TN EZ].
    match type of EZ with bind ?x _ = _ => destruct x as [z'|] eqn:EZ'; [|discriminate] end.
    cbn [bind] in EZ. apply (add_fixed st site source bt AL _ _ eq_refl TN) in EZ'.
    rewrite EZ', EBS, map_map in EZ.
    apply (zip_op_map _ _ _ (fun s => FNum (ln (source (fst (fst s)))))) in EZ.
    2:{ intros s I. cbn. f_equal. ring. }
    set (cT := map (fun e => ln (source e)) (eventids st)) in *.
    assert (LT : List.length cT = Ne st) by (unfold cT; rewrite map_length; reflexivity).
    assert (SO : solved cT z a (weights o st z)).
    { assert (G : Forall2 (fun x s => exists row, fst x = map FNum row /\ List.length row = Ne st /\ dotr row cT = ln (source (fst (fst s)))) xs (samples st)).
      { refine (Forall2_impl_in _ _ _ _ _ F). intros x s _ IS RO. pose proof (sample_pair st s IS) as IP.
        destruct (event_index st _ IP) as [idx I].
        destruct (row_sites_spec st params _ _ _ I RO) as (row & E1 & L & V & D). exists row. split; [exact E1|]. split; [exact L|].
        rewrite (D cT LT). apply index_of_spec in I. apply (map_nth_error (fun e => ln (source e))) in I. fold cT in I.
        apply nth_error_nth. exact I. }
      assert (R : exists rows, a = map (map FNum) rows /\ Forall (fun row => List.length row = List.length cT) rows /\
                  Forall2 (fun r y => dotr r cT = y) rows (map (fun s => ln (source (fst (fst s)))) (samples st))).
      { rewrite EA, LT. clear - G. revert G. generalize (samples st).
        induction xs as [|x xs IH]; intros ss G; inversion G as [|? s ? ss' H G']; subst.
        - exists []. split; [reflexivity|]. split; constructor.
        - destruct (IH _ G') as (rows & E2 & F1 & F2). destruct H as (row & E1 & H1 & H2). exists (row :: rows).
          cbn [map]. rewrite E1, E2. split; [reflexivity|]. split; constructor; assumption. }
      destruct R as (rows & ER & F1 & F2). exists rows, (map (fun s => ln (source (fst (fst s)))) (samples st)).
      split; [exact ER|]. split; [rewrite EZ, map_map; reflexivity|]. split; [|split; [exact F1|split; [exact F2|exact (weights_positive o st WP z)]]].
      intros Q. subst rows. inversion F2 as [Q|]. pose proof (samples_nonempty o st g0 gc gb AL GR). now destruct (samples st). }
    destruct (wls_list_ok cands _ z a _ IC SO) as (c & E & LC).
    unfold solve_at. rewrite RH. cbn [bind]. rewrite WL, E. cbn [bind]. rewrite CN, FX. cbn [bind].
    destruct (decode _ _ _ _ _). eauto.
  Qed.
End S.

Section Run.
  Variable o : lopts.
  Variable st : wstate.
  Variables (a : list (list pyf)) (bs rs : list pyf).
  Variables (site source : string -> R) (bt : R) (cands : list (list R)) (lo hi : R) (gc : list (list pyf)) (gb : list pyf).
  Hypothesis AL : aligned st.
  Hypothesis WP : good_weights o st.
  Hypothesis BU : build o st = Ok (a, bs, rs).
  Let g := FNum ((lo + hi) / 2).
  Hypothesis GR : greens o st g (pairs st) (w_ecoda st) (w_tcoda st) = Ok (gc, gb).
  Hypothesis SY : Forall2 (synthetic site source bt) (samples st) (concat gc ++ gb).
  Hypothesis SITE : positive_on (map snd (pairs st)) site.
  Hypothesis SOURCE : positive_on (map fst (pairs st)) source.
  Hypothesis CN : l_coda_norm o = false.
  Hypothesis WL : l_wls o = wls_list cands.
  Hypothesis NB : well_inside (l_b_bounds o) (FNum bt).
  Hypothesis NG : well_inside (l_g0_bounds o) g.
  Hypothesis R0 : 0 < l_R0 o.

  Lemma ends f s v : choose o st = Ok (Some (s, f)) -> f_g0 f = g -> f_b f = FNum bt ->
    invert_band o st v = Ok (Some (arrange o st f v), s).
  Proof.
    intros C G B. unfold invert_band. destruct AL as (NP & _). destruct (pairs st); [contradiction|]. rewrite C. cbn [bind].
    rewrite G, B, (proj2 (near_bounds_spec _ _) NB), (proj2 (near_bounds_spec _ _) NG). reflexivity.
  Qed.

  Lemma run_go v : l_fix_sites o = None -> l_fix o = false -> l_optimize o = false -> l_g0_bounds o = Some (lo, hi) ->
    In (truth o st site source bt) cands -> one_network st -> two_times st -> mean_site st site (l_R0 o) ->
    exists r s, invert_band o st v = Ok (Some r, s) /\ fb_g0 r = Some g.
  Proof.
    intros FS FX OP GB IC ON TT MS.
    assert (SP : forall s, In s (stations st) -> 0 < site s) by (intros s I; exact (site_pos st site SITE _ I)).
    assert (EP : forall s, In s (eventids st) -> 0 < source s) by (intros s I; exact (source_pos st source SOURCE _ I)).
    destruct (solve_sites o st g a bs rs gc gb site source bt cands AL WP BU GR SY SP EP CN WL None FS ltac:(now rewrite FX) IC) as (f & S).
    destruct (recover_free o st g a bs rs gc gb site source bt AL ltac:(rewrite WL; apply wls_list_least) WP BU GR SY SP EP CN
      (fun _ => network_stations st ON) f FS FX TT R0 (MS _ (fromkeys_spec _)) S) as (E1 & E2 & _).
    assert (C : exists s, choose o st = Ok (Some (s, f))).
    { unfold choose. rewrite BU. cbn [bind]. rewrite FX, OP, GB. cbn [negb]. unfold lstsq. fold g. rewrite S. cbn [bind]. eauto. }
    destruct C as (s & C). exists (arrange o st f v), s. split; [exact (ends f s v C E1 E2)|]. unfold arrange. cbn. now rewrite FX, E1.
  Qed.

  Lemma fixed_choose f : l_fix o = true -> l_fix_params o = Some (Some g, Some (FNum bt)) ->
    solve_at o st a bs rs g (Some (FNum bt)) (match l_fix_sites o with None => false | Some _ => true end) = Ok f ->
    f_g0 f = g -> f_b f = FNum bt -> exists s, choose o st = Ok (Some (s, f)).
  Proof.
    intros FX FP S E1 E2. unfold choose. rewrite BU. cbn [bind]. rewrite FX, FP. unfold lstsq. rewrite S. cbn [bind snd].
    rewrite E1, E2. unfold g. rewrite !(proj2 (feqb_num _ _) eq_refl). cbn [andb]. eauto.
  Qed.

  Lemma run_fixed v : l_fix_sites o = None -> l_fix o = true -> l_fix_params o = Some (Some g, Some (FNum bt)) ->
    In (truth o st site source bt) cands -> one_network st -> mean_site st site (l_R0 o) ->
    exists r s, invert_band o st v = Ok (Some r, s).
  Proof.
    intros FS FX FP IC ON MS.
    assert (SP : forall s, In s (stations st) -> 0 < site s) by (intros s I; exact (site_pos st site SITE _ I)).
    assert (EP : forall s, In s (eventids st) -> 0 < source s) by (intros s I; exact (source_pos st source SOURCE _ I)).
    destruct (solve_sites o st g a bs rs gc gb site source bt cands AL WP BU GR SY SP EP CN WL (Some (FNum bt)) FS ltac:(now rewrite FX) IC) as (f & S).
    destruct (recover_fixed o st g a bs rs gc gb site source bt AL ltac:(rewrite WL; apply wls_list_least) WP BU GR SY SP EP CN
      (fun _ => network_stations st ON) f FS FX R0 (MS _ (fromkeys_spec _)) S) as (E1 & E2 & _).
    destruct (fixed_choose f FX FP ltac:(rewrite FS; exact S) E1 E2) as (s & C). eexists _, s. exact (ends f s v C E1 E2).
  Qed.

  Lemma run_source v params : l_fix_sites o = Some params -> l_fix o = true -> l_fix_params o = Some (Some g, Some (FNum bt)) ->
    (forall s, In s (stations st) -> dget String.eqb params s = Some (FNum (site s))) ->
    In (map (fun e => ln (source e)) (eventids st)) cands ->
    exists r s, invert_band o st v = Ok (Some r, s).
  Proof.
    intros FS FX FP PA IC.
    assert (SP : forall s, In s (stations st) -> 0 < site s) by (intros s I; exact (site_pos st site SITE _ I)).
    assert (EP : forall s, In s (eventids st) -> 0 < source s) by (intros s I; exact (source_pos st source SOURCE _ I)).
    destruct (solve_source o st g a bs rs gc gb site source bt cands AL WP BU GR SY SP EP CN WL params FS FX PA IC) as (f & S).
    destruct (recover_source o st g a bs rs gc gb site source bt AL ltac:(rewrite WL; apply wls_list_least) WP BU GR SY SP EP CN
      f params FS FX PA S) as (E1 & E2 & _).
    destruct (fixed_choose f FX FP ltac:(rewrite FS; exact S) E1 E2) as (s & C). eexists _, s. exact (ends f s v C E1 E2).
  Qed.
End Run.
