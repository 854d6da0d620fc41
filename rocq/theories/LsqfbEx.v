(** Concrete cases for the theorems about the inversion in a band. *)
From Coq Require Import String List Bool Reals Lra Lia ZArith Arith ClassicalDescription.
From Verif Require Import Base Pyf PyfOps StatModel StatProof FbModel FbProof3 SiteProof LsqfbModel LsqfbSpec LsqfbProof LsqfbProof2 LsqfbProof3 LsqfbProof4 LsqfbProof5.
Import ListNotations.
Open Scope string_scope.
Open Scope list_scope.
Open Scope R_scope.

(** ** A solver that knows the solution *)
Definition solved (cand : list R) (z : list pyf) (a : list (list pyf)) (ws : option (list R)) : Prop :=
  exists rows b, a = map (map FNum) rows /\ z = map FNum b /\ rows <> [] /\
    Forall (fun row => List.length row = List.length cand) rows /\
    Forall2 (fun r y => dotr r cand = y) rows b /\
    match ws with None => True | Some w => Forall (fun w => 0 < w) w end.

Definition wls_ex (cand : list R) (z : list pyf) (a : list (list pyf)) (ws : option (list R))
    : res (list pyf * pyf) :=
  if excluded_middle_informative (solved cand z a ws) then Ok (map FNum cand, FNum 0) else Err ValueError.

Lemma FNum_inj l : forall m, map FNum l = map FNum m -> l = m.
Proof. induction l; intros [|y m] H; cbn in H; try discriminate; [reflexivity|]. injection H as -> H. f_equal; auto. Qed.
Lemma FNum_inj2 l : forall m, map (map FNum) l = map (map FNum) m -> l = m.
Proof.
  induction l; intros [|y m] H; cbn in H; try discriminate; [reflexivity|].
  injection H as H1 H. apply FNum_inj in H1. f_equal; auto.
Qed.

Lemma wls_ex_least cand : least_squares (wls_ex cand).
Proof.
  intros n rows b ws c mse LR LB H. unfold wls_ex in H.
  destruct (excluded_middle_informative _) as [(rows' & b' & E1 & E2 & NE & LC & EX & WP)|]; [|discriminate].
  injection H as <- <-. apply FNum_inj2 in E1. apply FNum_inj in E2. subst rows' b'.
  exists cand, 1. rewrite sse_exact by assumption. split; [reflexivity|]. split.
  - destruct rows; [contradiction|]. inversion LR; subst. inversion LC; subst. congruence.
  - split; [lra|]. split; [|f_equal; lra]. intros x _. apply sse_nonneg.
    destruct ws; [exact WP|]. apply Forall_forall. intros y I. apply repeat_spec in I. lra.
Qed.

Lemma wls_ex_ok cand z a ws : solved cand z a ws -> wls_ex cand z a ws = Ok (map FNum cand, FNum 0).
Proof. intros H. unfold wls_ex. destruct (excluded_middle_informative _); [reflexivity|contradiction]. Qed.

Lemma zip_op_total f x : forall y, List.length x = List.length y -> exists z, zip_op f x y = Ok z.
Proof.
  induction x as [|a x IH]; intros [|b y] L; try discriminate; [now exists []|].
  destruct (IH y) as (z & E); [now injection L|]. exists (f a b :: z). cbn. now rewrite E.
Qed.

Section S.
  Variable o : lopts.
  Variable st : wstate.
  Variables (g0 : pyf) (a : list (list pyf)) (bs rs : list pyf) (gc : list (list pyf)) (gb : list pyf).
  Variables (site source : string -> R) (bt : R).
  Hypothesis AL : aligned st.
  Hypothesis WP : good_weights o st.
  Hypothesis BU : build o st = Ok (a, bs, rs).
  Hypothesis GR : greens o st g0 (pairs st) (w_ecoda st) (w_tcoda st) = Ok (gc, gb).
  Hypothesis SY : Forall2 (synthetic site source bt) (samples st) (concat gc ++ gb).
  Hypothesis SITE : forall s, In s (stations st) -> 0 < site s.
  Hypothesis SOURCE : forall e, In e (eventids st) -> 0 < source e.
  Hypothesis CN : l_coda_norm o = false.

  Lemma rhs_total bf fs : (fs = true -> List.length bs = List.length (samples st)) ->
    exists z, rhs o st g0 bf fs bs = Ok z.
  Proof.
    intros LB. destruct (samples_columns st AL) as [ST SE].
    unfold rhs. rewrite GR. cbn [bind]. rewrite <- SE, <- ST.
    destruct (zip_op_total fsub (map flog (map senergy (samples st))) (map flog (concat gc ++ gb))) as (z & E).
    { rewrite !map_length. exact (Forall2_len _ _ _ SY). }
    rewrite E. cbn [bind]. apply zip_op_spec in E. destruct E as [L1 E].
    assert (LZ : List.length z = List.length (samples st)).
    { rewrite E, map_length, combine_length. rewrite !map_length in *. lia. }
    assert (Q : exists z1, match nonzero bf with
              | None => Ok z | Some b => zip_op fadd z (map (fmul b) (map stime (samples st))) end = Ok z1 /\
              List.length z1 = List.length (samples st)).
    { destruct (nonzero bf) as [b|]; [|eauto].
      destruct (zip_op_total fadd z (map (fmul b) (map stime (samples st)))) as (z1 & E1).
      { now rewrite !map_length. }
      exists z1. split; [exact E1|]. apply zip_op_spec in E1. destruct E1 as [L2 E1].
      rewrite E1, map_length, combine_length. rewrite !map_length in *. lia. }
    destruct Q as (z1 & E1 & L2). rewrite E1. cbn [bind]. destruct fs; [|eauto].
    apply zip_op_total. rewrite LB; auto.
  Qed.

  Lemma weights_positive z : match weights o st z with None => True | Some w => Forall (fun w => 0 < w) w end.
  Proof.
    unfold weights. destruct (l_bulk o) eqn:B; [|exact I]. destruct (WP B) as [P _]. apply Forall_app.
    split; [|exact P]. apply Forall_forall. intros y I. apply repeat_spec in I. lra.
  Qed.

  Lemma samples_nonempty : samples st <> [].
  Proof.
    intros Q. assert (IP : exists p, In p (pairs st)).
    { destruct AL as (NP & _). clear - NP. destruct (pairs st) as [|p ps]; [contradiction|]. exists p. now left. }
    destruct IP as (p & I). destruct (pair_has_sample st AL p (ecoda_nonempty o st g0 gc gb AL GR) I) as (te & IS).
    now rewrite Q in IS.
  Qed.

  Lemma solvable_sites bf : l_fix_sites o = None ->
    (if l_fix o then bf = Some (FNum bt) else bf = None) ->
    l_wls o = wls_ex (truth o st site source bt) -> exists f, solve_at o st a bs rs g0 bf false = Ok f.
  Proof.
    intros FS FB WL. destruct (rhs_total bf false ltac:(discriminate)) as (z & RH).
    destruct (rhs_start o st g0 bs gc gb site source bt AL GR SY SITE SOURCE _ _ _ RH) as [TN EZ].
    assert (Z : z = map FNum (map (target o site source bt) (samples st))).
    { match type of EZ with bind ?x _ = _ => destruct x as [z'|] eqn:EZ'; [|discriminate] end.
      cbn [bind] in EZ. injection EZ as <-. unfold target. destruct (l_fix o).
      - subst bf. rewrite (add_fixed st site source bt AL _ _ eq_refl TN EZ'). f_equal. apply map_ext.
        intros s. ring.
      - subst bf. cbn [nonzero] in EZ'. now injection EZ' as <-. }
    destruct (rows_of o st AL a bs rs CN FS TN BU) as (rows & EA & G).
    destruct (good_lengths o st rows G) as [LR LL].
    unfold solve_at. rewrite RH. cbn [bind]. rewrite WL, wls_ex_ok.
    - cbn [bind]. rewrite CN. destruct (l_fix o) eqn:FX.
      + subst bf. cbn [bind]. destruct (decode _ _ _ _ _). eauto.
      + assert (TL := truth_length o st AL site source bt SOURCE).
        destruct (truth o st site source bt) as [|c0 c] eqn:T.
        { unfold width, fix01 in TL. rewrite FX in TL. cbn in TL. pose proof (Ns_pos st AL). lia. }
        cbn [map bind]. destruct (decode _ _ _ _ _). eauto.
    - exists rows, (map (target o site source bt) (samples st)). split; [exact EA|]. split; [exact Z|].
      split; [|split; [|split]].
      + intros Q. rewrite Q in LL. pose proof samples_nonempty. now destruct (samples st).
      + rewrite (truth_length o st AL site source bt SOURCE). exact LR.
      + exact (truth_exact o st AL site source bt SOURCE rows G).
      + apply weights_positive.
  Qed.
End S.

(** ** Two events, two stations *)
Definition site_ex (s : string) : R := if String.eqb s "A" then 2 else 1 / 2.
Definition source_ex (e : string) : R := if String.eqb e "e1" then 3 else 5.
Definition bt_ex : R := 1 / 10.
Definition en_ex (e s : string) (t : R) : pyf := FNum (source_ex e * site_ex s * 1 * exp (- (bt_ex * t))).
Definition tr_ex (id : nat) (e s : string) : etrace :=
  {| uid := id; evid := e; sta := s; edata := []; estart := 0; esr := 1; edelta := 1;
     eotime := 0; esonset := 0; edist := 10; enoise := None |}.

Definition pairs_ex : list (string * string) := [("e1", "A"); ("e1", "B"); ("e2", "A")].
Definition st_ex : wstate :=
  {| w_energies := [tr_ex 1 "e1" "A"; tr_ex 2 "e1" "B"; tr_ex 3 "e2" "A"];
     w_distances := map (fun p => (p, 10)) pairs_ex;
     w_tcoda := [[1; 2]; [1; 2]; [1; 2]];
     w_tbulk := [FNum (1 / 2); FNum (1 / 2); FNum (1 / 2)];
     w_tbulk_window := map (fun p => (p, (0, 1))) pairs_ex;
     w_weights := [3; 3; 3];
     w_ebulk := map (fun p => en_ex (fst p) (snd p) (1 / 2)) pairs_ex;
     w_ecoda := map (fun p => [en_ex (fst p) (snd p) 1; en_ex (fst p) (snd p) 2]) pairs_ex |}.

(** a trial value inside of the bounds, one outside, then the result *)
Definition optim_ex : optim :=
  Ask (FNum (1 / 10)) (fun _ => Ask (FNum 5) (fun _ => Done (FNum (1 / 5)))).

Definition lo_ex (fix' : bool) (sites : option (list (string * pyf)))
    (wls : list pyf -> list (list pyf) -> option (list R) -> res (list pyf * pyf)) : lopts :=
  {| l_coda_norm := false; l_fix := fix'; l_fix_sites := sites;
     l_fix_params := Some (Some (FNum (1 / 5)), Some (FNum bt_ex));
     l_R0 := 1; l_b_bounds := Some (1 / 100, 10); l_g0_bounds := Some (1 / 1000, 1);
     l_bulk := true; l_optimize := true; l_plot_optimization := true; l_num := 2;
     l_gcoda := fun _ t _ => Ok (map (fun _ => FNum 1) t); l_gbulk := fun _ _ _ => Ok (FNum 1);
     l_wls := wls; l_optim := optim_ex |}.

Lemma pairs_st_ex : pairs st_ex = pairs_ex.
Proof. reflexivity. Qed.
Lemma stations_ex : stations st_ex = ["A"; "B"].
Proof. reflexivity. Qed.
Lemma eventids_ex : eventids st_ex = ["e1"; "e2"].
Proof. reflexivity. Qed.

Lemma aligned_ex : aligned st_ex.
Proof.
  unfold aligned. rewrite pairs_st_ex. split; [discriminate|]. split; [reflexivity|].
  split; [repeat (constructor; [reflexivity|]); constructor|]. split; [reflexivity|]. now right.
Qed.

Lemma weights_ex f s w : good_weights (lo_ex f s w) st_ex.
Proof. intros _. split; [repeat (constructor; [lra|]); constructor|reflexivity]. Qed.

Lemma positive_site_ex : positive_on (map snd (pairs st_ex)) site_ex.
Proof. intros x _. unfold site_ex. destruct (String.eqb x "A"); lra. Qed.
Lemma positive_source_ex : positive_on (map fst (pairs st_ex)) source_ex.
Proof. intros x _. unfold source_ex. destruct (String.eqb x "e1"); lra. Qed.

Lemma network_ex : one_network st_ex.
Proof.
  assert (K : connected pairs_ex "A" "B" /\ connected pairs_ex "B" "A").
  { split; (eapply (con_step _ "e1"); [apply con_refl| |]); cbn; auto. }
  intros s1 s2 I1 I2. rewrite pairs_st_ex in *. cbn in I1, I2.
  destruct I1 as [<-|[<-|[<-|[]]]]; destruct I2 as [<-|[<-|[<-|[]]]]; try apply con_refl; apply K.
Qed.

Lemma two_times_ex : two_times st_ex.
Proof.
  exists ("e1", "A"), 1, 2, (en_ex "e1" "A" 1), (en_ex "e1" "A" 2). split; [lra|].
  split; [left; reflexivity|right; left; reflexivity].
Qed.

Lemma mean_site_ex : mean_site st_ex site_ex 1.
Proof.
  intros l [ND IN]. rewrite pairs_st_ex in IN. cbn in IN.
  assert (H : l = ["A"; "B"] \/ l = ["B"; "A"]).
  { assert (L : (List.length l <= 2)%nat).
    { change 2%nat with (List.length ["A"; "B"]). apply NoDup_incl_length; [exact ND|].
      intros x I. apply IN in I. destruct I as [<-|[<-|[<-|[]]]]; cbn; auto. }
    assert (IA : In "A" l) by (apply IN; auto). assert (IB : In "B" l) by (apply IN; auto).
    destruct l as [|x [|y [|z l]]]; cbn in L; try lia.
    - destruct IA.
    - destruct IA as [->|[]]. destruct IB as [Q|[]]. discriminate.
    - destruct IA as [->|[->|[]]].
      + destruct IB as [Q|[->|[]]]; [discriminate|auto].
      + destruct IB as [->|[Q|[]]]; [auto|discriminate]. }
  assert (LN : ln (1 / 2) = - ln 2) by (replace (1 / 2) with (/ 2) by lra; apply ln_Rinv; lra).
  destruct H as [-> | ->].
  - exists [2; 1 / 2]. split; [reflexivity|]. split; [intros y [<-|[<-|[]]]; lra|]. split; [lra|].
    cbn [map fold_right List.length]. rewrite ln_1, LN. lra.
  - exists [1 / 2; 2]. split; [reflexivity|]. split; [intros y [<-|[<-|[]]]; lra|]. split; [lra|].
    cbn [map fold_right List.length]. rewrite ln_1, LN. lra.
Qed.

Lemma syn_ex e s t : synthetic site_ex source_ex bt_ex ((e, s), (FNum t, en_ex e s t)) (FNum 1).
Proof. exists t, (source_ex e * site_ex s * 1 * exp (- (bt_ex * t))), 1. split; [reflexivity|]. split; [reflexivity|]. split; [lra|reflexivity]. Qed.

Lemma synthetic_ex f s w g : synthetic_band (lo_ex f s w) st_ex g site_ex source_ex bt_ex.
Proof.
  split.
  - intros i p r t e gs HP _ HT HE G. rewrite pairs_st_ex in HP.
    change (Ok (map (fun _ => FNum 1) t) = Ok gs) in G. injection G as <-.
    destruct i as [|[|[|i]]]; cbn in HP, HT, HE; try discriminate;
      try (destruct i; discriminate);
      injection HP as <-; injection HT as <-; injection HE as <-; cbn [map combine];
      (constructor; [apply syn_ex|constructor; [apply syn_ex|constructor]]).
  - intros i p r w' t e g' HP _ _ HT HE G. rewrite pairs_st_ex in HP.
    change (Ok (FNum 1) = Ok g') in G. injection G as <-.
    destruct i as [|[|[|i]]]; cbn in HP, HT, HE; try discriminate;
      try (destruct i; discriminate);
      injection HP as <-; injection HT as <-; injection HE as <-; apply syn_ex.
Qed.

Lemma greens_ex f s w g : exists gc gb,
  greens (lo_ex f s w) st_ex g (pairs st_ex) (w_ecoda st_ex) (w_tcoda st_ex) = Ok (gc, gb) /\
  Forall2 (synthetic site_ex source_ex bt_ex) (samples st_ex) (concat gc ++ gb).
Proof.
  exists [[FNum 1; FNum 1]; [FNum 1; FNum 1]; [FNum 1; FNum 1]], [FNum 1; FNum 1; FNum 1].
  split; [reflexivity|]. repeat (constructor; [apply syn_ex|]). constructor.
Qed.

Lemma build_ex f w : exists a, build (lo_ex f None w) st_ex = Ok (a, [], []).
Proof. destruct f; eexists; reflexivity. Qed.

(** *** Command go *)
Definition go_wls := wls_ex (truth (lo_ex false None (fun _ _ _ => Err OtherError)) st_ex site_ex source_ex bt_ex).
Definition go_ex : lopts := lo_ex false None go_wls.

Lemma go_solve a g : build go_ex st_ex = Ok (a, [], []) -> exists f, solve_at go_ex st_ex a [] [] g None false = Ok f /\
  f_g0 f = g /\ f_b f = FNum bt_ex /\
  (inside_closed (Some (1 / 1000, 1)) g -> f_err f = FNum 0).
Proof.
  intros BU. destruct (greens_ex false None go_wls g) as (gc & gb & GR & SY). fold go_ex in GR.
  assert (SP : forall s, In s (stations st_ex) -> 0 < site_ex s) by (intros s I; apply (site_pos st_ex site_ex positive_site_ex _ I)).
  assert (WP : forall s, In s (eventids st_ex) -> 0 < source_ex s) by (intros s I; apply (source_pos st_ex source_ex positive_source_ex _ I)).
  destruct (solvable_sites go_ex st_ex g a [] [] gc gb site_ex source_ex bt_ex aligned_ex (weights_ex _ _ _)
    BU GR SY SP WP eq_refl None eq_refl eq_refl eq_refl) as (f & S).
  exists f. split; [exact S|].
  destruct (recover_free go_ex st_ex g a [] [] gc gb site_ex source_ex bt_ex aligned_ex (wls_ex_least _) (weights_ex _ _ _)
    BU GR SY SP WP eq_refl (fun _ => network_stations st_ex network_ex) f eq_refl eq_refl two_times_ex ltac:(cbn; lra)
    (mean_site_ex _ (fromkeys_spec _)) S) as (E1 & E2 & E3 & E4 & E5).
  split; [exact E1|]. split; [exact E2|]. apply E5.
  intros lo hi [= <- <-]. exists bt_ex. split; [reflexivity|]. unfold bt_ex. lra.
Qed.

Lemma go_run : exists r s, invert_band go_ex st_ex 3 = Ok (Some r, s) /\
  fb_g0 r = Some (FNum (1 / 5)) /\ fb_error r = FNum 0 /\
  map f_g0 (r_record s) = [FNum (1 / 10); FNum (1 / 5)] /\ r_g0 s = [(FNum 0, FNum (1 / 10))].
Proof.
  destruct (build_ex false go_wls) as (a & BU). fold go_ex in BU.
  destruct (go_solve a (FNum (1 / 10)) BU) as (f1 & S1 & G1 & B1 & E1).
  destruct (go_solve a (FNum (1 / 5)) BU) as (f2 & S2 & G2 & B2 & E2).
  assert (I1 : inside_closed (l_g0_bounds go_ex) (FNum (1 / 10))).
  { intros lo hi [= <- <-]. eexists; split; [reflexivity|]. lra. }
  assert (I2 : inside_closed (l_g0_bounds go_ex) (FNum (1 / 5))).
  { intros lo hi [= <- <-]. eexists; split; [reflexivity|]. lra. }
  assert (O5 : g0_outside go_ex (FNum 5) = true).
  { destruct (g0_outside go_ex (FNum 5)) eqn:Q; [reflexivity|]. apply g0_outside_spec in Q.
    destruct (Q _ _ eq_refl) as (x & [= <-] & ?). lra. }
  set (s1 := {| r_record := [f1]; r_g0 := [(FNum 0, FNum (1 / 10))] |}).
  assert (L1 : lstsq_opt go_ex st_ex a [] [] {| r_record := []; r_g0 := [] |} (FNum (1 / 10)) = Ok (s1, FNum 0)).
  { unfold lstsq_opt. rewrite (proj2 (g0_outside_spec _ _) I1), S1. cbn [bind].
    unfold add_record. cbn. rewrite G1, (E1 I1). reflexivity. }
  assert (L2 : lstsq_opt go_ex st_ex a [] [] s1 (FNum 5) = Ok (s1, FPInf)).
  { unfold lstsq_opt. now rewrite O5. }
  assert (L3 : lstsq go_ex st_ex a [] [] s1 (FNum (1 / 5)) None false =
            Ok ({| r_record := [f1; f2]; r_g0 := [(FNum 0, FNum (1 / 10))] |}, f2)).
  { unfold lstsq. rewrite S2. cbn [bind]. do 2 f_equal. unfold add_record. cbn. rewrite G1, G2.
    assert (Q : feqb (FNum (1 / 10)) (FNum (1 / 5)) = false).
    { destruct (feqb _ _) eqn:Q; [|reflexivity]. apply feqb_num in Q. injection Q as Q. lra. }
    rewrite Q. reflexivity. }
  assert (M : minimize go_ex st_ex a [] [] (l_optim go_ex) {| r_record := []; r_g0 := [] |} = Ok (s1, FNum (1 / 5))).
  { change (l_optim go_ex) with optim_ex. unfold optim_ex. cbn [minimize]. rewrite L1. cbn [bind]. rewrite L2. reflexivity. }
  exists (arrange go_ex st_ex f2 3), {| r_record := [f1; f2]; r_g0 := [(FNum 0, FNum (1 / 10))] |}.
  split.
  - unfold invert_band. rewrite pairs_st_ex. unfold pairs_ex. unfold choose. rewrite BU. cbn [bind].
    change (l_fix go_ex) with false. change (negb (l_optimize go_ex)) with false. cbv iota. rewrite M. cbn [bind].
    rewrite L3. cbn [bind]. rewrite B2, G2.
    assert (N1 : near_bounds (l_b_bounds go_ex) (FNum bt_ex) = false).
    { apply near_bounds_spec. intros lo hi [= <- <-]. eexists; split; [reflexivity|]. unfold bt_ex. lra. }
    assert (N2 : near_bounds (l_g0_bounds go_ex) (FNum (1 / 5)) = false).
    { apply near_bounds_spec. intros lo hi [= <- <-]. eexists; split; [reflexivity|]. lra. }
    rewrite N1, N2. reflexivity.
  - unfold arrange. cbn. rewrite G1, G2, (E2 I2). auto.
Qed.

(** *** Command fixed *)
Definition fixed_wls := wls_ex (truth (lo_ex true None (fun _ _ _ => Err OtherError)) st_ex site_ex source_ex bt_ex).
Definition fixed_ex : lopts := lo_ex true None fixed_wls.

Lemma fixed_run_of o a bs rs f : l_fix o = true ->
  l_fix_params o = Some (Some (FNum (1 / 5)), Some (FNum bt_ex)) ->
  l_b_bounds o = Some (1 / 100, 10) -> l_g0_bounds o = Some (1 / 1000, 1) ->
  build o st_ex = Ok (a, bs, rs) ->
  solve_at o st_ex a bs rs (FNum (1 / 5)) (Some (FNum bt_ex)) (match l_fix_sites o with None => false | Some _ => true end) = Ok f ->
  f_g0 f = FNum (1 / 5) -> f_b f = FNum bt_ex ->
  exists r s, invert_band o st_ex 3 = Ok (Some r, s).
Proof.
  intros FX FP BB GB BU S G B. unfold invert_band. rewrite pairs_st_ex. unfold pairs_ex.
  unfold choose. rewrite BU, FX, FP. cbn [bind]. unfold lstsq. rewrite S. cbn [bind snd]. rewrite G, B.
  rewrite !(proj2 (feqb_num _ _) eq_refl). cbn [andb bind]. rewrite G, B.
  assert (N1 : near_bounds (l_b_bounds o) (FNum bt_ex) = false).
  { apply near_bounds_spec. rewrite BB. intros lo hi [= <- <-]. eexists; split; [reflexivity|]. unfold bt_ex. lra. }
  assert (N2 : near_bounds (l_g0_bounds o) (FNum (1 / 5)) = false).
  { apply near_bounds_spec. rewrite GB. intros lo hi [= <- <-]. eexists; split; [reflexivity|]. lra. }
  rewrite N1, N2. eexists _, _. reflexivity.
Qed.

Lemma fixed_run : exists r s, invert_band fixed_ex st_ex 3 = Ok (Some r, s).
Proof.
  destruct (build_ex true fixed_wls) as (a & BU). fold fixed_ex in BU.
  destruct (greens_ex true None fixed_wls (FNum (1 / 5))) as (gc & gb & GR & SY). fold fixed_ex in GR.
  assert (SP : forall s, In s (stations st_ex) -> 0 < site_ex s) by (intros s I; apply (site_pos st_ex site_ex positive_site_ex _ I)).
  assert (WP : forall s, In s (eventids st_ex) -> 0 < source_ex s) by (intros s I; apply (source_pos st_ex source_ex positive_source_ex _ I)).
  destruct (solvable_sites fixed_ex st_ex _ a [] [] gc gb site_ex source_ex bt_ex aligned_ex (weights_ex _ _ _)
    BU GR SY SP WP eq_refl (Some (FNum bt_ex)) eq_refl eq_refl eq_refl) as (f & S).
  destruct (recover_fixed fixed_ex st_ex _ a [] [] gc gb site_ex source_ex bt_ex aligned_ex (wls_ex_least _) (weights_ex _ _ _)
    BU GR SY SP WP eq_refl (fun _ => network_stations st_ex network_ex) f eq_refl eq_refl ltac:(cbn; lra)
    (mean_site_ex _ (fromkeys_spec _)) S) as (E1 & E2 & _).
  exact (fixed_run_of fixed_ex a [] [] f eq_refl eq_refl eq_refl eq_refl BU S E1 E2).
Qed.

(** *** Command source *)
Definition params_ex : list (string * pyf) := [("B", FNum (1 / 2)); ("C", FNan); ("A", FNum 2)].
Definition source_wls := wls_ex [ln 3; ln 5].
Definition source_opts_ex : lopts := lo_ex true (Some params_ex) source_wls.

Lemma params_site_ex x : In x (map snd (pairs st_ex)) -> dget String.eqb params_ex x = Some (FNum (site_ex x)).
Proof. rewrite pairs_st_ex. cbn. intros [<-|[<-|[<-|[]]]]; reflexivity. Qed.

Lemma source_build : exists rs, build source_opts_ex st_ex =
  Ok ([[FNum 1; FNum 0]; [FNum 1; FNum 0]; [FNum 1; FNum 0]; [FNum 1; FNum 0]; [FNum 0; FNum 1]; [FNum 0; FNum 1];
       [FNum 1; FNum 0]; [FNum 1; FNum 0]; [FNum 0; FNum 1]],
      map FNum [ln 2; ln 2; ln (1 / 2); ln (1 / 2); ln 2; ln 2; ln 2; ln (1 / 2); ln 2], rs).
Proof.
  exists [FNum 2; FNum (1 / 2)].
  assert (F2 : flog (FNum 2) = FNum (ln 2)) by (apply flog_num; lra).
  assert (F3 : flog (FNum (1 / 2)) = FNum (ln (1 / 2))) by (apply flog_num; lra).
  unfold build. change (l_coda_norm source_opts_ex) with false. change (l_fix_sites source_opts_ex) with (Some params_ex).
  change (l_fix source_opts_ex) with true. cbv iota.
  assert (M : mapM (row_fix_sites st_ex params_ex) (seq 0 (List.length (block_lengths st_ex))) =
            Ok [([FNum 1; FNum 0], FNum 2); ([FNum 1; FNum 0], FNum (1 / 2)); ([FNum 0; FNum 1], FNum 2);
                ([FNum 1; FNum 0], FNum 2); ([FNum 1; FNum 0], FNum (1 / 2)); ([FNum 0; FNum 1], FNum 2)]) by reflexivity.
  rewrite M. cbn [bind map fst snd]. rewrite F2, F3. reflexivity.
Qed.

Lemma source_solve : exists a bs rs f, build source_opts_ex st_ex = Ok (a, bs, rs) /\
  solve_at source_opts_ex st_ex a bs rs (FNum (1 / 5)) (Some (FNum bt_ex)) true = Ok f.
Proof.
  destruct source_build as (rs & BU). eexists _, _, rs.
  destruct (greens_ex true (Some params_ex) source_wls (FNum (1 / 5))) as (gc & gb & GR & SY). fold source_opts_ex in GR.
  assert (SP : forall s, In s (stations st_ex) -> 0 < site_ex s) by (intros s I; apply (site_pos st_ex site_ex positive_site_ex _ I)).
  assert (WP : forall s, In s (eventids st_ex) -> 0 < source_ex s) by (intros s I; apply (source_pos st_ex source_ex positive_source_ex _ I)).
  set (bs := map FNum [ln 2; ln 2; ln (1 / 2); ln (1 / 2); ln 2; ln 2; ln 2; ln (1 / 2); ln 2]) in *.
  destruct (rhs_total source_opts_ex st_ex (FNum (1 / 5)) bs gc gb site_ex source_ex bt_ex aligned_ex GR SY
              (Some (FNum bt_ex)) true (fun _ => eq_refl)) as (z & RH).
  destruct (rhs_start source_opts_ex st_ex _ bs gc gb site_ex source_ex bt_ex aligned_ex GR SY SP WP _ _ _ RH) as [TN EZ].
  match type of EZ with bind ?x _ = _ => destruct x as [z'|] eqn:EZ'; [|discriminate] end.
  cbn [bind] in EZ. apply (add_fixed st_ex site_ex source_ex bt_ex aligned_ex _ _ eq_refl TN) in EZ'.
  assert (Z : z = map FNum [ln 3; ln 3; ln 3; ln 3; ln 5; ln 5; ln 3; ln 3; ln 5]).
  { rewrite EZ' in EZ. cbn in EZ. injection EZ as <-. unfold source_ex, site_ex. cbn. repeat f_equal; ring. }
  unfold solve_at. rewrite RH. cbn [bind]. change (l_wls source_opts_ex) with source_wls. unfold source_wls.
  rewrite wls_ex_ok.
  - eexists. split; [exact BU|]. cbn [bind]. reflexivity.
  - exists [[1; 0]; [1; 0]; [1; 0]; [1; 0]; [0; 1]; [0; 1]; [1; 0]; [1; 0]; [0; 1]],
      [ln 3; ln 3; ln 3; ln 3; ln 5; ln 5; ln 3; ln 3; ln 5].
    split; [reflexivity|]. split; [exact Z|]. split; [discriminate|].
    split; [repeat (constructor; [reflexivity|]); constructor|].
    split; [repeat (constructor; [cbn; ring|]); constructor|].
    exact (weights_positive source_opts_ex st_ex (weights_ex _ _ _) z).
Qed.

Lemma source_run : exists r s, invert_band source_opts_ex st_ex 3 = Ok (Some r, s).
Proof.
  destruct source_solve as (a & bs & rs & f & BU & S).
  apply (fixed_run_of source_opts_ex a bs rs f eq_refl eq_refl eq_refl eq_refl BU S).
  - exact (solve_at_g0 _ _ _ _ _ _ _ _ _ S).
  - unfold solve_at in S. destruct (rhs _ _ _ _ _ _); [|discriminate]. cbn [bind] in S.
    destruct (l_wls _ _ _ _) as [[c mse]|]; [|discriminate]. cbn in S. now injection S as <-.
Qed.

(** ** Negative bounds *)

(** one pair, energy exp(10.05 t); the bounds of b are -10 and 10 *)
Definition bt_neg : R := - (10 + 1 / 20).
Definition one_ex (s : string) : R := 1.
Definition en_neg (t : R) : pyf := FNum (1 * 1 * 1 * exp (- (bt_neg * t))).
Definition st_neg : wstate :=
  {| w_energies := [tr_ex 1 "e1" "A"]; w_distances := [(("e1", "A"), 10)];
     w_tcoda := [[1; 2]]; w_tbulk := []; w_tbulk_window := []; w_weights := [];
     w_ebulk := []; w_ecoda := [[en_neg 1; en_neg 2]] |}.
Definition lo_neg (wls : list pyf -> list (list pyf) -> option (list R) -> res (list pyf * pyf)) : lopts :=
  {| l_coda_norm := false; l_fix := false; l_fix_sites := None; l_fix_params := None;
     l_R0 := 1; l_b_bounds := Some (- (10), 10); l_g0_bounds := Some (1 / 1000, 1);
     l_bulk := false; l_optimize := true; l_plot_optimization := false; l_num := 7;
     l_gcoda := fun _ t _ => Ok (map (fun _ => FNum 1) t); l_gbulk := fun _ _ _ => Ok (FNum 1);
     l_wls := wls; l_optim := Done (FNum (1 / 5)) |}.
Definition neg_wls := wls_ex (truth (lo_neg (fun _ _ _ => Err OtherError)) st_neg one_ex one_ex bt_neg).
Definition neg_ex : lopts := lo_neg neg_wls.

Lemma neg_run : exists o st v0 r s b, least_squares (l_wls o) /\ aligned st /\
  invert_band o st v0 = Ok (Some r, s) /\ l_b_bounds o = Some (- (10), 10) /\
  fb_b r = Some (FNum b) /\ b < - (10) /\ fb_error r = FPInf.
Proof.
  assert (AL : aligned st_neg).
  { unfold aligned. change (pairs st_neg) with [("e1", "A")]. split; [discriminate|]. split; [reflexivity|].
    split; [constructor; [reflexivity|constructor]|]. split; [reflexivity|now left]. }
  assert (WP : good_weights neg_ex st_neg) by (intros ?; discriminate).
  assert (BU : exists a, build neg_ex st_neg = Ok (a, [], [])) by (eexists; reflexivity).
  destruct BU as (a & BU).
  assert (GR : greens neg_ex st_neg (FNum (1 / 5)) (pairs st_neg) (w_ecoda st_neg) (w_tcoda st_neg) = Ok ([[FNum 1; FNum 1]], []))
    by reflexivity.
  assert (SE : forall t, synthetic one_ex one_ex bt_neg (("e1", "A"), (FNum t, en_neg t)) (FNum 1)).
  { intros t. exists t, (1 * 1 * 1 * exp (- (bt_neg * t))), 1. split; [reflexivity|]. split; [reflexivity|]. split; [lra|reflexivity]. }
  assert (SY : Forall2 (synthetic one_ex one_ex bt_neg) (samples st_neg) (concat [[FNum 1; FNum 1]] ++ [])).
  { repeat (constructor; [apply SE|]). constructor. }
  assert (P : forall (l : list string) s, In s l -> 0 < one_ex s) by (intros; unfold one_ex; lra).
  destruct (solvable_sites neg_ex st_neg _ a [] [] _ _ one_ex one_ex bt_neg AL WP BU GR SY (P _) (P _) eq_refl None eq_refl eq_refl eq_refl)
    as (f & S).
  assert (TT : two_times st_neg).
  { exists ("e1", "A"), 1, 2, (en_neg 1), (en_neg 2). split; [lra|]. split; [left; reflexivity|right; left; reflexivity]. }
  assert (CON : forall s1 s2, In s1 (stations st_neg) -> In s2 (stations st_neg) -> connected (pairs st_neg) s1 s2).
  { change (stations st_neg) with ["A"]. intros s1 s2 [<-|[]] [<-|[]]. apply con_refl. }
  assert (GM : geometric_mean (map (fun s => FNum (one_ex s)) (stations st_neg)) (l_R0 neg_ex)).
  { exists [1]. split; [reflexivity|]. split; [intros y [<-|[]]; lra|]. split; [cbn; lra|]. cbn. rewrite ln_1. lra. }
  destruct (recover_free neg_ex st_neg _ a [] [] _ _ one_ex one_ex bt_neg AL (wls_ex_least _) WP BU GR SY (P _) (P _) eq_refl
    (fun _ => CON) f eq_refl eq_refl TT ltac:(cbn; lra) GM S) as (E1 & E2 & _).
  exists neg_ex, st_neg, 3, (arrange neg_ex st_neg f 3), {| r_record := []; r_g0 := [] |}, bt_neg.
  split; [apply wls_ex_least|]. split; [exact AL|]. split; [|split; [reflexivity|split; [|split]]].
  - unfold invert_band. change (pairs st_neg) with [("e1", "A")]. unfold choose. rewrite BU. cbn [bind].
    change (l_fix neg_ex) with false. change (negb (l_optimize neg_ex)) with false. cbv iota.
    change (l_optim neg_ex) with (Done (FNum (1 / 5))). cbn [minimize bind]. unfold lstsq. rewrite S. cbn [bind].
    rewrite E1, E2.
    assert (N1 : near_bounds (l_b_bounds neg_ex) (FNum bt_neg) = false).
    { apply near_bounds_spec. intros lo hi [= <- <-]. eexists; split; [reflexivity|]. unfold bt_neg. lra. }
    assert (N2 : near_bounds (l_g0_bounds neg_ex) (FNum (1 / 5)) = false).
    { apply near_bounds_spec. intros lo hi [= <- <-]. eexists; split; [reflexivity|]. lra. }
    rewrite N1, N2. reflexivity.
  - unfold arrange. cbn. now rewrite E2.
  - unfold bt_neg. lra.
  - unfold arrange. cbn. destruct (solve_at_err neg_ex st_neg _ _ _ _ _ _ eq_refl S) as [(B & _)|[E _]]; [|exact E].
    rewrite E2 in B. destruct (B _ _ eq_refl) as (x & [= <-] & Q). unfold bt_neg in Q. lra.
Qed.

(** ** Misfits *)
Lemma misfit_ex : exists a, build go_ex st_ex = Ok (a, [], []) /\
  lstsq_opt go_ex st_ex a [] [] {| r_record := []; r_g0 := [] |} (FNum 5) = Ok ({| r_record := []; r_g0 := [] |}, FPInf) /\
  exists s, lstsq_opt go_ex st_ex a [] [] {| r_record := []; r_g0 := [] |} (FNum (1 / 10)) = Ok (s, FNum 0).
Proof.
  destruct (build_ex false go_wls) as (a & BU). fold go_ex in BU. exists a. split; [exact BU|].
  split.
  - unfold lstsq_opt. assert (O5 : g0_outside go_ex (FNum 5) = true).
    { destruct (g0_outside go_ex (FNum 5)) eqn:Q; [reflexivity|]. apply g0_outside_spec in Q.
      destruct (Q _ _ eq_refl) as (x & [= <-] & ?). lra. }
    now rewrite O5.
  - destruct (go_solve a (FNum (1 / 10)) BU) as (f1 & S1 & G1 & B1 & E1).
    assert (I1 : inside_closed (l_g0_bounds go_ex) (FNum (1 / 10))).
    { intros lo hi [= <- <-]. eexists; split; [reflexivity|]. lra. }
    eexists. unfold lstsq_opt. rewrite (proj2 (g0_outside_spec _ _) I1), S1. cbn [bind]. rewrite (E1 I1). reflexivity.
Qed.

Lemma choose_ex : exists s f, choose go_ex st_ex = Ok (Some (s, f)) /\ pairs st_ex <> [].
Proof.
  destruct go_run as (r & s & H & _). unfold invert_band in H. rewrite pairs_st_ex in *. unfold pairs_ex in *.
  destruct (choose go_ex st_ex) as [[[s' f]|]|]; [| discriminate | discriminate].
  exists s', f. split; [reflexivity|discriminate].
Qed.

Lemma go_ex_hyps : aligned st_ex /\ least_squares (l_wls go_ex) /\ good_weights go_ex st_ex /\
  positive_on (map snd (pairs st_ex)) site_ex /\ positive_on (map fst (pairs st_ex)) source_ex /\
  mean_site st_ex site_ex (l_R0 go_ex) /\ one_network st_ex /\ two_times st_ex /\
  exists r s, invert_band go_ex st_ex 3 = Ok (Some r, s) /\ fb_g0 r = Some (FNum (1 / 5)) /\
    synthetic_band go_ex st_ex (FNum (1 / 5)) site_ex source_ex bt_ex.
Proof.
  split; [exact aligned_ex|]. split; [apply wls_ex_least|]. split; [apply weights_ex|].
  split; [exact positive_site_ex|]. split; [exact positive_source_ex|]. split; [exact mean_site_ex|].
  split; [exact network_ex|]. split; [exact two_times_ex|].
  destruct go_run as (r & s & H & G & _). exists r, s. split; [exact H|]. split; [exact G|]. apply synthetic_ex.
Qed.

Lemma fixed_ex_hyps : least_squares (l_wls fixed_ex) /\ good_weights fixed_ex st_ex /\
  l_fix_params fixed_ex = Some (Some (FNum (1 / 5)), Some (FNum bt_ex)) /\
  synthetic_band fixed_ex st_ex (FNum (1 / 5)) site_ex source_ex bt_ex /\
  exists r s, invert_band fixed_ex st_ex 3 = Ok (Some r, s).
Proof.
  split; [apply wls_ex_least|]. split; [apply weights_ex|]. split; [reflexivity|]. split; [apply synthetic_ex|].
  exact fixed_run.
Qed.

Lemma source_ex_hyps : least_squares (l_wls source_opts_ex) /\ good_weights source_opts_ex st_ex /\
  (forall x, In x (map snd (pairs st_ex)) -> dget String.eqb params_ex x = Some (FNum (site_ex x))) /\
  l_fix_params source_opts_ex = Some (Some (FNum (1 / 5)), Some (FNum bt_ex)) /\
  synthetic_band source_opts_ex st_ex (FNum (1 / 5)) site_ex source_ex bt_ex /\
  exists r s, invert_band source_opts_ex st_ex 3 = Ok (Some r, s).
Proof.
  split; [apply wls_ex_least|]. split; [apply weights_ex|]. split; [exact params_site_ex|].
  split; [reflexivity|]. split; [apply synthetic_ex|]. exact source_run.
Qed.

Lemma source_build_ex : exists a bs rs, build source_opts_ex st_ex = Ok (a, bs, rs) /\ aligned st_ex.
Proof. destruct source_build as (rs & B). eexists _, _, rs. split; [exact B|exact aligned_ex]. Qed.

Lemma nstations_ex : aligned st_ex /\ lists_once ["B"; "A"] (map snd (pairs st_ex)) /\
  l_fix_sites source_opts_ex <> None /\ l_fix source_opts_ex = true /\
  exists r s, invert_band source_opts_ex st_ex 3 = Ok (Some r, s).
Proof.
  split; [exact aligned_ex|]. split.
  - split.
    + repeat (constructor; [cbn; intuition discriminate|]). constructor.
    + rewrite pairs_st_ex. cbn. intros x. tauto.
  - split; [discriminate|]. split; [reflexivity|exact source_run].
Qed.

(** b not given *)
Definition missing_ex : lopts :=
  {| l_coda_norm := false; l_fix := true; l_fix_sites := None;
     l_fix_params := Some (Some (FNum (1 / 5)), None);
     l_R0 := 1; l_b_bounds := None; l_g0_bounds := None;
     l_bulk := true; l_optimize := true; l_plot_optimization := true; l_num := 2;
     l_gcoda := fun _ t _ => Ok (map (fun _ => FNum 1) t); l_gbulk := fun _ _ _ => Ok (FNum 1);
     l_wls := fixed_wls; l_optim := optim_ex |}.

Lemma missing_hyps : exists abr,
  pairs st_ex <> [] /\ build missing_ex st_ex = Ok abr /\ l_fix missing_ex = true /\
  l_fix_params missing_ex = Some (Some (FNum (1 / 5)), None).
Proof.
  destruct (build_ex true fixed_wls) as (a & B). exists (a, [], []).
  split; [rewrite pairs_st_ex; discriminate|]. split; [|split; reflexivity].
  rewrite <- B. reflexivity.
Qed.

(** no optimisation *)
Definition middle_ex : lopts :=
  {| l_coda_norm := false; l_fix := false; l_fix_sites := None;
     l_fix_params := None;
     l_R0 := 1; l_b_bounds := Some (1 / 100, 10); l_g0_bounds := Some (1 / 1000, 1);
     l_bulk := true; l_optimize := false; l_plot_optimization := true; l_num := 2;
     l_gcoda := fun _ t _ => Ok (map (fun _ => FNum 1) t); l_gbulk := fun _ _ _ => Ok (FNum 1);
     l_wls := go_wls; l_optim := optim_ex |}.

Lemma middle_hyps : l_fix middle_ex = false /\ l_optimize middle_ex = false /\
  exists s f, choose middle_ex st_ex = Ok (Some (s, f)).
Proof.
  split; [reflexivity|]. split; [reflexivity|].
  destruct (build_ex false go_wls) as (a & B).
  destruct (go_solve a (FNum ((1 / 1000 + 1) / 2)) B) as (f & S & _).
  unfold choose. replace (build middle_ex st_ex) with (build go_ex st_ex) by reflexivity.
  fold go_ex in B. rewrite B. cbn [bind]. change (l_fix middle_ex) with false.
  change (l_optimize middle_ex) with false. change (l_g0_bounds middle_ex) with (Some (1 / 1000, 1)).
  cbv iota. cbn [negb]. unfold lstsq.
  change (solve_at middle_ex st_ex a [] [] (FNum ((1 / 1000 + 1) / 2)) None false)
    with (solve_at go_ex st_ex a [] [] (FNum ((1 / 1000 + 1) / 2)) None false).
  rewrite S. cbn [bind]. eauto.
Qed.
