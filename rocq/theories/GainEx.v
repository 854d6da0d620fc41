(** Concrete cases for C131. *)
From Coq Require Import String List Bool Reals Lra Lia ZArith Arith ClassicalDescription.
From Verif Require Import Base Pyf PyfOps StatModel StatProof FbModel FbProof3 SiteProof LsqfbModel LsqfbSpec LsqfbProof LsqfbProof2 LsqfbProof3 LsqfbProof4 LsqfbProof5 LsqfbEx GainSpec GainProof GainProof2 GainProof3 GainProof4.
Import ListNotations.
Open Scope string_scope.
Open Scope list_scope.
Open Scope R_scope.

(** a solver that knows two solutions *)
Definition wls_two (c1 c2 : list R) (z : list pyf) (a : list (list pyf)) (ws : option (list R)) : res (list pyf * pyf) :=
  match wls_ex c1 z a ws with Ok r => Ok r | Err _ => wls_ex c2 z a ws end.
Definition dof_one (rows : list (list R)) (ws : option (list R)) : R := 1.

Lemma wls_ex_dof cand : least_squares_dof (wls_ex cand) dof_one.
Proof.
  intros n rows b ws c mse LR LB H. unfold wls_ex in H.
  destruct (excluded_middle_informative _) as [(rows' & b' & E1 & E2 & NE & LC & EX & WP)|]; [|discriminate].
  injection H as <- <-. apply FNum_inj2 in E1. apply FNum_inj in E2. subst rows' b'.
  exists cand. rewrite sse_exact by assumption. split; [reflexivity|]. split.
  - destruct rows; [contradiction|]. inversion LR; subst. inversion LC; subst. congruence.
  - split; [|unfold dof_one; f_equal; lra]. intros x _. apply sse_nonneg.
    destruct ws; [exact WP|]. apply Forall_forall. intros y I. apply repeat_spec in I. lra.
Qed.

Lemma wls_two_dof c1 c2 : least_squares_dof (wls_two c1 c2) dof_one.
Proof.
  intros n rows b ws c mse LR LB H. unfold wls_two in H.
  destruct (wls_ex c1 _ _ ws) as [r|] eqn:E.
  - injection H as ->. exact (wls_ex_dof c1 n rows b ws c mse LR LB E).
  - exact (wls_ex_dof c2 n rows b ws c mse LR LB H).
Qed.

Lemma wls_two_least c1 c2 : least_squares (wls_two c1 c2).
Proof.
  intros n rows b ws c mse LR LB H. destruct (wls_two_dof c1 c2 n rows b ws c mse LR LB H) as (c' & E & L & M & Q).
  exists c', 1. split; [exact E|]. split; [exact L|]. split; [lra|]. split; [exact M|exact Q].
Qed.

Lemma wls_two_ok c1 c2 z a ws c : c = c1 \/ c = c2 -> List.length c2 = List.length c1 ->
  solved c z a ws -> exists c' mse, wls_two c1 c2 z a ws = Ok (map FNum c', mse) /\ List.length c' = List.length c1.
Proof.
  intros K L H. unfold wls_two. destruct (wls_ex c1 z a ws) as [r|] eqn:E.
  - unfold wls_ex in E. destruct (excluded_middle_informative _); [|discriminate]. injection E as <-. eauto.
  - destruct K as [->| ->]; [rewrite wls_ex_ok in E by exact H; discriminate|].
    rewrite wls_ex_ok by exact H. eauto.
Qed.

Lemma solvable_two o st g0 a bs rs gc gb site source bt c1 c2 bf :
  aligned st -> good_weights o st -> build o st = Ok (a, bs, rs) ->
  greens o st g0 (pairs st) (w_ecoda st) (w_tcoda st) = Ok (gc, gb) ->
  Forall2 (synthetic site source bt) (samples st) (concat gc ++ gb) ->
  (forall s, In s (stations st) -> 0 < site s) -> (forall e, In e (eventids st) -> 0 < source e) ->
  l_coda_norm o = false -> l_fix_sites o = None ->
  (if l_fix o then bf = Some (FNum bt) else bf = None) ->
  l_wls o = wls_two c1 c2 -> (truth o st site source bt = c1 \/ truth o st site source bt = c2) ->
  List.length c2 = List.length c1 -> exists f, solve_at o st a bs rs g0 bf false = Ok f.
Proof.
  intros AL WP BU GR SY SITE SOURCE CN FS FB WL TR LC12.
  destruct (rhs_total o st g0 bs gc gb site source bt AL GR SY bf false ltac:(discriminate)) as (z & RH).
  destruct (rhs_start o st g0 bs gc gb site source bt AL GR SY SITE SOURCE _ _ _ RH) as [TN EZ].
  assert (Z : z = map FNum (map (target o site source bt) (samples st))).
  { match type of EZ with bind ?x _ = _ => destruct x as [z'|] eqn:EZ'; [|discriminate] end.
    cbn [bind] in EZ. injection EZ as <-. unfold target. destruct (l_fix o).
    - subst bf. rewrite (add_fixed st site source bt AL _ _ eq_refl TN EZ'). f_equal. apply map_ext.
      intros s. ring.
    - subst bf. cbn [nonzero] in EZ'. now injection EZ' as <-. }
  destruct (rows_of o st AL a bs rs CN FS TN BU) as (rows & EA & G).
  destruct (good_lengths o st rows G) as [LR LL].
  pose proof (truth_length o st AL site source bt SOURCE) as TL.
  destruct (wls_two_ok c1 c2 z a (weights o st z) (truth o st site source bt) TR LC12) as (c' & mse & W & LC).
  - exists rows, (map (target o site source bt) (samples st)). split; [exact EA|]. split; [exact Z|].
    split; [|split; [|split]].
    + intros Q. rewrite Q in LL. pose proof (samples_nonempty o st g0 gc gb AL GR). now destruct (samples st).
    + rewrite TL. exact LR.
    + exact (truth_exact o st AL site source bt SOURCE rows G).
    + now apply weights_positive.
  - unfold solve_at. rewrite RH. cbn [bind]. rewrite WL, W. cbn [bind]. rewrite CN. destruct (l_fix o) eqn:FX.
    + subst bf. cbn [bind]. destruct (decode _ _ _ _ _). eauto.
    + destruct c' as [|x c'].
      { assert (T0 : List.length (truth o st site source bt) = 0%nat) by (destruct TR as [-> | ->]; cbn in LC; lia).
        rewrite TL in T0. unfold width, fix01 in T0. rewrite FX in T0. pose proof (Ns_pos st AL). lia. }
      cbn [map bind]. destruct (decode _ _ _ _ _). eauto.
Qed.

(** factors *)
Definition lam_ex (e : string) : R := if String.eqb e "e1" then 7 else 1 / 3.
Definition mu_ex (s : string) : R := if String.eqb s "A" then 8 else 2.
Definition site2_ex (s : string) : R := site_ex s * (mu_ex s / 4).
Definition source2_ex (e : string) : R := source_ex e * (lam_ex e * 4).
Definition st2_ex : wstate := gained lam_ex mu_ex st_ex.

Lemma numeric_ex : numeric st_ex.
Proof.
  assert (EP : forall e s t, 0 < source_ex e * site_ex s * 1 * exp (- (bt_ex * t))).
  { intros e s t. pose proof (exp_pos (- (bt_ex * t))). unfold source_ex, site_ex.
    destruct (String.eqb e "e1"), (String.eqb s "A"); repeat apply Rmult_lt_0_compat; lra. }
  unfold numeric. repeat (apply Forall_cons; [eexists _, _; split; [reflexivity|apply EP]|]). apply Forall_nil.
Qed.

Lemma positive_lam_ex : positive_on (map fst (pairs st_ex)) lam_ex.
Proof. intros x _. unfold lam_ex. destruct (String.eqb x "e1"); lra. Qed.
Lemma positive_mu_ex : positive_on (map snd (pairs st_ex)) mu_ex.
Proof. intros x _. unfold mu_ex. destruct (String.eqb x "A"); lra. Qed.

Lemma mean_mu_ex : mean_site st_ex mu_ex 4.
Proof.
  intros l LO. destruct (mean_site_ex l LO) as (x & E & _ & _ & M).
  assert (X : x = map site_ex l).
  { rewrite <- map_map in E. revert E. generalize (map site_ex l). clear.
    induction x as [|y x IH]; intros [|z l] E; cbn in E; try discriminate; [reflexivity|].
    injection E as E1 E2. f_equal; auto. }
  subst x. rewrite map_map, map_length, ln_1 in M.
  assert (LN : forall s, ln (mu_ex s) = ln 4 + ln (site_ex s)).
  { intros s. unfold mu_ex, site_ex. destruct (String.eqb s "A"); rewrite <- ln_mult by lra; f_equal; lra. }
  exists (map mu_ex l). split; [now rewrite map_map|].
  split; [intros y I; apply in_map_iff in I; destruct I as (s & <- & _); unfold mu_ex; destruct (String.eqb s "A"); lra|].
  split; [lra|]. rewrite map_map, map_length. rewrite (map_ext _ _ LN).
  assert (S : forall l, fold_right Rplus 0 (map (fun s => ln 4 + ln (site_ex s)) l)
               = INR (List.length l) * ln 4 + fold_right Rplus 0 (map (fun s => ln (site_ex s)) l)).
  { clear. induction l as [|s l IH]; [cbn; lra|]. cbn [map fold_right List.length]. rewrite IH, S_INR. ring. }
  assert (NL : INR (List.length l) <> 0).
  { apply not_0_INR. destruct l; [|cbn; lia]. destruct LO as [_ IN]. exfalso. apply (IN "A"). rewrite pairs_st_ex. cbn. auto. }
  rewrite S. set (q := fold_right Rplus 0 (map (fun s => ln (site_ex s)) l)) in *.
  assert (q = 0). { replace q with (q / INR (List.length l) * INR (List.length l)) by (field; exact NL). rewrite M. ring. }
  rewrite H. field. exact NL.
Qed.

Lemma greens_ex2 f s w g : exists gc gb,
  greens (lo_ex f s w) st2_ex g (pairs st2_ex) (w_ecoda st2_ex) (w_tcoda st2_ex) = Ok (gc, gb) /\
  Forall2 (synthetic site2_ex source2_ex bt_ex) (samples st2_ex) (concat gc ++ gb).
Proof.
  exists [[FNum 1; FNum 1]; [FNum 1; FNum 1]; [FNum 1; FNum 1]], [FNum 1; FNum 1; FNum 1].
  split; [reflexivity|].
  assert (K : forall e s t, synthetic site2_ex source2_ex bt_ex ((e, s), (FNum t, fmul (FNum (lam_ex e * mu_ex s)) (en_ex e s t))) (FNum 1)).
  { intros e s' t. eexists t, _, 1. split; [reflexivity|]. split; [reflexivity|]. split; [lra|].
    cbn [fst snd]. unfold source2_ex, site2_ex. field. }
  repeat (constructor; [apply K|]). constructor.
Qed.

Lemma positive_greens_ex f s w : positive_greens (lo_ex f s w) st_ex.
Proof.
  split.
  - intros r t x gs _ _ H. injection H as <-. apply Forall_forall. intros g I. apply in_map_iff in I.
    destruct I as (u & <- & _). exists 1. split; [reflexivity|lra].
  - intros r t x g _ _ H. injection H as <-. exists 1. split; [reflexivity|lra].
Qed.

(** ** Command go *)
Definition two_wls (fx : bool) :=
  let o := lo_ex fx None (fun _ _ _ => Err OtherError) in
  wls_two (truth o st_ex site_ex source_ex bt_ex) (truth o st2_ex site2_ex source2_ex bt_ex).
Definition two_ex (fx : bool) : lopts := lo_ex fx None (two_wls fx).

Lemma site2_pos s : 0 < site2_ex s.
Proof. unfold site2_ex, site_ex, mu_ex. destruct (String.eqb s "A"); lra. Qed.
Lemma source2_pos s : 0 < source2_ex s.
Proof. unfold source2_ex, source_ex, lam_ex. destruct (String.eqb s "e1"); lra. Qed.

Definition bf_ex (fx : bool) : option pyf := if fx then Some (FNum bt_ex) else None.

Lemma two_solve fx a g : build (two_ex fx) st_ex = Ok (a, [], []) ->
  (exists f, solve_at (two_ex fx) st_ex a [] [] g (bf_ex fx) false = Ok f /\ f_g0 f = g /\ f_b f = FNum bt_ex) /\
  (exists f, solve_at (two_ex fx) st2_ex a [] [] g (bf_ex fx) false = Ok f).
Proof.
  intros BU. destruct (greens_ex fx None (two_wls fx) g) as (gc & gb & GR & SY). fold (two_ex fx) in GR.
  destruct (greens_ex2 fx None (two_wls fx) g) as (gc2 & gb2 & GR2 & SY2). fold (two_ex fx) in GR2.
  assert (SP : forall s, In s (stations st_ex) -> 0 < site_ex s) by (intros s I; apply (site_pos st_ex site_ex positive_site_ex _ I)).
  assert (WP : forall s, In s (eventids st_ex) -> 0 < source_ex s) by (intros s I; apply (source_pos st_ex source_ex positive_source_ex _ I)).
  assert (FB : if l_fix (two_ex fx) then bf_ex fx = Some (FNum bt_ex) else bf_ex fx = None) by (destruct fx; reflexivity).
  assert (LL : List.length (truth (two_ex fx) st2_ex site2_ex source2_ex bt_ex) = List.length (truth (two_ex fx) st_ex site_ex source_ex bt_ex)).
  { rewrite (truth_length (two_ex fx) st2_ex (gained_aligned _ _ _ aligned_ex) _ _ _ (fun e _ => source2_pos e)).
    rewrite (truth_length (two_ex fx) st_ex aligned_ex _ _ _ WP). reflexivity. }
  split.
  - destruct (solvable_two (two_ex fx) st_ex g a [] [] gc gb site_ex source_ex bt_ex _ _ (bf_ex fx) aligned_ex (weights_ex _ _ _)
      BU GR SY SP WP eq_refl eq_refl FB eq_refl (or_introl eq_refl) LL) as (f & S).
    exists f. split; [exact S|]. destruct fx.
    + destruct (recover_fixed (two_ex true) st_ex g a [] [] gc gb site_ex source_ex bt_ex aligned_ex (wls_two_least _ _) (weights_ex _ _ _)
        BU GR SY SP WP eq_refl (fun _ => network_stations st_ex network_ex) f eq_refl eq_refl ltac:(cbn; lra)
        (mean_site_ex _ (fromkeys_spec _)) S) as (E1 & E2 & _). auto.
    + destruct (recover_free (two_ex false) st_ex g a [] [] gc gb site_ex source_ex bt_ex aligned_ex (wls_two_least _ _) (weights_ex _ _ _)
        BU GR SY SP WP eq_refl (fun _ => network_stations st_ex network_ex) f eq_refl eq_refl two_times_ex ltac:(cbn; lra)
        (mean_site_ex _ (fromkeys_spec _)) S) as (E1 & E2 & _). auto.
  - apply (solvable_two (two_ex fx) st2_ex g a [] [] gc2 gb2 site2_ex source2_ex bt_ex _ _ (bf_ex fx) (gained_aligned _ _ _ aligned_ex)
      ltac:(intros _; exact (weights_ex fx None (two_wls fx) eq_refl))
      (eq_trans (gained_build lam_ex mu_ex (two_ex fx) st_ex aligned_ex) BU) GR2 SY2 (fun s _ => site2_pos s) (fun e _ => source2_pos e)
      eq_refl eq_refl FB eq_refl (or_intror eq_refl) LL).
Qed.

Lemma near_ex fx : near_bounds (l_b_bounds (two_ex fx)) (FNum bt_ex) = false /\ near_bounds (l_g0_bounds (two_ex fx)) (FNum (1 / 5)) = false.
Proof.
  split; apply near_bounds_spec; intros lo hi [= <- <-]; eexists; (split; [reflexivity|]); unfold bt_ex; lra.
Qed.

Lemma run_two st : (forall a g, build (two_ex false) st = Ok (a, [], []) -> exists f, solve_at (two_ex false) st a [] [] g None false = Ok f) ->
  forall a, build (two_ex false) st = Ok (a, [], []) ->
  exists s f, choose (two_ex false) st = Ok (Some (s, f)) /\ solve_at (two_ex false) st a [] [] (FNum (1 / 5)) None false = Ok f.
Proof.
  intros K a BU.
  assert (LO : forall s x, exists s' y, lstsq_opt (two_ex false) st a [] [] s x = Ok (s', y)).
  { intros s x. unfold lstsq_opt. destruct (g0_outside _ _); [eauto|]. destruct (K a x BU) as (f & ->). cbn [bind]. eauto. }
  unfold choose. rewrite BU. cbn [bind]. change (l_fix (two_ex false)) with false. change (negb (l_optimize (two_ex false))) with false. cbv iota.
  change (l_optim (two_ex false)) with optim_ex. unfold optim_ex. cbn [minimize].
  destruct (LO {| r_record := []; r_g0 := [] |} (FNum (1 / 10))) as (s1 & y1 & ->). cbn [bind].
  destruct (LO s1 (FNum 5)) as (s2 & y2 & ->). cbn [bind].
  destruct (K a (FNum (1 / 5)) BU) as (f & S). unfold lstsq. rewrite S. cbn [bind]. eauto.
Qed.

Lemma two_run_go : (exists r s, invert_band (two_ex false) st_ex 3 = Ok (Some r, s)) /\
  (exists y s, invert_band (two_ex false) st2_ex 3 = Ok (y, s)).
Proof.
  destruct (build_ex false (two_wls false)) as (a & BU). fold (two_ex false) in BU.
  assert (BU2 : build (two_ex false) st2_ex = Ok (a, [], [])) by exact (eq_trans (gained_build lam_ex mu_ex (two_ex false) st_ex aligned_ex) BU).
  split.
  - destruct (run_two st_ex) with (a := a) as (s & f & C & S); [|exact BU|].
    { intros a' g B. destruct (two_solve false a' g B) as [(f & S & _) _]. eauto. }
    rewrite band_unfold by exact aligned_ex. rewrite C. cbn [bind].
    destruct (two_solve false a (FNum (1 / 5)) BU) as [(f' & S' & G & B) _]. change (bf_ex false) with (@None pyf) in S'.
    rewrite S in S'. injection S' as <-. rewrite G, B. destruct (near_ex false) as [-> ->]. cbn [orb]. eauto.
  - destruct (run_two st2_ex) with (a := a) as (s & f & C & S); [|exact BU2|].
    { intros a' g B. assert (B1 : build (two_ex false) st_ex = Ok (a', [], [])).
      { rewrite <- B. symmetry. exact (gained_build lam_ex mu_ex (two_ex false) st_ex aligned_ex). }
      destruct (two_solve false a' g B1) as [_ (f & S)]. eauto. }
    rewrite band_unfold by exact (gained_aligned _ _ _ aligned_ex). rewrite C. cbn [bind].
    destruct (_ || _)%bool; eauto.
Qed.

Lemma go_gained_hyps : aligned st_ex /\ numeric st_ex /\ least_squares_dof (l_wls (two_ex false)) dof_one /\
  good_weights (two_ex false) st_ex /\ positive_greens (two_ex false) st_ex /\
  positive_on (map fst (pairs st_ex)) lam_ex /\ positive_on (map snd (pairs st_ex)) mu_ex /\
  mean_site st_ex mu_ex 4 /\ one_network st_ex /\ two_times st_ex /\ l_g0_bounds (two_ex false) = Some (1 / 1000, 1) /\
  (exists r s, invert_band (two_ex false) st_ex 3 = Ok (Some r, s)) /\
  (exists y s, invert_band (two_ex false) (gained lam_ex mu_ex st_ex) 3 = Ok (y, s)).
Proof.
  split; [exact aligned_ex|]. split; [exact numeric_ex|]. split; [apply wls_two_dof|]. split; [apply weights_ex|].
  split; [apply positive_greens_ex|]. split; [exact positive_lam_ex|]. split; [exact positive_mu_ex|].
  split; [exact mean_mu_ex|]. split; [exact network_ex|]. split; [exact two_times_ex|]. split; [reflexivity|].
  exact two_run_go.
Qed.

(** ** Command fixed *)
Lemma choose_fixed o st a bs rs f : l_fix o = true ->
  l_fix_params o = Some (Some (FNum (1 / 5)), Some (FNum bt_ex)) -> build o st = Ok (a, bs, rs) ->
  solve_at o st a bs rs (FNum (1 / 5)) (Some (FNum bt_ex)) (match l_fix_sites o with None => false | Some _ => true end) = Ok f ->
  f_b f = FNum bt_ex -> exists s, choose o st = Ok (Some (s, f)).
Proof.
  intros FX FP BU S B. unfold choose. rewrite BU, FX, FP. cbn [bind]. unfold lstsq. rewrite S. cbn [bind snd].
  rewrite (solve_at_g0 _ _ _ _ _ _ _ _ _ S), B, !(proj2 (feqb_num _ _) eq_refl). cbn [andb]. eauto.
Qed.

Lemma solve_fixed_b o st a bs rs g b fs f : l_fix o = true -> solve_at o st a bs rs g (Some b) fs = Ok f -> f_b f = b.
Proof.
  intros FX. unfold solve_at. destruct (rhs _ _ _ _ _ _); [|discriminate]. cbn [bind].
  destruct (l_wls _ _ _ _) as [[c mse]|]; [|discriminate]. cbn [bind]. rewrite FX.
  destruct (l_coda_norm o); [discriminate|]. cbn [bind]. destruct (decode _ _ _ _ _). now intros [= <-].
Qed.

Lemma two_run_fixed : (exists r s, invert_band (two_ex true) st_ex 3 = Ok (Some r, s)) /\
  (exists y s, invert_band (two_ex true) st2_ex 3 = Ok (y, s)).
Proof.
  destruct (build_ex true (two_wls true)) as (a & BU). fold (two_ex true) in BU.
  assert (BU2 : build (two_ex true) st2_ex = Ok (a, [], [])) by exact (eq_trans (gained_build lam_ex mu_ex (two_ex true) st_ex aligned_ex) BU).
  destruct (two_solve true a (FNum (1 / 5)) BU) as [(f & S & G & B) (f2 & S2)]. split.
  - destruct (choose_fixed (two_ex true) st_ex a [] [] f eq_refl eq_refl BU S B) as (s & C).
    rewrite band_unfold by exact aligned_ex. rewrite C. cbn [bind]. rewrite G, B. destruct (near_ex true) as [-> ->]. cbn [orb]. eauto.
  - destruct (choose_fixed (two_ex true) st2_ex a [] [] f2 eq_refl eq_refl BU2 S2 (solve_fixed_b _ _ _ _ _ _ _ _ _ (eq_refl : l_fix (two_ex true) = true) S2)) as (s & C).
    rewrite band_unfold by exact (gained_aligned _ _ _ aligned_ex). rewrite C. cbn [bind]. destruct (_ || _)%bool; eauto.
Qed.

Lemma fixed_gained_hyps : numeric st_ex /\ least_squares_dof (l_wls (two_ex true)) dof_one /\
  good_weights (two_ex true) st_ex /\ positive_greens (two_ex true) st_ex /\ mean_site st_ex mu_ex 4 /\ one_network st_ex /\
  l_fix_params (two_ex true) = Some (Some (FNum (1 / 5)), Some (FNum bt_ex)) /\
  (exists r s, invert_band (two_ex true) st_ex 3 = Ok (Some r, s)) /\
  (exists y s, invert_band (two_ex true) (gained lam_ex mu_ex st_ex) 3 = Ok (y, s)).
Proof.
  split; [exact numeric_ex|]. split; [apply wls_two_dof|]. split; [apply weights_ex|].
  split; [apply positive_greens_ex|]. split; [exact mean_mu_ex|]. split; [exact network_ex|]. split; [reflexivity|].
  exact two_run_fixed.
Qed.

(** ** Command source *)
Definition one_mu (s : string) : R := 1.
Definition st3_ex : wstate := gained lam_ex one_mu st_ex.
Definition source3_ex (e : string) : R := source_ex e * lam_ex e.
Definition sites_wls := wls_two [ln 3; ln 5] [ln 21; ln (5 / 3)].
Definition sites_ex : lopts := lo_ex true (Some params_ex) sites_wls.

Lemma greens_ex3 f s w g : exists gc gb,
  greens (lo_ex f s w) st3_ex g (pairs st3_ex) (w_ecoda st3_ex) (w_tcoda st3_ex) = Ok (gc, gb) /\
  Forall2 (synthetic site_ex source3_ex bt_ex) (samples st3_ex) (concat gc ++ gb).
Proof.
  exists [[FNum 1; FNum 1]; [FNum 1; FNum 1]; [FNum 1; FNum 1]], [FNum 1; FNum 1; FNum 1].
  split; [reflexivity|].
  assert (K : forall e s t, synthetic site_ex source3_ex bt_ex ((e, s), (FNum t, fmul (FNum (lam_ex e * one_mu s)) (en_ex e s t))) (FNum 1)).
  { intros e s' t. eexists t, _, 1. split; [reflexivity|]. split; [reflexivity|]. split; [lra|].
    cbn [fst snd]. unfold source3_ex, one_mu. ring. }
  repeat (constructor; [apply K|]). constructor.
Qed.

Lemma sites_solve st source : aligned st -> (forall e, 0 < source e) -> good_weights sites_ex st ->
  (exists gc gb, greens sites_ex st (FNum (1 / 5)) (pairs st) (w_ecoda st) (w_tcoda st) = Ok (gc, gb) /\
     Forall2 (synthetic site_ex source bt_ex) (samples st) (concat gc ++ gb)) ->
  map fst (samples st) = map fst (samples st_ex) ->
  (ln (source "e1") = ln 3 /\ ln (source "e2") = ln 5 \/ ln (source "e1") = ln 21 /\ ln (source "e2") = ln (5 / 3)) ->
  (exists rs, build sites_ex st =
  Ok ([[FNum 1; FNum 0]; [FNum 1; FNum 0]; [FNum 1; FNum 0]; [FNum 1; FNum 0]; [FNum 0; FNum 1]; [FNum 0; FNum 1];
       [FNum 1; FNum 0]; [FNum 1; FNum 0]; [FNum 0; FNum 1]],
      map FNum [ln 2; ln 2; ln (1 / 2); ln (1 / 2); ln 2; ln 2; ln 2; ln (1 / 2); ln 2], rs)) ->
  exists a bs rs f, build sites_ex st = Ok (a, bs, rs) /\
  solve_at sites_ex st a bs rs (FNum (1 / 5)) (Some (FNum bt_ex)) true = Ok f.
Proof.
  intros AL SRC GW (gc & gb & GR & SY) FST SV (rs & BU). eexists _, _, rs.
  assert (SP : forall s, In s (stations st) -> 0 < site_ex s) by (intros s _; unfold site_ex; destruct (String.eqb s "A"); lra).
  assert (WP : forall s, In s (eventids st) -> 0 < source s) by auto.
  assert (L9 : List.length (samples st) = 9%nat) by (rewrite <- (map_length fst), FST; reflexivity).
  set (bs := map FNum [ln 2; ln 2; ln (1 / 2); ln (1 / 2); ln 2; ln 2; ln 2; ln (1 / 2); ln 2]) in *.
  destruct (rhs_total sites_ex st (FNum (1 / 5)) bs gc gb site_ex source bt_ex AL GR SY
              (Some (FNum bt_ex)) true (fun _ => eq_sym L9)) as (z & RH).
  destruct (rhs_start sites_ex st _ bs gc gb site_ex source bt_ex AL GR SY SP WP _ _ _ RH) as [TN EZ].
  match type of EZ with bind ?x _ = _ => destruct x as [z'|] eqn:EZ'; [|discriminate] end.
  cbn [bind] in EZ. apply (add_fixed st site_ex source bt_ex AL _ _ eq_refl TN) in EZ'.
  set (s1 := ln (source "e1")) in *. set (s2 := ln (source "e2")) in *.
  assert (Z : z = map FNum [s1; s1; s1; s1; s2; s2; s1; s1; s2]).
  { rewrite EZ' in EZ.
    assert (M : map (fun s => ln (source (fst (fst s))) + ln (site_ex (snd (fst s)))) (samples st)
              = map (fun p => ln (source (fst p)) + ln (site_ex (snd p))) (map fst (samples st))) by now rewrite map_map.
    rewrite M, FST in EZ. cbn in EZ. fold s1 s2 in EZ. injection EZ as <-. unfold site_ex. cbn. repeat f_equal; ring. }
  unfold solve_at. rewrite RH. cbn [bind]. change (l_wls sites_ex) with sites_wls. unfold sites_wls.
  destruct (wls_two_ok [ln 3; ln 5] [ln 21; ln (5 / 3)] z
    [[FNum 1; FNum 0]; [FNum 1; FNum 0]; [FNum 1; FNum 0]; [FNum 1; FNum 0]; [FNum 0; FNum 1]; [FNum 0; FNum 1];
       [FNum 1; FNum 0]; [FNum 1; FNum 0]; [FNum 0; FNum 1]] (weights sites_ex st z) [s1; s2]) as (c' & mse & W & _).
  - destruct SV as [[-> ->]|[-> ->]]; auto.
  - reflexivity.
  - exists [[1; 0]; [1; 0]; [1; 0]; [1; 0]; [0; 1]; [0; 1]; [1; 0]; [1; 0]; [0; 1]],
      [s1; s1; s1; s1; s2; s2; s1; s1; s2].
    split; [reflexivity|]. split; [exact Z|]. split; [discriminate|].
    split; [repeat (constructor; [reflexivity|]); constructor|].
    split; [repeat (constructor; [cbn; ring|]); constructor|].
    exact (weights_positive sites_ex st GW z).
  - rewrite W. eexists. split; [exact BU|]. cbn [bind]. reflexivity.
Qed.

Lemma sites_run_of st : aligned st -> (exists a bs rs f, build sites_ex st = Ok (a, bs, rs) /\
  solve_at sites_ex st a bs rs (FNum (1 / 5)) (Some (FNum bt_ex)) true = Ok f) ->
  exists r s, invert_band sites_ex st 3 = Ok (Some r, s).
Proof.
  intros AL (a & bs & rs & f & BU & S). pose proof (solve_fixed_b _ _ _ _ _ _ _ _ _ (eq_refl : l_fix sites_ex = true) S) as B.
  destruct (choose_fixed sites_ex st a bs rs f eq_refl eq_refl BU S B) as (s & C).
  rewrite band_unfold by exact AL. rewrite C. cbn [bind]. rewrite (solve_at_g0 _ _ _ _ _ _ _ _ _ S), B.
  destruct (near_ex true) as [N1 N2]. change (l_b_bounds sites_ex) with (l_b_bounds (two_ex true)).
  change (l_g0_bounds sites_ex) with (l_g0_bounds (two_ex true)). rewrite N1, N2. cbn [orb]. eauto.
Qed.

Lemma sites_build : exists rs, build sites_ex st_ex =
  Ok ([[FNum 1; FNum 0]; [FNum 1; FNum 0]; [FNum 1; FNum 0]; [FNum 1; FNum 0]; [FNum 0; FNum 1]; [FNum 0; FNum 1];
       [FNum 1; FNum 0]; [FNum 1; FNum 0]; [FNum 0; FNum 1]],
      map FNum [ln 2; ln 2; ln (1 / 2); ln (1 / 2); ln 2; ln 2; ln 2; ln (1 / 2); ln 2], rs).
Proof. exact source_build. Qed.

Lemma sites_run : (exists r s, invert_band sites_ex st_ex 3 = Ok (Some r, s)) /\
  (exists y s, invert_band sites_ex st3_ex 3 = Ok (y, s)).
Proof.
  split.
  - apply sites_run_of; [exact aligned_ex|].
    apply (sites_solve st_ex source_ex aligned_ex); [|apply weights_ex|apply greens_ex|reflexivity|left; split; reflexivity|exact sites_build].
    intros e. unfold source_ex. destruct (String.eqb e "e1"); lra.
  - assert (AL : aligned st3_ex) by exact (gained_aligned lam_ex one_mu st_ex aligned_ex).
    assert (Q : exists r s, invert_band sites_ex st3_ex 3 = Ok (Some r, s)).
    { apply sites_run_of; [exact AL|].
      apply (sites_solve st3_ex source3_ex AL).
      - intros e. unfold source3_ex, source_ex, lam_ex. destruct (String.eqb e "e1"); lra.
      - intros _. exact (weights_ex true None sites_wls eq_refl).
      - apply greens_ex3.
      - reflexivity.
      - right. unfold source3_ex, source_ex, lam_ex. cbn. split; f_equal; lra.
      - assert (B : build sites_ex st3_ex = build sites_ex st_ex) by exact (gained_build lam_ex one_mu sites_ex st_ex aligned_ex).
        rewrite B. exact sites_build. }
    destruct Q as (r & s & Q). eauto.
Qed.

Lemma source_gained_hyps : numeric st_ex /\ least_squares_dof (l_wls sites_ex) dof_one /\
  good_weights sites_ex st_ex /\ positive_greens sites_ex st_ex /\ l_fix_sites sites_ex = Some params_ex /\
  (forall x, In x (map snd (pairs st_ex)) -> exists v, 0 < v /\ dget String.eqb params_ex x = Some (FNum v)) /\
  (exists r s, invert_band sites_ex st_ex 3 = Ok (Some r, s)) /\
  (exists y s, invert_band sites_ex (gained lam_ex (fun _ => 1) st_ex) 3 = Ok (y, s)).
Proof.
  split; [exact numeric_ex|]. split; [apply wls_two_dof|]. split; [apply weights_ex|].
  split; [apply positive_greens_ex|]. split; [reflexivity|]. split; [|exact sites_run].
  intros x I. exists (site_ex x). split; [now apply positive_site_ex|now apply params_site_ex].
Qed.
