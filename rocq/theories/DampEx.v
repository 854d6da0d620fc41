(** Concrete cases for C133. *)
From Coq Require Import String List Bool Reals Lra Lia ZArith Arith.
From Verif Require Import Base Pyf PyfOps StatModel StatProof FbModel FbProof3 SiteProof LsqfbModel LsqfbSpec LsqfbProof LsqfbProof2 LsqfbProof3 LsqfbProof4 LsqfbProof5 LsqfbEx GainSpec GainProof GainProof2 GainProof3 GainProof4 GainEx DampSpec DampProof DampProof2.
Import ListNotations.
Open Scope string_scope.
Open Scope list_scope.
Open Scope R_scope.

(** without bounds of the attenuation *)
Definition free_lo (wls : list pyf -> list (list pyf) -> option (list R) -> res (list pyf * pyf)) : lopts :=
  {| l_coda_norm := false; l_fix := false; l_fix_sites := None; l_fix_params := None;
     l_R0 := 1; l_b_bounds := None; l_g0_bounds := Some (1 / 1000, 1);
     l_bulk := true; l_optimize := true; l_plot_optimization := true; l_num := 2;
     l_gcoda := fun _ t _ => Ok (map (fun _ => FNum 1) t); l_gbulk := fun _ _ _ => Ok (FNum 1);
     l_wls := wls; l_optim := optim_ex |}.

Definition std_ex : wstate := damped (1 / 5) st_ex.
Definition damp_wls :=
  let o := free_lo (fun _ _ _ => Err OtherError) in
  wls_two (truth o st_ex site_ex source_ex bt_ex) (truth o std_ex site_ex source_ex (bt_ex + 1 / 5)).
Definition damp_ex : lopts := free_lo damp_wls.

Lemma greens_damp g : exists gc gb,
  greens damp_ex std_ex g (pairs std_ex) (w_ecoda std_ex) (w_tcoda std_ex) = Ok (gc, gb) /\
  Forall2 (synthetic site_ex source_ex (bt_ex + 1 / 5)) (samples std_ex) (concat gc ++ gb).
Proof.
  exists [[FNum 1; FNum 1]; [FNum 1; FNum 1]; [FNum 1; FNum 1]], [FNum 1; FNum 1; FNum 1].
  split; [reflexivity|].
  assert (K : forall e s t, synthetic site_ex source_ex (bt_ex + 1 / 5) ((e, s), (FNum t, decay (1 / 5) (FNum t) (en_ex e s t))) (FNum 1)).
  { intros e s' t. eexists t, _, 1. split; [reflexivity|]. split; [reflexivity|]. split; [lra|].
    cbn [fst snd]. replace (- ((bt_ex + 1 / 5) * t)) with (- (bt_ex * t) + - (1 / 5 * t)) by ring. rewrite exp_plus. ring. }
  repeat (constructor; [apply K|]). constructor.
Qed.

Lemma damp_solve a g : build damp_ex st_ex = Ok (a, [], []) ->
  (exists f, solve_at damp_ex st_ex a [] [] g None false = Ok f) /\
  (exists f, solve_at damp_ex std_ex a [] [] g None false = Ok f).
Proof.
  intros BU. destruct (greens_ex false None damp_wls g) as (gc & gb & GR & SY).
  destruct (greens_damp g) as (gc2 & gb2 & GR2 & SY2).
  assert (SP : forall s, In s (stations st_ex) -> 0 < site_ex s) by (intros s I; apply (site_pos st_ex site_ex positive_site_ex _ I)).
  assert (WP : forall s, In s (eventids st_ex) -> 0 < source_ex s) by (intros s I; apply (source_pos st_ex source_ex positive_source_ex _ I)).
  assert (LL : List.length (truth damp_ex std_ex site_ex source_ex (bt_ex + 1 / 5)) = List.length (truth damp_ex st_ex site_ex source_ex bt_ex)).
  { rewrite (truth_length damp_ex std_ex (damped_aligned (1 / 5) st_ex aligned_ex) site_ex source_ex (bt_ex + 1 / 5) WP).
    rewrite (truth_length damp_ex st_ex aligned_ex site_ex source_ex bt_ex WP). reflexivity. }
  split.
  - exact (solvable_two damp_ex st_ex g a [] [] gc gb site_ex source_ex bt_ex _ _ None aligned_ex (weights_ex false None damp_wls)
      BU GR SY SP WP eq_refl eq_refl eq_refl eq_refl (or_introl eq_refl) LL).
  - exact (solvable_two damp_ex std_ex g a [] [] gc2 gb2 site_ex source_ex (bt_ex + 1 / 5) _ _ None (damped_aligned (1 / 5) st_ex aligned_ex)
      (fun _ => weights_ex false None damp_wls eq_refl)
      (eq_trans (damped_build (1 / 5) st_ex aligned_ex damp_ex) BU) GR2 SY2 SP WP eq_refl eq_refl eq_refl eq_refl (or_intror eq_refl) LL).
Qed.

Lemma run_damp st : aligned st -> forall a, build damp_ex st = Ok (a, [], []) ->
  (forall g, exists f, solve_at damp_ex st a [] [] g None false = Ok f) ->
  exists r s, invert_band damp_ex st 3 = Ok (Some r, s).
Proof.
  intros AL a BU K.
  assert (LO : forall s x, exists s' y, lstsq_opt damp_ex st a [] [] s x = Ok (s', y)).
  { intros s x. unfold lstsq_opt. destruct (g0_outside _ _); [eauto|]. destruct (K x) as (f & ->). cbn [bind]. eauto. }
  rewrite band_unfold by exact AL. unfold choose. rewrite BU. cbn [bind].
  change (l_fix damp_ex) with false. change (negb (l_optimize damp_ex)) with false. cbv iota.
  change (l_optim damp_ex) with optim_ex. unfold optim_ex. cbn [minimize].
  destruct (LO {| r_record := []; r_g0 := [] |} (FNum (1 / 10))) as (s1 & y1 & ->). cbn [bind].
  destruct (LO s1 (FNum 5)) as (s2 & y2 & ->). cbn [bind].
  destruct (K (FNum (1 / 5))) as (f & S). unfold lstsq. rewrite S. cbn [bind].
  rewrite (solve_at_g0 _ _ _ _ _ _ _ _ _ S). change (near_bounds (l_b_bounds damp_ex) (f_b f)) with false.
  change (l_g0_bounds damp_ex) with (l_g0_bounds (two_ex false)). rewrite (proj2 (near_ex false)). cbn [orb]. eauto.
Qed.

Lemma damp_hyps : aligned st_ex /\ numeric st_ex /\ positive_greens damp_ex st_ex /\ least_squares_dof (l_wls damp_ex) dof_one /\
  good_weights damp_ex st_ex /\ one_network st_ex /\ two_times st_ex /\ l_b_bounds damp_ex = None /\
  l_g0_bounds damp_ex = Some (1 / 1000, 1) /\
  (exists r s, invert_band damp_ex st_ex 3 = Ok (Some r, s)) /\
  (exists r s, invert_band damp_ex (damped (1 / 5) st_ex) 3 = Ok (Some r, s)).
Proof.
  split; [exact aligned_ex|]. split; [exact numeric_ex|]. split; [exact (positive_greens_ex false None damp_wls)|].
  split; [apply wls_two_dof|]. split; [exact (weights_ex false None damp_wls)|]. split; [exact network_ex|]. split; [exact two_times_ex|].
  split; [reflexivity|]. split; [reflexivity|].
  assert (BU : exists a, build damp_ex st_ex = Ok (a, [], [])) by (eexists; reflexivity). destruct BU as (a & BU).
  split.
  - apply (run_damp st_ex aligned_ex a BU). intros g. exact (proj1 (damp_solve a g BU)).
  - apply (run_damp std_ex (damped_aligned (1 / 5) st_ex aligned_ex) a (eq_trans (damped_build (1 / 5) st_ex aligned_ex damp_ex) BU)).
    intros g. exact (proj2 (damp_solve a g BU)).
Qed.

Lemma damp_fixed_hyps : numeric st_ex /\ positive_greens fixed_ex st_ex /\
  (forall l h, l_b_bounds fixed_ex = Some (l, h) -> 1.01 * l < bt_ex + 1 / 5 < 0.99 * h) /\
  exists r s, invert_band (refixed fixed_ex (1 / 5) bt_ex) st_ex 3 = Ok (Some r, s).
Proof.
  split; [exact numeric_ex|]. split; [exact (positive_greens_ex true None fixed_wls)|].
  split; [intros l h [= <- <-]; unfold bt_ex; lra|]. exact fixed_run.
Qed.
