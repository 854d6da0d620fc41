(** Concrete cases for C135. *)
From Coq Require Import String List Bool Reals Lra Lia ZArith Arith.
From Verif Require Import Base Pyf PyfOps StatModel SmoothSpec RtSpec FbModel LsqfbModel LsqfbSpec LsqfbProof LsqfbProof2 LsqfbProof3 LsqfbProof4 LsqfbProof5 LsqfbEx GreenModel GreenSpec GreenEx GainSpec GainProof2 GainProof3 GainProof4 GainEx ShuffleSpec ShuffleProof5 ShuffleEx UnitSpec UnitProof UnitProof2 UnitProof3 UnitEx ClockSpec ClockProof ClockProof2 ClockProof3.
Import ListNotations.
Open Scope string_scope.
Open Scope list_scope.
Open Scope R_scope.

Definition lo_t : lopts :=
  {| l_coda_norm := false; l_fix := false; l_fix_sites := None;
     l_fix_params := None;
     l_R0 := 1; l_b_bounds := Some (1 / 100, 10); l_g0_bounds := Some (1 / 1000, 1);
     l_bulk := false; l_optimize := true; l_plot_optimization := false; l_num := 7;
     l_gcoda := coda_greens "rt3d" (Some 3) "flat" 1; l_gbulk := bulk_greens "rt3d" 50 1;
     l_wls := wls_two [ln 3; 1 / 10] [ln 3; 1 / 20];
     l_optim := Done (FNum (1 / 5)) |}.
Definition ot_t : lopts := in_time 2 (coda_greens "rt3d" (option_map (Rmult 2) (Some 3)) "flat" (1 / 2)) (bulk_greens "rt3d" 50 (1 / 2)) lo_t.

Lemma even_u sm : evenly_sampled sm st_u.
Proof. right. constructor; [|constructor]. exists 20, 1. exact spaced_green. Qed.

Lemma build_t : (exists rs, build lo_t st_u = Ok (map (map FNum) [[1; - (20)]; [1; - (21)]; [1; - (22)]; [1; - (23)]], [], rs)) /\
  (exists rs, build ot_t (retimed 2 st_u) = Ok (map (map FNum) [[1; - (2 * 20)]; [1; - (2 * 21)]; [1; - (2 * 22)]; [1; - (2 * 23)]], [], rs)).
Proof. destruct four_u as (a & b & c & d & _ & _ & _ & _ & -> & _). split; eexists; reflexivity. Qed.

Lemma greens_same o o2 st g ps : l_gcoda o = l_gcoda o2 -> l_gbulk o = l_gbulk o2 -> l_bulk o = l_bulk o2 ->
  forall ec tc, greens o st g ps ec tc = greens o2 st g ps ec tc.
Proof.
  intros E1 E2 E3. induction ps as [|p ps IH]; intros ec tc; [reflexivity|]. cbn [greens]. rewrite E1, E2, E3.
  destruct ec; [reflexivity|]. destruct (Nat.eqb _ 0); [reflexivity|]. destruct (dget _ _ p); [|reflexivity]. destruct tc; [reflexivity|]. now rewrite IH.
Qed.

Lemma solve_t : 
  (forall rs, exists f, solve_at lo_t st_u (map (map FNum) [[1; - (20)]; [1; - (21)]; [1; - (22)]; [1; - (23)]]) [] rs (FNum (1 / 5)) None false = Ok f /\ f_g0 f = FNum (1 / 5) /\ (f_b f = FNum (1 / 10) \/ f_b f = FNum (1 / 20))) /\
  (forall rs, exists f, solve_at ot_t (retimed 2 st_u) (map (map FNum) [[1; - (2 * 20)]; [1; - (2 * 21)]; [1; - (2 * 22)]; [1; - (2 * 23)]]) [] rs (FNum (1 / 5)) None false = Ok f /\ f_g0 f = FNum (1 / 5) /\ (f_b f = FNum (1 / 10) \/ f_b f = FNum (1 / 20))).
Proof.
  assert (R1 : rhs lo_t st_u (FNum (1 / 5)) None false [] = Ok (zs_u false 3)).
  { rewrite <- (proj1 (rhs_u false false (fun H => H))). unfold rhs. now rewrite (greens_same lo_t (lo_u false false) st_u). }
  assert (R2 : rhs ot_t (retimed 2 st_u) (FNum (1 / 5)) None false [] = Ok (zs_u false 3)).
  { pose proof (rhs_time 2 lo_t st_u "rt3d" "flat" (Some 3) 50 1 ltac:(lra) ltac:(cbn; auto) (even_u _) eq_refl eq_refl (FNum (1 / 5)) None false []) as E.
    change (o_time 2 lo_t "rt3d" "flat" (Some 3) 50 1) with ot_t in E. change (option_map (per_unit 2) None) with (@None pyf) in E. now rewrite E. }
  split; intros rs; unfold solve_at; [rewrite R1|rewrite R2]; cbn [bind]; unfold weights; cbn [ot_t in_time lo_t l_bulk l_wls l_fix l_coda_norm].
  - destruct (wls_two_ok [ln 3; 1 / 10] [ln 3; 1 / 20] (zs_u false 3) (map (map FNum) [[1; - (20)]; [1; - (21)]; [1; - (22)]; [1; - (23)]]) None [ln 3; 1 / 10]) as (c' & mse & W & L); auto.
    + eexists _, [_; _; _; _]. split; [reflexivity|]. split; [reflexivity|]. split; [discriminate|].
      split; [repeat (constructor; [reflexivity|]); constructor|]. split; [repeat (constructor; [cbn; field|]); constructor|exact I].
    + rewrite W. cbn [bind]. destruct (wls_two_which _ _ _ _ _ _ _ W) as [-> | ->]; cbn [map bind]; destruct (decode _ _ _ _ _); (eexists; split; [reflexivity|]; split; [reflexivity|]); [left|right]; reflexivity.
  - destruct (wls_two_ok [ln 3; 1 / 10] [ln 3; 1 / 20] (zs_u false 3) (map (map FNum) [[1; - (2 * 20)]; [1; - (2 * 21)]; [1; - (2 * 22)]; [1; - (2 * 23)]]) None [ln 3; 1 / 20]) as (c' & mse & W & L); auto.
    + eexists _, [_; _; _; _]. split; [reflexivity|]. split; [reflexivity|]. split; [discriminate|].
      split; [repeat (constructor; [reflexivity|]); constructor|]. split; [repeat (constructor; [cbn; field|]); constructor|exact I].
    + rewrite W. cbn [bind]. destruct (wls_two_which _ _ _ _ _ _ _ W) as [-> | ->]; cbn [map bind]; destruct (decode _ _ _ _ _); (eexists; split; [reflexivity|]; split; [reflexivity|]); [left|right]; reflexivity.
Qed.

Lemma runs_t : (exists r s, invert_band lo_t st_u 1 = Ok (Some r, s)) /\
  (exists r s, invert_band ot_t (retimed 2 st_u) (1 / 2) = Ok (Some r, s)).
Proof.
  destruct build_t as [(rs & B) (rs' & B')]. destruct solve_t as [S S']. destruct (S rs) as (f & S1 & FG & FB). destruct (S' rs') as (f' & S2 & FG' & FB').
  assert (NG : near_bounds (Some (1 / 1000, 1)) (FNum (1 / 5)) = false) by (apply near_bounds_spec; intros lo hi [= <- <-]; eexists; (split; [reflexivity|]); lra).
  split.
  - rewrite band_unfold by exact aligned_u. unfold choose. rewrite B. cbn [bind]. cbv zeta. change (l_fix lo_t) with false. change (negb (l_optimize lo_t)) with false. cbv iota.
    change (l_optim lo_t) with (Done (FNum (1 / 5))). cbn [minimize bind]. unfold lstsq. rewrite S1. cbn [bind]. rewrite FG.
    change (l_g0_bounds lo_t) with (Some (1 / 1000, 1)). rewrite NG.
    assert (N : near_bounds (l_b_bounds lo_t) (f_b f) = false).
    { apply near_bounds_spec. intros lo hi [= <- <-]. destruct FB as [-> | ->]; eexists; (split; [reflexivity|]); lra. }
    rewrite N. cbn [orb]. eauto.
  - rewrite band_unfold by exact (retimed_aligned 2 st_u aligned_u). unfold choose. rewrite B'. cbn [bind]. cbv zeta. change (l_fix ot_t) with false. change (negb (l_optimize ot_t)) with false. cbv iota.
    change (l_optim ot_t) with (Done (FNum (1 / 5))). cbn [minimize bind]. unfold lstsq. rewrite S2. cbn [bind]. rewrite FG'.
    change (l_g0_bounds ot_t) with (Some (1 / 1000, 1)). rewrite NG.
    assert (N : near_bounds (l_b_bounds ot_t) (f_b f') = false).
    { apply near_bounds_spec. intros lo hi [= <- <-]. destruct FB' as [-> | ->]; eexists; (split; [reflexivity|]); lra. }
    rewrite N. cbn [orb]. eauto.
Qed.

Lemma positive_t : positive_greens lo_t st_u.
Proof.
  refine (proj1 (builtin_greens lo_t st_u "rt3d" 3 "flat" 50 1 _ _ _ _ eq_refl eq_refl _ _)); [cbn; auto|lra|lia|cbn; auto| |].
  - intros r t (i & p & P & T & D). destruct i as [|[|i]]; cbn in P; try discriminate. injection P as <-.
    cbn in T. injection T as <-. cbn in D. injection D as <-. exists 20, 1, 3%Z.
    split; [lra|]. split; [cbn; lia|]. split; [exact spaced_green|]. split; [lra|]. split; [exact (nearest_green 3)|].
    split; [lia|]. change ((3 - 1) / 2)%Z with 1%Z. lra.
  - intros r w (p & P & D & W). discriminate W.
Qed.

Lemma time_hyps : aligned st_u /\ evenly_sampled (Some 3) st_u /\ numeric st_u /\ positive_greens lo_t st_u /\
  least_squares_full (l_wls lo_t) dof_1 /\ good_weights lo_t st_u /\ one_network st_u /\ two_times st_u.
Proof.
  split; [exact aligned_u|]. split; [exact (even_u _)|]. split; [exact numeric_u|].
  split; [exact positive_t|].
  split; [apply wls_two_full|]. split; [intros H; discriminate H|]. split; [exact network_u|exact times_u].
Qed.

Lemma fixed_t src : evenly_sampled (Some 3) st_u /\ aligned st_u /\ l_fix (lo_u true src) = true /\
  exists r s, invert_band (lo_u true src) st_u 1 = Ok (Some r, s).
Proof.
  split; [exact (even_u _)|]. split; [exact aligned_u|]. split; [reflexivity|]. exact (run_u true src st_u 3 (fun _ => eq_refl) (or_introl (conj eq_refl eq_refl))).
Qed.

Lemma ticks_t : 0 < 60 /\ In "rt3d" documented_types /\ evenly_spaced t_green 20 1 /\ exists a b c d, 0 < a /\
  coda_greens "rt3d" (Some 3) "flat" 1 10 t_green (FNum (1 / 5)) = Ok [FNum a; FNum b; FNum c; FNum d].
Proof. split; [lra|]. split; [cbn; auto|]. split; [exact spaced_green|]. exact (proj2 coda_u). Qed.
Lemma bulk_t : 0 < 60 /\ exists x, 0 < x /\ bulk_greens "rt3d" 50 1 10 (8, 12) (FNum (1 / 5)) = Ok (FNum x).
Proof. split; [lra|]. exact (proj2 bulk_u). Qed.
