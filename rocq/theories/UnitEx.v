(** Concrete cases for C134. *)
From Coq Require Import String List Bool Reals Lra Lia ZArith Arith.
From Verif Require Import Base Pyf PyfOps StatModel SmoothSpec RtSpec FbModel LsqfbModel LsqfbSpec LsqfbProof LsqfbProof2 LsqfbProof3 LsqfbProof4 LsqfbProof5 LsqfbEx GreenModel GreenSpec GreenEx GainSpec GainProof2 GainProof3 GainProof4 GainEx ShuffleSpec ShuffleProof5 UnitSpec UnitProof UnitProof2 UnitProof3.
Import ListNotations.
Open Scope string_scope.
Open Scope list_scope.
Open Scope R_scope.

(** the smoothed Green's function of one pair *)
Definition ys_u : list R := match Gsmooth (G_plugin "rt3d") 10 t_green 1 (1 / 5) (Some 3) "flat" with Ok l => l | Err _ => [] end.
Lemma ys_four : exists a b c d, ys_u = [a; b; c; d] /\ 0 < a /\ 0 < b /\ 0 < c /\ 0 < d /\
  Gsmooth (G_plugin "rt3d") 10 t_green 1 (1 / 5) (Some 3) "flat" = Ok [a; b; c; d].
Proof.
  destruct (coda_positive "rt3d" 10 t_green 20 1 3 3 1 (1 / 5) "flat") as (gs & E & L & P).
  1-11: cbn; auto; try lra; try lia.
  - exact spaced_green.
  - exact (nearest_green 3).
  - unfold ys_u. rewrite E. destruct gs as [|a [|b [|c [|d [|e gs]]]]]; try discriminate L. exists a, b, c, d.
    split; [reflexivity|]. split; [exact (P 0%nat ltac:(cbn; lia))|]. split; [exact (P 1%nat ltac:(cbn; lia))|].
    split; [exact (P 2%nat ltac:(cbn; lia))|]. split; [exact (P 3%nat ltac:(cbn; lia))|]. reflexivity.
Qed.

Definition energy_u (yt : R * R) : pyf := FNum (3 * 1 * fst yt * exp (- (1 / 10 * snd yt))).
Definition st_u : wstate :=
  {| w_energies := [tr_ex 1 "e1" "A"]; w_distances := [(("e1", "A"), 10)];
     w_tcoda := [t_green]; w_tbulk := []; w_tbulk_window := []; w_weights := [];
     w_ebulk := []; w_ecoda := [map energy_u (combine ys_u t_green)] |}.
Definition sites_u (src : bool) : option (list (string * pyf)) := if src then Some [("A", FNum 1)] else None.
Definition lo_u (fx src : bool) : lopts :=
  {| l_coda_norm := false; l_fix := fx; l_fix_sites := sites_u src;
     l_fix_params := Some (Some (FNum (1 / 5)), Some (FNum (1 / 10)));
     l_R0 := 1; l_b_bounds := Some (1 / 100, 10); l_g0_bounds := Some (1 / 1000, 1);
     l_bulk := false; l_optimize := true; l_plot_optimization := false; l_num := 7;
     l_gcoda := coda_greens "rt3d" (Some 3) "flat" 1; l_gbulk := bulk_greens "rt3d" 50 1;
     l_wls := if fx then wls_two [ln 3] [ln 24] else wls_two [ln 3; 1 / 10] [ln 24; 1 / 10];
     l_optim := Done (FNum (1 / 5)) |}.
Definition st_u8 : wstate := gained (fun _ => 2 ^ 3) (fun _ => 1) st_u.

Lemma four_u : exists a b c d, 0 < a /\ 0 < b /\ 0 < c /\ 0 < d /\
  st_u = {| w_energies := [tr_ex 1 "e1" "A"]; w_distances := [(("e1", "A"), 10)];
     w_tcoda := [t_green]; w_tbulk := []; w_tbulk_window := []; w_weights := [];
     w_ebulk := []; w_ecoda := [[energy_u (a, 20); energy_u (b, 21); energy_u (c, 22); energy_u (d, 23)]] |} /\
  Gsmooth (G_plugin "rt3d") 10 t_green 1 (1 / 5) (Some 3) "flat" = Ok [a; b; c; d].
Proof.
  destruct ys_four as (a & b & c & d & E & A & B & C & D & G). exists a, b, c, d. repeat (split; [assumption|]). split; [|exact G].
  unfold st_u. rewrite E. reflexivity.
Qed.

Lemma aligned_u : aligned st_u.
Proof.
  destruct four_u as (a & b & c & d & _ & _ & _ & _ & -> & _). unfold aligned. split; [discriminate|]. split; [reflexivity|].
  split; [constructor; [reflexivity|constructor]|]. split; [reflexivity|now left].
Qed.
Lemma numeric_u : numeric st_u.
Proof.
  destruct four_u as (a & b & c & d & A & B & C & D & -> & _). unfold numeric.
  repeat (apply Forall_cons; [eexists _, _; split; [reflexivity|]; repeat apply Rmult_lt_0_compat; try lra; try assumption; apply exp_pos|]). apply Forall_nil.
Qed.
Lemma network_u : one_network st_u.
Proof. intros s1 s2 [<-|[]] [<-|[]]. constructor. Qed.
Lemma times_u : two_times st_u.
Proof.
  destruct four_u as (a & b & c & d & _ & _ & _ & _ & -> & _). exists ("e1", "A"), 20, 21. do 2 eexists. split; [lra|].
  split; [left; reflexivity|right; left; reflexivity].
Qed.
Lemma positive_u fx src : positive_greens (lo_u fx src) st_u.
Proof.
  refine (proj1 (builtin_greens (lo_u fx src) st_u "rt3d" 3 "flat" 50 1 _ _ _ _ eq_refl eq_refl _ _)); [cbn; auto|lra|lia|cbn; auto| |].
  - intros r t (i & p & P & T & D). destruct i as [|[|i]]; cbn in P; try discriminate. injection P as <-.
    cbn in T. injection T as <-. cbn in D. injection D as <-. exists 20, 1, 3%Z.
    split; [lra|]. split; [cbn; lia|]. split; [exact spaced_green|]. split; [lra|]. split; [exact (nearest_green 3)|].
    split; [lia|]. change ((3 - 1) / 2)%Z with 1%Z. lra.
  - intros r w (p & P & D & W). discriminate W.
Qed.

(** the right hand side for a factor of the energies *)
Lemma log_u F g t : 0 < F -> 0 < g -> fsub (flog (FNum (F * 1 * g * exp (- (1 / 10 * t))))) (flog (FNum g)) = FNum (ln F - 1 / 10 * t).
Proof.
  intros HF G. pose proof (exp_pos (- (1 / 10 * t))) as E. rewrite !flog_num; [|exact G|repeat apply Rmult_lt_0_compat; lra].
  cbn. f_equal. rewrite !ln_mult by (repeat apply Rmult_lt_0_compat; lra). rewrite ln_exp, ln_1. ring.
Qed.

Lemma gain_u g t : fmul (FNum (2 ^ 3 * 1)) (energy_u (g, t)) = FNum (24 * 1 * g * exp (- (1 / 10 * t))).
Proof. cbn [fmul energy_u fst snd]. f_equal. ring. Qed.

Definition zs_u (fx : bool) (F : R) : list pyf :=
  map FNum (if fx then [ln F; ln F; ln F; ln F] else [ln F - 1 / 10 * 20; ln F - 1 / 10 * 21; ln F - 1 / 10 * 22; ln F - 1 / 10 * 23]).

Definition bs_u (src : bool) : list pyf := if src then [FNum (ln 1); FNum (ln 1); FNum (ln 1); FNum (ln 1)] else [].
Definition bf_u (fx : bool) : option pyf := if fx then Some (FNum (1 / 10)) else None.

Lemma rhs_u fx src : (src = true -> fx = true) ->
  rhs (lo_u fx src) st_u (FNum (1 / 5)) (bf_u fx) src (bs_u src) = Ok (zs_u fx 3) /\
  rhs (lo_u fx src) st_u8 (FNum (1 / 5)) (bf_u fx) src (bs_u src) = Ok (zs_u fx 24).
Proof.
  intros SF. destruct four_u as (a & b & c & d & A & B & C & D & E & G). unfold st_u8. rewrite E.
  assert (GR : forall st, pairs st = [("e1", "A")] -> w_distances st = [(("e1", "A"), 10)] -> forall e1 e2 e3 e4,
    greens (lo_u fx src) st (FNum (1 / 5)) [("e1", "A")] [[e1; e2; e3; e4]] [t_green] = Ok ([map FNum [a; b; c; d]], [])).
  { intros st P Q e1 e2 e3 e4. cbn [greens List.length Nat.eqb]. rewrite Q. cbn [dget pair_eqb String.eqb Ascii.eqb Bool.eqb andb fst snd].
    cbn [lo_u l_gcoda l_bulk coda_greens]. rewrite G. reflexivity. }
  assert (K : forall F st, 0 < F -> pairs st = [("e1", "A")] -> w_distances st = [(("e1", "A"), 10)] -> w_tcoda st = [t_green] ->
    w_tbulk st = [] -> w_ebulk st = [] ->
    w_ecoda st = [[FNum (F * 1 * a * exp (- (1 / 10 * 20))); FNum (F * 1 * b * exp (- (1 / 10 * 21)));
                   FNum (F * 1 * c * exp (- (1 / 10 * 22))); FNum (F * 1 * d * exp (- (1 / 10 * 23)))]] ->
    rhs (lo_u fx src) st (FNum (1 / 5)) (bf_u fx) src (bs_u src) = Ok (zs_u fx F)).
  { intros F st HF EP ED ET EB EE EC. unfold rhs. rewrite EP, ET, EC, GR by assumption. cbn [bind]. rewrite EE.
    cbn [concat app map zip_op bind]. rewrite !log_u by assumption. unfold times. rewrite ET, EB. destruct fx.
    - unfold bf_u, nonzero. destruct (Req_EM_T (1 / 10) 0); [lra|]. cbn [bind concat app map t_green zip_op fmul fadd].
      unfold zs_u. destruct src.
      + cbn [bs_u zip_op bind fsub fneg fadd map]. rewrite ln_1. do 2 f_equal; [f_equal; ring|]. f_equal; [f_equal; ring|]. f_equal; [f_equal; ring|]. f_equal. f_equal; ring.
      + cbn [map]. do 2 f_equal; [f_equal; ring|]. f_equal; [f_equal; ring|]. f_equal; [f_equal; ring|]. f_equal. f_equal; ring.
    - destruct src; [discriminate SF; reflexivity|]. reflexivity. }
  split.
  - apply K; try reflexivity. lra.
  - apply K; try reflexivity; [lra|]. cbn [gained w_ecoda pairs w_energies map combine fst snd]. rewrite !gain_u. reflexivity.
Qed.

Definition rows_u (fx : bool) : list (list R) := if fx then [[1]; [1]; [1]; [1]] else [[1; - (20)]; [1; - (21)]; [1; - (22)]; [1; - (23)]].
Lemma build_u fx src : (src = true -> fx = true) -> exists rs, build (lo_u fx src) st_u = Ok (map (map FNum) (rows_u fx), bs_u src, rs).
Proof.
  intros SF. destruct four_u as (a & b & c & d & _ & _ & _ & _ & -> & _). destruct src.
  - rewrite (SF eq_refl). assert (L : flog (FNum 1) = FNum (ln 1)) by (apply flog_num; lra).
    unfold build. cbn [lo_u l_coda_norm l_fix_sites sites_u]. unfold block_lengths. cbn [w_ecoda w_ebulk map List.length app seq].
    cbn [mapM]. unfold row_fix_sites, pair_at. cbn [pairs w_energies map get_pair]. cbn. unfold rows_u, bs_u. cbn [map]. rewrite <- L.
    cbn [flog]. destruct (Rlt_dec 0 1); [|lra]. cbn. eexists. reflexivity.
  - destruct fx; eexists; reflexivity.
Qed.

Lemma wls_two_which c1 c2 z a ws c mse : wls_two c1 c2 z a ws = Ok (map FNum c, mse) -> c = c1 \/ c = c2.
Proof.
  unfold wls_two, wls_ex. destruct (ClassicalDescription.excluded_middle_informative _).
  - intros [= E _]. apply FNum_inj in E. auto.
  - destruct (ClassicalDescription.excluded_middle_informative _); [|discriminate]. intros [= E _]. apply FNum_inj in E. auto.
Qed.

Lemma solve_u fx src rs st F : (src = true -> fx = true) -> (st = st_u /\ F = 3 \/ st = st_u8 /\ F = 24) ->
  exists f, solve_at (lo_u fx src) st (map (map FNum) (rows_u fx)) (bs_u src) rs (FNum (1 / 5)) (bf_u fx) src = Ok f /\ f_g0 f = FNum (1 / 5) /\ f_b f = FNum (1 / 10).
Proof.
  intros SF H. assert (RH : rhs (lo_u fx src) st (FNum (1 / 5)) (bf_u fx) src (bs_u src) = Ok (zs_u fx F)).
  { destruct (rhs_u fx src SF) as [R1 R2]. destruct H as [[-> ->]|[-> ->]]; assumption. }
  assert (HF : F = 3 \/ F = 24) by tauto.
  unfold solve_at. rewrite RH. cbn [bind]. unfold weights. cbn [lo_u l_bulk l_wls l_fix l_coda_norm].
  destruct fx.
  - destruct (wls_two_ok [ln 3] [ln 24] (zs_u true F) (map (map FNum) (rows_u true)) None [ln F]) as (c' & mse & W & _).
    + destruct HF as [-> | ->]; auto.
    + reflexivity.
    + exists (rows_u true), [ln F; ln F; ln F; ln F]. split; [reflexivity|]. split; [reflexivity|]. split; [discriminate|].
      split; [repeat (constructor; [reflexivity|]); constructor|]. split; [repeat (constructor; [cbn; ring|]); constructor|exact I].
    + rewrite W. cbn [bind bf_u]. destruct (decode _ _ _ _ _). eexists. split; [reflexivity|]. split; reflexivity.
  - destruct src; [discriminate SF; reflexivity|].
    destruct (wls_two_ok [ln 3; 1 / 10] [ln 24; 1 / 10] (zs_u false F) (map (map FNum) (rows_u false)) None [ln F; 1 / 10]) as (c' & mse & W & L).
    + destruct HF as [-> | ->]; auto.
    + reflexivity.
    + eexists (rows_u false), [_; _; _; _]. split; [reflexivity|]. split; [reflexivity|]. split; [discriminate|].
      split; [repeat (constructor; [reflexivity|]); constructor|]. split; [repeat (constructor; [cbn; ring|]); constructor|exact I].
    + rewrite W. cbn [bind]. destruct (wls_two_which _ _ _ _ _ _ _ W) as [-> | ->]; cbn [map bind]; destruct (decode _ _ _ _ _); (eexists; split; [reflexivity|]; split; reflexivity).
Qed.

Lemma near_u fx src : near_bounds (l_b_bounds (lo_u fx src)) (FNum (1 / 10)) = false /\ near_bounds (l_g0_bounds (lo_u fx src)) (FNum (1 / 5)) = false.
Proof. split; apply near_bounds_spec; intros lo hi [= <- <-]; eexists; (split; [reflexivity|]); lra. Qed.

Lemma run_u fx src st F : (src = true -> fx = true) -> (st = st_u /\ F = 3 \/ st = st_u8 /\ F = 24) ->
  exists r s, invert_band (lo_u fx src) st 1 = Ok (Some r, s).
Proof.
  intros SF H. destruct (build_u fx src SF) as (rs & BU).
  assert (BU' : build (lo_u fx src) st = Ok (map (map FNum) (rows_u fx), bs_u src, rs)).
  { destruct H as [[-> _]|[-> _]]; [exact BU|]. exact (eq_trans (gained_build _ _ (lo_u fx src) st_u aligned_u) BU). }
  assert (AL : aligned st) by (destruct H as [[-> _]|[-> _]]; [exact aligned_u|exact (gained_aligned _ _ _ aligned_u)]).
  destruct (solve_u fx src rs st F SF H) as (f & S & FG & FB). rewrite band_unfold by exact AL.
  assert (C : exists s, choose (lo_u fx src) st = Ok (Some (s, f))).
  { unfold choose. rewrite BU'. cbn [bind]. cbv zeta.
    assert (FS : match l_fix_sites (lo_u fx src) with None => false | Some _ => true end = src) by (destruct src; reflexivity).
    rewrite FS. change (l_fix (lo_u fx src)) with fx. destruct fx.
    - change (l_fix_params (lo_u true src)) with (Some (Some (FNum (1 / 5)), Some (FNum (1 / 10)))). cbv iota. unfold lstsq.
      change (Some (FNum (1 / 10))) with (bf_u true). rewrite S. cbn [bind snd]. rewrite FG, FB.
      rewrite !(proj2 (feqb_num _ _) eq_refl). cbn [andb]. eauto.
    - destruct src; [discriminate SF; reflexivity|]. change (negb (l_optimize (lo_u false false))) with false. cbv iota.
      change (l_optim (lo_u false false)) with (Done (FNum (1 / 5))). cbn [minimize bind]. unfold lstsq.
      change (@None pyf) with (bf_u false). rewrite S. cbn [bind]. eauto. }
  destruct C as (s & ->). cbn [bind]. rewrite FG, FB. destruct (near_u fx src) as [-> ->]. cbn [orb]. eauto.
Qed.

(** all conditions and both runs *)
Definition ou_u (fx src : bool) : lopts := in_unit 2 (coda_greens "rt3d" (Some 3) "flat" (2 * 1)) (bulk_greens "rt3d" 50 (2 * 1)) (lo_u fx src).
Lemma both_u fx src : (src = true -> fx = true) ->
  (exists r s, invert_band (lo_u fx src) st_u 1 = Ok (Some r, s)) /\
  (exists r s, invert_band (ou_u fx src) (stretched 2 st_u) (2 * 1) = Ok (Some r, s)).
Proof.
  intros SF. split; [exact (run_u fx src st_u 3 SF (or_introl (conj eq_refl eq_refl)))|].
  destruct (run_u fx src st_u8 24 SF (or_intror (conj eq_refl eq_refl))) as (r & s & H).
  pose proof (invert_unit 2 (lo_u fx src) st_u "rt3d" "flat" (Some 3) 50 1 ltac:(lra) ltac:(cbn; auto) aligned_u eq_refl eq_refl 1) as E.
  change (st_gain 2 st_u "rt3d") with st_u8 in E. rewrite H in E. cbn [bind option_map fst snd] in E. eauto.
Qed.

Lemma unit_hyps fx src : aligned st_u /\ numeric st_u /\ least_squares_dof (l_wls (lo_u fx src)) dof_one /\
  good_weights (lo_u fx src) st_u /\ positive_greens (lo_u fx src) st_u /\ one_network st_u /\ two_times st_u.
Proof.
  split; [exact aligned_u|]. split; [exact numeric_u|]. split; [destruct fx; apply wls_two_dof|].
  split; [intros H; discriminate H|]. split; [apply positive_u|]. split; [exact network_u|exact times_u].
Qed.
Lemma params_u x : In x (map snd (pairs st_u)) -> exists v, 0 < v /\ dget String.eqb [("A", FNum 1)] x = Some (FNum v).
Proof. intros [<-|[]]. exists 1. split; [lra|reflexivity]. Qed.

Lemma coda_u : 0 < 2 /\ exists a b c d, 0 < a /\
  coda_greens "rt3d" (Some 3) "flat" 1 10 t_green (FNum (1 / 5)) = Ok [FNum a; FNum b; FNum c; FNum d].
Proof.
  split; [lra|]. destruct ys_four as (a & b & c & d & _ & A & _ & _ & _ & G). exists a, b, c, d. split; [exact A|].
  unfold coda_greens. now rewrite G.
Qed.
Lemma bulk_u : 0 < 2 /\ exists x, 0 < x /\ bulk_greens "rt3d" 50 1 10 (8, 12) (FNum (1 / 5)) = Ok (FNum x).
Proof.
  split; [lra|]. destruct bulk_ex as (_ & _ & _ & _ & _ & _ & _ & g & GV).
  destruct (GreenProof2.bulk_used "rt3d" 10 8 12 50 1 (1 / 5) g ltac:(cbn; auto) ltac:(lra) ltac:(lra) ltac:(lra) ltac:(lia) ltac:(lra) ltac:(lra) GV)
    as (k & x & E & _). exists x. split; [|exact E].
  destruct (bulk_positive "rt3d" 10 8 12 50 1 (1 / 5) (FNum x) ltac:(cbn; auto) ltac:(lra) ltac:(lra) ltac:(lra) ltac:(lia) ltac:(lra) ltac:(lra) E) as (y & [= ->] & P).
  exact P.
Qed.
