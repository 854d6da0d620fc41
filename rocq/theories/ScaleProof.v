(** Lemmas on scaled curves. *)
From Coq Require Import String List Bool Reals Lra Lia Arith ZArith.
From Verif Require Import Base Pyf PyfOps RtModel RtSpec RtProof RtProof2 RtProof4 CmdModel CmdSpec CmdProof ScaleModel ScaleSpec.
Import ListNotations.
Open Scope R_scope.

Lemma fold_max l : forall x, In (fold_left Rmax l x) (x :: l) /\ forall y, In y (x :: l) -> y <= fold_left Rmax l x.
Proof.
  induction l as [|a l IH]; intros x; cbn [fold_left].
  - split; [now left|]. intros y [<-|[]]. lra.
  - destruct (IH (Rmax x a)) as [I M]. split.
    + destruct I as [I|I]; [|right; now right]. rewrite <- I. unfold Rmax. destruct (Rle_dec x a); [right; now left|now left].
    + intros y [<-|[<-|H]].
      * apply Rle_trans with (Rmax x a); [apply Rmax_l|apply M; now left].
      * apply Rle_trans with (Rmax x a); [apply Rmax_r|apply M; now left].
      * apply M. now right.
Qed.

(** a curve which is not negative and somewhere positive *)
Definition raised (pts : list (R * R)) : Prop :=
  (forall x g, In (x, g) pts -> 0 <= g) /\ exists x g, In (x, g) pts /\ 0 < g.

Lemma scaled_max pts : raised pts ->
  exists m, 0 < m /\ (exists x, In (x, m) pts) /\ (forall x g, In (x, g) pts -> g <= m) /\
    scale_points true pts = Ok (map (fun p => (fst p, FNum (snd p / m))) pts).
Proof.
  intros [_ (x0 & g0 & I0 & P0)]. unfold scale_points, np_max. destruct (map snd pts) as [|y l] eqn:E.
  - destruct pts; [destruct I0|discriminate].
  - destruct (fold_max l y) as [IM M]. rewrite <- E in IM, M. set (m := fold_left Rmax l y) in *.
    assert (Pm : 0 < m). { apply Rlt_le_trans with g0; [exact P0|]. apply M. apply (in_map snd) in I0. exact I0. }
    exists m. split; [exact Pm|]. split.
    { apply in_map_iff in IM. destruct IM as ([x g] & Eg & I). cbn in Eg. subst g. now exists x. }
    split; [intros x g I; apply M; apply (in_map snd) in I; exact I|].
    cbn [bind]. f_equal. apply map_ext. intros p. unfold fdiv. destruct (Req_EM_T m 0); [lra|reflexivity].
Qed.

Lemma scaled_unit pts : raised pts ->
  exists out, scale_points true pts = Ok out /\ proportional pts out /\ unit_curve out.
Proof.
  intros Rz. destruct (scaled_max pts Rz) as (m & Pm & (x1 & I1) & M & E). eexists. split; [exact E|]. split.
  - exists m. split; [exact Pm|]. clear -Pm. induction pts as [|p pts IH]; cbn [map]; constructor; [|exact IH].
    split; [reflexivity|]. eexists. split; [reflexivity|]. field. lra.
  - split.
    + intros x y I. apply in_map_iff in I. destruct I as ([x' g] & Eg & I). cbn in Eg. injection Eg as <- <-.
      exists (g / m). split; [reflexivity|]. pose proof (proj1 Rz _ _ I). pose proof (M _ _ I). split.
      * apply Rmult_le_pos; [lra|]. left. now apply Rinv_0_lt_compat.
      * apply Rmult_le_reg_r with m; [exact Pm|]. unfold Rdiv. rewrite Rmult_assoc, Rinv_l by lra. lra.
    + exists x1. apply in_map_iff. exists (x1, m). split; [|exact I1]. cbn. f_equal. f_equal. field. lra.
Qed.

Lemma max_scaled l k : forall x, 0 < k -> fold_left Rmax (map (fun g => g * k) l) (x * k) = fold_left Rmax l x * k.
Proof.
  induction l as [|a l IH]; intros x P; cbn [map fold_left]; [reflexivity|].
  replace (Rmax (x * k) (a * k)) with (Rmax x a * k); [now apply IH|].
  rewrite !(Rmult_comm _ k). rewrite RmaxRmult by lra. reflexivity.
Qed.

(** a factor common to all values is lost *)
Lemma scale_factor pts k : 0 < k ->
  scale_points true (map (fun p => (fst p, snd p * k)) pts) = scale_points true pts.
Proof.
  intros P. unfold scale_points. rewrite map_map. cbn [snd].
  rewrite <- (map_map snd (fun g => g * k)). unfold np_max. destruct (map snd pts) as [|y l]; cbn [map bind]; [reflexivity|].
  rewrite max_scaled by exact P. f_equal. rewrite map_map. apply map_ext. intros p. cbn [fst snd]. f_equal.
  generalize (fold_left Rmax l y). intros m. unfold fdiv.
  destruct (Req_EM_T (m * k) 0) as [Z|Z]; destruct (Req_EM_T m 0) as [Z'|Z'].
  - unfold finf. pose proof P.
    destruct (Rtotal_order (snd p) 0) as [L|[L|L]]; repeat match goal with |- context [Rlt_dec ?a ?b] => destruct (Rlt_dec a b) end; try reflexivity; exfalso; try nra.
  - exfalso. apply Rmult_integral in Z. destruct Z; lra.
  - exfalso. apply Z. rewrite Z'. ring.
  - f_equal. field. split; lra.
Qed.

Lemma direct_nonneg ty t c g0 : 0 < c -> 0 < t -> 0 <= direct_energy ty t c g0.
Proof.
  intros Pc Pt. assert (0 < c * t) by (now apply Rmult_lt_0_compat). pose proof PI_RGT_0. unfold direct_energy.
  repeat match goal with |- context [String.eqb ?a ?b] => destruct (String.eqb a b) end; try lra.
  - pose proof (exp_pos (- (c * t * g0) / 2)). lra.
  - left. apply Rdiv_lt_0_compat; [apply exp_pos|]. nra.
  - left. apply Rdiv_lt_0_compat; [apply exp_pos|]. assert (0 < (c * t) ^ 2) by (now apply pow_lt). nra.
Qed.

Lemma scalar_nonneg ty r t c g0 v :
  In ty documented_types -> 0 <= r -> 0 < c -> 0 < g0 -> t <> r / c -> G_scalar ty r t c g0 = Ok v -> 0 <= v.
Proof.
  intros D Pr Pc Pg N H. destruct (Rlt_dec t (r / c)) as [L|L].
  - rewrite (G_scalar_causal _ _ _ _ _ L) in H. injection H as <-. lra.
  - destruct (G_scalar_pos ty r t c g0 D Pr Pc Pg ltac:(lra)) as (v' & E & P). rewrite E in H. injection H as <-. lra.
Qed.

Lemma impulse_dec l x k : impulse_sample l x k \/ ~ impulse_sample l x k.
Proof.
  unfold impulse_sample. destruct (lt_dec 0 k); [|right; lia]. destruct (lt_dec k (length l)); [|right; lia].
  destruct (Rlt_dec (nth (k - 1) l 0) x); [|right; lra]. destruct (Rle_dec x (nth k l 0)); [|right; lra]. left. split; [lia|lra].
Qed.

Lemma beyond_dec l x k : first_beyond l x k \/ ~ first_beyond l x k.
Proof.
  unfold first_beyond. destruct (lt_dec 0 k); [|right; lia]. destruct (lt_dec k (length l)); [|right; lia].
  destruct (Rle_dec (nth (k - 1) l 0) x); [|right; lra]. destruct (Rlt_dec x (nth k l 0)); [|right; lra]. left. split; [lia|lra].
Qed.

(** the curve over time *)
Lemma time_raised c g0 r t N d ty :
  In ty documented_types -> 0 < c -> 0 < g0 -> 0 < r -> r / c + / 1000 < t -> (1 <= N)%nat ->
  exists pts, plot_t c g0 (Some r) (Some t) N d None ty = Ok pts /\ raised pts.
Proof.
  intros D Pc Pg Pr Ht HN. unfold plot_t.
  set (ts := plot_t_times c r t N).
  assert (Q : 0 < r / c) by (now apply Rdiv_lt_0_compat).
  assert (L : length ts = S (S N)) by apply plot_times_length.
  assert (T1 : nth 1 ts 0 = r / c) by apply plot_times_1.
  assert (F : nth 0 ts 0 < r / c) by (unfold ts; rewrite plot_times_0; lra).
  pose proof (plot_times_inc c r t N Pc Pr Ht) as Inc. fold ts in Inc.
  destruct (G_times_matches ty r ts c g0 d D Pc ltac:(lia) Inc F) as (gs & E & Lg & M).
  rewrite E. cbn [bind]. eexists. split; [reflexivity|]. split.
  - intros x g I. apply (combine_in_nth _ _ _ _ 0 0) in I; [|congruence]. destruct I as (k & Hk & <- & <-).
    destruct (impulse_dec ts (r / c) k) as [Im|Ni].
    + destruct (G_times_direct ty r ts c g0 d k D Pc Pg Pr ltac:(lia) Inc Im) as (gs' & E' & V).
      assert (gs' = gs) by congruence. subst gs'. rewrite V. destruct d; [|lra].
      pose proof (direct_nonneg ty (r / c) c g0 Pc Q). rewrite T1.
      apply Rmult_le_pos; [|left; now apply Rinv_0_lt_compat]. apply Rmult_le_pos; [assumption|]. left. apply Rinv_0_lt_compat. lra.
    + refine (scalar_nonneg ty r _ c g0 _ D (Rlt_le _ _ Pr) Pc Pg _ (M k Hk Ni)). intros X. apply Ni.
      destruct (Nat.eq_dec k 0) as [->|K0]; [lra|]. split; [lia|]. split; [|lra]. rewrite <- X. apply Inc. lia.
  - assert (T2 : r / c < nth 2 ts 0) by (rewrite <- T1; apply Inc; lia).
    destruct (G_scalar_pos ty r (nth 2 ts 0) c g0 D ltac:(lra) Pc Pg T2) as (v & Ev & Pv).
    assert (K2 : (2 < length ts)%nat) by lia.
    assert (Ni : ~ impulse_sample ts (r / c) 2) by (intros [_ X]; change (2 - 1)%nat with 1%nat in X; lra).
    rewrite (M 2%nat K2 Ni) in Ev. injection Ev as Ev.
    exists (nth 2 ts 0), (nth 2 gs 0). split; [|lra]. rewrite <- combine_nth by congruence. apply nth_In. rewrite combine_length. lia.
Qed.

(** the curve over distance *)
Lemma dist_raised c g0 r t N d ty :
  In ty documented_types -> 0 < c -> 0 < g0 -> 0 < r -> 0 < t -> (2 <= N)%nat ->
  (forall k, (k < N)%nat -> r * INR k / INR (N - 1) <> c * t) ->
  exists pts, plot_r c g0 (Some t) (Some r) N d None ty = Ok pts /\ raised pts.
Proof.
  intros D Pc Pg Pr Pt HN Nk. unfold plot_r. cbn [bind].
  set (rs := linspace0 r N).
  assert (L : length rs = N) by apply linspace0_length.
  pose proof (linspace0_inc r N Pr) as Inc. fold rs in Inc.
  assert (Pct : 0 < c * t) by (now apply Rmult_lt_0_compat).
  assert (F0 : nth 0 rs 0 = 0) by (apply linspace0_first; lia).
  assert (Pos : forall k, (k < N)%nat -> 0 <= nth k rs 0).
  { intros k Hk. destruct (Nat.eq_dec k 0) as [->|]; [lra|]. pose proof (Inc 0%nat k ltac:(lia)). lra. }
  destruct (G_dists_matches ty rs t c g0 d D Pc ltac:(lia) Inc ltac:(lra)) as (gs & E & Lg & M).
  rewrite E. cbn [bind]. eexists. split; [reflexivity|]. split.
  - intros x g I. apply (combine_in_nth _ _ _ _ 0 0) in I; [|congruence]. destruct I as (k & Hk & <- & <-).
    destruct (beyond_dec rs (c * t) k) as [Im|Ni].
    + destruct (G_dists_direct ty rs t c g0 d k D Pc Pg Pt ltac:(lia) Inc Im) as (gs' & E' & V).
      assert (gs' = gs) by congruence. subst gs'. rewrite V. destruct d; [|lra].
      pose proof (direct_nonneg ty t c g0 Pc Pt).
      apply Rmult_le_pos; [assumption|]. left. apply Rinv_0_lt_compat. pose proof (Inc 0%nat 1%nat ltac:(lia)). lra.
    + rewrite L in Hk. refine (scalar_nonneg ty _ t c g0 _ D (Pos k Hk) Pc Pg _ (M k ltac:(lia) Ni)). intros X. apply (Nk k Hk).
      transitivity (nth k rs 0).
      * unfold rs. rewrite linspace0_nth by exact Hk. unfold Rdiv. ring.
      * rewrite X. field. lra.
  - destruct (G_scalar_pos ty (nth 0 rs 0) t c g0 D ltac:(lra) Pc Pg) as (v & Ev & Pv).
    { rewrite F0. unfold Rdiv. rewrite Rmult_0_l. exact Pt. }
    assert (Ni : ~ first_beyond rs (c * t) 0) by (intros [X _]; lia).
    rewrite (M 0%nat ltac:(lia) Ni) in Ev. injection Ev as Ev.
    exists (nth 0 rs 0), (nth 0 gs 0). split; [|lra]. rewrite <- combine_nth by congruence. apply nth_In. rewrite combine_length. lia.
Qed.

Lemma raised_factor pts k : 0 < k -> raised pts -> raised (map (fun p => (fst p, snd p * k)) pts).
Proof.
  intros P [A (x & g & I & G)]. split.
  - intros x' y I'. apply in_map_iff in I'. destruct I' as ([x1 g1] & Eq & I1). cbn in Eq. injection Eq as <- <-.
    apply Rmult_le_pos; [exact (A _ _ I1)|lra].
  - exists x, (g * k). split; [|now apply Rmult_lt_0_compat]. apply in_map_iff. exists (x, g). split; [reflexivity|exact I].
Qed.

Lemma plot_r_factor c g0 r t N d la ty pts0 :
  plot_r c g0 (Some t) (Some r) N d None ty = Ok pts0 ->
  plot_r c g0 (Some t) (Some r) N d (Some la) ty = Ok (map (fun p => (fst p, snd p * exp (- c * t / la))) pts0).
Proof.
  unfold plot_r. cbn [bind]. destruct (G_dists _ _ _ _ _ _) as [G_|e]; cbn [bind]; [|discriminate].
  intros [= <-]. now rewrite combine_scale.
Qed.

Lemma time_scaled c g0 r t N d la ty :
  In ty documented_types -> 0 < c -> 0 < g0 -> 0 < r -> r / c + / 1000 < t -> (1 <= N)%nat ->
  exists pts out, plot_t c g0 (Some r) (Some t) N d la ty = Ok pts /\
    plot_t_shown c g0 (Some r) (Some t) N d la ty true = Ok out /\ proportional pts out /\ unit_curve out.
Proof.
  intros D Pc Pg Pr Ht HN. destruct (time_raised c g0 r t N d ty D Pc Pg Pr Ht HN) as (pts & E & Rz).
  unfold plot_t_shown. destruct la as [la|].
  - rewrite (plot_t_scaled _ _ _ _ _ _ la _ _ E). cbn [bind]. eexists.
    destruct (scaled_unit _ (raised_factor pts _ (exp_pos (- c * t / la)) Rz)) as (out & S1 & S2 & S3).
    exists out. split; [reflexivity|]. split; [exact S1|]. split; assumption.
  - rewrite E. cbn [bind]. destruct (scaled_unit _ Rz) as (out & S1 & S2 & S3). exists pts, out. repeat split; assumption || apply S3.
Qed.

Lemma dist_scaled c g0 r t N d la ty :
  In ty documented_types -> 0 < c -> 0 < g0 -> 0 < r -> 0 < t -> (2 <= N)%nat ->
  (forall k, (k < N)%nat -> r * INR k / INR (N - 1) <> c * t) ->
  exists pts out, plot_r c g0 (Some t) (Some r) N d la ty = Ok pts /\
    plot_r_shown c g0 (Some t) (Some r) N d la ty true = Ok out /\ proportional pts out /\ unit_curve out.
Proof.
  intros D Pc Pg Pr Ht HN Nk. destruct (dist_raised c g0 r t N d ty D Pc Pg Pr Ht HN Nk) as (pts & E & Rz).
  unfold plot_r_shown. destruct la as [la|].
  - rewrite (plot_r_factor _ _ _ _ _ _ la _ _ E). cbn [bind]. eexists.
    destruct (scaled_unit _ (raised_factor pts _ (exp_pos (- c * t / la)) Rz)) as (out & S1 & S2 & S3).
    exists out. split; [reflexivity|]. split; [exact S1|]. split; assumption.
  - rewrite E. cbn [bind]. destruct (scaled_unit _ Rz) as (out & S1 & S2 & S3). exists pts, out. repeat split; assumption || apply S3.
Qed.

(** the absorption is lost in scaled curves, also in those over time *)
Lemma time_absorption c g0 r t N d la ty :
  plot_t_shown c g0 r (Some t) N d (Some la) ty true = plot_t_shown c g0 r (Some t) N d None ty true.
Proof.
  unfold plot_t_shown. destruct (plot_t c g0 r (Some t) N d None ty) as [pts|e] eqn:E.
  - rewrite (plot_t_scaled _ _ _ _ _ _ la _ _ E). cbn [bind]. apply scale_factor. apply exp_pos.
  - unfold plot_t in *. destruct (G_times _ _ _ _ _ _); cbn [bind] in *; [discriminate|]. now injection E as ->.
Qed.

Lemma dist_absorption c g0 r t N d la ty :
  plot_r_shown c g0 (Some t) (Some r) N d (Some la) ty true = plot_r_shown c g0 (Some t) (Some r) N d None ty true.
Proof.
  unfold plot_r_shown. destruct (plot_r c g0 (Some t) (Some r) N d None ty) as [pts|e] eqn:E.
  - rewrite (plot_r_factor _ _ _ _ _ _ la _ _ E). cbn [bind]. apply scale_factor. apply exp_pos.
  - unfold plot_r in *. cbn [bind] in *. destruct (G_dists _ _ _ _ _ _); cbn [bind] in *; [discriminate|]. now injection E as ->.
Qed.

Lemma unscaled c g0 r t N d la ty :
  plot_t_shown c g0 r t N d la ty false = (do pts <- plot_t c g0 r t N d la ty; Ok (map (fun p => (fst p, FNum (snd p))) pts)) /\
  plot_r_shown c g0 t r N d la ty false = (do pts <- plot_r c g0 t r N d la ty; Ok (map (fun p => (fst p, FNum (snd p))) pts)).
Proof. split; reflexivity. Qed.

Lemma time_absorption_lost : exists c g0 r t N la ty out,
  0 < c /\ 0 < g0 /\ 0 < la /\ r / c + / 1000 < t /\ (2 <= N)%nat /\ In ty documented_types /\ unit_curve out /\
  plot_t_shown c g0 (Some r) (Some t) N false (Some la) ty true = Ok out /\
  plot_t_shown c g0 (Some r) (Some t) N false None ty true = Ok out.
Proof.
  assert (D : In "rt3d"%string documented_types) by (cbn; tauto).
  destruct (time_scaled 1 1 1 2 2 false None "rt3d" D ltac:(lra) ltac:(lra) ltac:(lra) ltac:(lra) ltac:(lia)) as (pts & out & _ & H & _ & U).
  exists 1, 1, 1, 2, 2%nat, 1, "rt3d"%string, out.
  repeat split; try lra; try lia; try exact D; try apply U; [|exact H]. rewrite time_absorption. exact H.
Qed.

(** three distances which do not hit the front *)
Lemma dist_points : forall k, (k < 3)%nat -> 3 * INR k / INR (3 - 1) <> 1 * 2.
Proof.
  intros k H. change (3 - 1)%nat with 2%nat. rewrite (INR_IZR_INZ 2). change (Z.of_nat 2) with 2%Z.
  destruct k as [|[|[|k]]]; [| | |lia]; rewrite ?(INR_IZR_INZ 1), ?(INR_IZR_INZ 2), ?(INR_IZR_INZ 0); cbn [Z.of_nat Pos.of_succ_nat Pos.succ]; lra.
Qed.
