(** Proofs about the curves: the misfit, the times and the limits in plot_fits. *)
From Coq Require Import String List Bool Reals Lra Lia ZArith Arith Sorted.
From Verif Require Import Base Pyf PyfOps FbModel LsqfbModel LsqfbSpec LsqfbProof LsqfbProof2 LsqfbProof3 LsqfbProof4 CurveModel CurveSpec CurveProof CurveProof2 CurveProof3 CurveProof4.
Import ListNotations.
Open Scope string_scope.
Open Scope list_scope.
Open Scope R_scope.

Lemma dget_value keys vals : NoDup keys -> forall k x, value keys vals k x -> dget String.eqb (combine keys vals) k = Some (FNum x).
Proof.
  intros ND. revert vals. induction ND as [|k0 keys NI ND IH]; intros vals k x (i & H1 & H2); [now destruct i|].
  destruct vals as [|v vals]; [destruct i; discriminate|]. destruct i as [|i]; cbn in H1, H2 |- *.
  - injection H1 as ->. injection H2 as ->. now rewrite String.eqb_refl.
  - destruct (String.eqb k k0) eqn:E.
    + apply String.eqb_eq in E. subst k0. exfalso. apply NI. exact (nth_error_In _ _ H1).
    + apply IH. exists i. auto.
Qed.

Lemma fits_misfit o st g0 a bs rs gc gb f err G un v0 sm evs stas xlim ylim ps xl yl :
  aligned st -> least_squares (l_wls o) -> good_weights o st ->
  l_coda_norm o = false -> l_fix_sites o = None -> l_fix o = false -> 0 < l_R0 o ->
  build o st = Ok (a, bs, rs) -> greens o st g0 (pairs st) (w_ecoda st) (w_tcoda st) = Ok (gc, gb) -> good_band st gc gb ->
  solve_at o st a bs rs g0 None false = Ok f -> f_err f = FNum err ->
  in_order (map fst (pairs st)) evs -> in_order (map snd (pairs st)) stas ->
  plot_fits G un (w_energies st) g0 (Some (f_b f)) (combine evs (f_W f)) (combine stas (f_R f)) v0 (band_info st gc gb) sm xlim ylim
    = Ok (ps, xl, yl) ->
  exists qs ds, ps = map Some qs /\ List.length qs = List.length (pairs st) /\
    Forall (fun q => List.length (n_coda q) = List.length (n_coda_model q)) qs /\
    Forall2 (fun om d => exists t e y, om = ((FNum t, FNum e), (FNum t, FNum y)) /\ 0 < e /\ 0 < y /\ d = ln e - ln y) (drawn qs) ds /\
    rms (sample_weights (l_bulk o) st) ds err.
Proof.
  intros AL LS WP CN FS FX R0 BU GR GB SO ER OE OS PF.
  apply in_order_unique in OE. apply in_order_unique in OS.
  assert (NE1 : NoDup evs) by (subst evs; exact (proj1 (fromkeys_spec (map fst (pairs st))))).
  assert (NE2 : NoDup stas) by (subst stas; exact (proj1 (fromkeys_spec (map snd (pairs st))))).
  destruct (solution_shape o st g0 a bs rs gc gb AL LS WP BU GR GB CN FS FX R0 f SO) as (b & ds & m & EB & _ & LW & LR & EE & LG & F & dof & DP & EM).
  assert (NE := ecoda_nonempty o st g0 gc gb AL GR).
  assert (BL : List.length gb = List.length (w_ebulk st)).
  { rewrite (samples_length st AL) in LG. rewrite !app_length in LG. destruct GB as (_ & _ & _ & _ & _ & GL).
    assert (CL : List.length (concat gc) = List.length (concat (w_ecoda st))).
    { clear - GL. induction GL as [|e g l m H F IH]; cbn; [reflexivity|]. rewrite !app_length. lia. }
    lia. }
  assert (PV : forall p, In p (pairs st) -> exists r w, value (stations st) (f_R f) (snd p) r /\ value (eventids st) (f_W f) (fst p) w /\ 0 < r /\ 0 < w).
  { intros p I. destruct (pair_has_sample st AL p NE I) as (te & IS).
    assert (I2 : exists g, In ((p, te), g) (combine (samples st) (concat gc ++ gb))).
    { destruct (In_nth_error _ _ IS) as (i & Hi). destruct (nth_error_exists (concat gc ++ gb) i) as (g & Hg).
      { rewrite LG. apply nth_error_Some. congruence. }
      exists g. apply (nth_error_In _ i). now apply nth_error_combine_. }
    destruct I2 as (g & I2). assert (K : exists d, resid st f b ((p, te), g) d).
    { clear - F I2. induction F as [|x d l m H F IH]; [destruct I2|]. destruct I2 as [->|I2]; eauto. }
    destruct K as (d & t & e & g' & r & w & _ & _ & _ & _ & V1 & V2 & P1 & P2 & _). exists r, w. auto. }
  rewrite EB in PF.
  assert (DV : forall p, In p (pairs st) -> exists r w, dget String.eqb (combine stas (f_R f)) (snd p) = Some (FNum r) /\
    dget String.eqb (combine evs (f_W f)) (fst p) = Some (FNum w) /\ 0 < r /\ 0 < w).
  { intros p I. destruct (PV p I) as (r & w & V1 & V2 & P1 & P2). exists r, w. subst evs stas. repeat split; auto using dget_value. }
  destruct (fits_shown st gc gb _ _ b G un g0 v0 sm AL GB BL DV _ _ _ _ _ PF) as (qs & EQ & LQ & FL & FD).
  exists qs, ds. split; [exact EQ|]. split; [exact LQ|]. split; [exact FL|]. split.
  - pose proof (Forall2_trans_ _ _ _ _ _ FD F) as K. eapply Forall2_impl_in; [|exact K].
    intros [p1 p2] d _ _ (sg & _ & (t & e & g & r & w & y & H1 & H2 & EP & GP & V1 & V2 & RP & WPos & O1 & O2 & HY) & (t' & e' & g' & r' & w' & G1 & G2 & _ & _ & U1 & U2 & _ & _ & ->)).
    cbn [fst snd] in O1, O2. subst p1 p2.
    rewrite H1 in G1. injection G1 as <- <-. rewrite H2 in G2. injection G2 as <-.
    assert (R1 : r' = r). { subst stas. apply (dget_value _ _ NE2) in U1. unfold stations in *. congruence. }
    assert (R2 : w' = w). { subst evs. apply (dget_value _ _ NE1) in U2. unfold eventids in *. congruence. }
    subst r' w'. exists t, e, y. split; [reflexivity|]. split; [exact EP|].
    assert (P1 : 0 < r * w * g). { apply Rmult_lt_0_compat; [now apply Rmult_lt_0_compat|exact GP]. }
    assert (P2 := exp_pos (- (b * t))). split; [subst y; now apply Rmult_lt_0_compat|].
    subst y. rewrite ln_mult, ln_mult, ln_mult, ln_exp; auto using Rmult_lt_0_compat. lra.
  - unfold rms. rewrite ER in EE. destruct EE as [EE|EE]; [discriminate|]. cbn in EE. destruct (Rlt_dec m 0) as [|NN]; [discriminate|].
    injection EE as ->. split; [apply sqrt_pos|]. exists dof. split; [exact DP|]. rewrite sqrt_sqrt by lra. exact EM.
Qed.

(** ** Times and the modelled curve *)
Lemma fit_time_nth e v0 k : (k < List.length (edata e))%nat ->
  nth_error (fit_times e v0) k = Some (seconds (estart e + Z.of_nat k * edelta e) (esonset e) + edist e / v0).
Proof.
  intros H. unfold fit_times. rewrite nth_error_map, nth_seq by exact H. cbn [option_map]. f_equal.
  unfold seconds, secs. replace (10 ^ 9) with 1000000000 by lra. rewrite INR_IZR_INZ, !minus_IZR, plus_IZR, mult_IZR. unfold Rdiv. ring.
Qed.

Lemma plot_fits_inv G un es g0 b W Rs v0 x sm xlim ylim ps xl yl :
  plot_fits G un es g0 b W Rs v0 x sm xlim ylim = Ok (ps, xl, yl) ->
  exists rs, mapM (fit_panel G un es g0 (match b with None => FNum 0 | Some b => b end) W Rs v0 x sm) (seq 0 (List.length es)) = Ok rs /\
    ps = map (option_map fst) rs.
Proof.
  unfold plot_fits. cbn zeta. destruct es as [|e0 es]; [discriminate|]. intros H.
  apply bind_ok in H. destruct H as (rs & EM & H). apply bind_ok in H. destruct H as (xl' & _ & H). apply bind_ok in H. destruct H as (yl' & _ & H).
  injection H as <- _ _. eauto.
Qed.

Lemma model_curve_nth r w b g : forall t m, model_curve r w b g t = Ok m -> List.length g = List.length t /\
  forall k y, nth_error m k = Some y -> exists g1 t1, nth_error g k = Some g1 /\ nth_error t k = Some t1 /\ y = get_Emod r w b g1 t1.
Proof.
  unfold model_curve. induction g as [|g0 g IH]; intros [|t0 t] m H; cbn in H; try discriminate.
  - injection H as <-. split; [reflexivity|]. intros [|k] y K; discriminate.
  - apply bind_ok in H. destruct H as (m' & E & H). injection H as <-. destruct (IH _ _ E) as [L K]. split; [cbn; lia|].
    intros [|k] y N; cbn in N |- *; [injection N as <-; eauto|eauto].
Qed.

Lemma clip_num y : clip_low (FNum y) = FNum (Rmax y (1 / 10 ^ 30)).
Proof.
  unfold clip_low. cbn [fltb]. destruct (rltb y (1 / 10 ^ 30)) eqn:E.
  - apply rltb_true in E. rewrite Rmax_right; [reflexivity|lra].
  - apply rltb_false in E. rewrite Rmax_left; [reflexivity|lra].
Qed.

Lemma nth_combine_times e v0 (l : list pyf) k y : List.length l = List.length (edata e) -> nth_error l k = Some y ->
  nth_error (combine (map FNum (fit_times e v0)) l) k =
  Some (FNum (seconds (estart e + Z.of_nat k * edelta e) (esonset e) + edist e / v0), y).
Proof.
  intros L H. apply nth_error_combine_. split; [|exact H]. rewrite nth_error_map, fit_time_nth; [reflexivity|].
  rewrite <- L. apply nth_error_Some. congruence.
Qed.

Lemma fits_panels G un es g0 b W Rs v0 x sm xlim ylim ps xl yl :
  plot_fits G un es g0 (Some (FNum b)) W Rs v0 x sm xlim ylim = Ok (ps, xl, yl) ->
  List.length ps = List.length es /\
  forall i e r, nth_error es i = Some e -> dget String.eqb Rs (sta e) = Some r ->
    (r = FNan /\ nth_error ps i = Some None) \/
    (r <> FNan /\ exists q g, nth_error ps i = Some (Some q) /\
       List.length (n_data q) = List.length (edata e) /\ List.length (n_model q) = List.length (edata e) /\
       (forall k y, nth_error (edata e) k = Some y ->
          nth_error (n_data q) k = Some (FNum (seconds (estart e + Z.of_nat k * edelta e) (esonset e) + edist e / v0), y)) /\
       (sm = true -> exists d u, un (uid e) = Ok d /\ n_unsmoothed q = Some u /\ List.length u = List.length d /\
          forall k y, nth_error d k = Some y ->
          nth_error u k = Some (FNum (seconds (estart e + Z.of_nat k * edelta e) (esonset e) + edist e / v0), y)) /\
       G (edist e) (fit_times e v0) g0 = Ok g /\ List.length g = List.length (edata e) /\
       (forall k g1 r1 w1, r = FNum r1 -> dget String.eqb W (evid e) = Some (FNum w1) -> nth_error g k = Some (FNum g1) ->
          let t := seconds (estart e + Z.of_nat k * edelta e) (esonset e) + edist e / v0 in
          nth_error (n_model q) k = Some (FNum t, FNum (Rmax (r1 * w1 * g1 * exp (- (b * t))) (1 / 10 ^ 30))))).
Proof.
  intros H. apply plot_fits_inv in H. destruct H as (rs & EM & ->). apply mapM_nth in EM. destruct EM as [LR EM]. rewrite seq_length in LR.
  split; [now rewrite map_length|]. intros i e r He DR.
  assert (I : (i < List.length es)%nat) by (apply nth_error_Some; congruence).
  destruct (EM i i (nth_seq _ _ I)) as (y & N & EF).
  destruct (fisnan r) eqn:NR.
  - left. split; [destruct r; try discriminate; reflexivity|]. rewrite nth_error_map, N. cbn.
    unfold fit_panel in EF. rewrite (item_some _ _ _ He) in EF. cbn [bind] in EF. rewrite DR, NR in EF. injection EF as <-. reflexivity.
  - right. split; [intros ->; discriminate|]. destruct y as [[q [[tm hi] lo]]|].
    + destruct (fit_panel_some _ _ _ _ _ _ _ _ _ _ _ _ _ _ _ EF) as (e' & r' & w' & tc & ec & gc' & mc & m & P). destruct P.
      assert (e' = e) by congruence. subst e'. assert (r' = r) by congruence. subst r'.
      destruct po_g as (g & EG & m0 & EMC & Em). destruct (model_curve_nth _ _ _ _ _ _ EMC) as [LG NG]. rewrite map_length, fit_times_length in LG.
      destruct po_model as [EQM LM].
      exists q, g. split; [rewrite nth_error_map, N; reflexivity|]. split; [rewrite po_data, combine_length, map_length, fit_times_length; lia|].
      split; [rewrite EQM, combine_length, map_length, fit_times_length; lia|].
      split; [intros k y' HY; rewrite po_data; now apply nth_combine_times|].
      split.
      { intros S. destruct (po_un S) as (d & ED & EU & LD). exists d. eexists. split; [exact ED|]. split; [exact EU|].
        split; [rewrite combine_length, map_length, fit_times_length; lia|]. intros k y' HY. now apply nth_combine_times. }
      split; [exact EG|]. split; [exact LG|]. intros k g1 r1 w1 -> DW HG t.
      rewrite EQM. apply nth_combine_times; [exact LM|]. rewrite Em, nth_error_map.
      assert (LK : (k < List.length m0)%nat). { rewrite Em, map_length in LM. rewrite LM, <- LG. apply nth_error_Some. congruence. }
      destruct (nth_error_exists m0 k LK) as (y & HY). rewrite HY. cbn [option_map]. f_equal.
      destruct (NG k y HY) as (g2 & t2 & G1 & G2 & ->). assert (g2 = FNum g1) by congruence. subst g2.
      rewrite nth_error_map, fit_time_nth in G2 by (rewrite <- LG; apply nth_error_Some; congruence). cbn in G2. injection G2 as <-.
      assert (w' = FNum w1) by congruence. subst w'. rewrite emod_num, clip_num. reflexivity.
    + exfalso. unfold fit_panel in EF. rewrite (item_some _ _ _ He) in EF. cbn [bind] in EF. rewrite DR, NR in EF. cbn zeta in EF.
      do 3 (apply bind_ok in EF; destruct EF as (? & _ & EF)).
      destruct (dget String.eqb W (evid e)); [|discriminate]. do 9 (apply bind_ok in EF; destruct EF as (? & _ & EF)).
      destruct (fit_times e v0); [discriminate|]. do 4 (apply bind_ok in EF; destruct EF as (? & _ & EF)). discriminate.
Qed.

(** ** Limits *)
Lemma npmax_spec l m : npmax l = Ok m -> Forall finite l -> exists v, m = FNum v /\ In (FNum v) l /\ forall y, In (FNum y) l -> y <= v.
Proof.
  intros H F. destruct (finite_map l F) as (k & ->). unfold npmax in H.
  replace (existsb fisnan (map FNum k)) with false in H by (clear; induction k; cbn; auto). destruct k as [|u k]; [discriminate|].
  cbn [pymax_of map] in H. injection H as <-. destruct (pymax_num k u) as (v & E & H1 & H2 & H3). exists v. split; [exact E|]. split.
  - cbn [map]. destruct H3 as [->|I]; [now left|right; now apply in_map].
  - intros y [Q|I]; [injection Q as <-; exact H1|]. apply in_map_iff in I. destruct I as (z & Q & I). injection Q as <-. auto.
Qed.
Lemma npmin_spec l m : npmin l = Ok m -> Forall finite l -> exists v, m = FNum v /\ In (FNum v) l /\ forall y, In (FNum y) l -> v <= y.
Proof.
  intros H F. destruct (finite_map l F) as (k & ->). unfold npmin in H.
  replace (existsb fisnan (map FNum k)) with false in H by (clear; induction k; cbn; auto). destruct k as [|u k]; [discriminate|].
  cbn [pymin_of map] in H. injection H as <-. destruct (pymin_num k u) as (v & E & H1 & H2 & H3). exists v. split; [exact E|]. split.
  - cbn [map]. destruct H3 as [->|I]; [now left|right; now apply in_map].
  - intros y [Q|I]; [injection Q as <-; exact H1|]. apply in_map_iff in I. destruct I as (z & Q & I). injection Q as <-. auto.
Qed.
Lemma pymax_of_spec l m : pymax_of (map FNum l) = Ok m -> exists v, m = FNum v /\ In v l /\ forall y, In y l -> y <= v.
Proof.
  destruct l as [|u k]; [discriminate|]. cbn [pymax_of map]. intros H. injection H as <-.
  destruct (pymax_num k u) as (v & E & H1 & H2 & H3). exists v. split; [exact E|]. split; [destruct H3 as [->|I]; cbn; auto|].
  intros y [<-|I]; auto.
Qed.
Lemma pymin_of_spec l m : pymin_of (map FNum l) = Ok m -> exists v, m = FNum v /\ In v l /\ forall y, In y l -> v <= y.
Proof.
  destruct l as [|u k]; [discriminate|]. cbn [pymin_of map]. intros H. injection H as <-.
  destruct (pymin_num k u) as (v & E & H1 & H2 & H3). exists v. split; [exact E|]. split; [destruct H3 as [->|I]; cbn; auto|].
  intros y [<-|I]; auto.
Qed.
Lemma pymax2 a c : pymax (FNum a) (FNum c) = FNum (Rmax a c).
Proof.
  unfold pymax. cbn [fltb]. destruct (rltb a c) eqn:E.
  - apply rltb_true in E. rewrite Rmax_right; [reflexivity|lra].
  - apply rltb_false in E. rewrite Rmax_left; [reflexivity|lra].
Qed.
Lemma pymin2 a c : pymin (FNum a) (FNum c) = FNum (Rmin a c).
Proof.
  unfold pymin. cbn [fltb]. destruct (rltb c a) eqn:E.
  - apply rltb_true in E. rewrite Rmin_right; [reflexivity|lra].
  - apply rltb_false in E. rewrite Rmin_left; [reflexivity|lra].
Qed.

Lemma finite_combine (t : list R) : forall l, List.length t = List.length l -> finite_curve (combine (map FNum t) l) -> Forall finite l.
Proof.
  induction t as [|t0 t IH]; intros [|y l] L F; cbn in L; try discriminate; [constructor|].
  inversion F; subst. constructor; [assumption|]. apply IH; [lia|assumption].
Qed.
Lemma curve_in (t : list R) l y : on_curves (combine (map FNum t) l) y -> In (FNum y) l.
Proof. intros (t' & I). apply in_combine_r in I. exact I. Qed.
Lemma in_curve (t : list R) l y : List.length t = List.length l -> In (FNum y) l -> on_curves (combine (map FNum t) l) y.
Proof.
  intros L I. apply In_nth_error in I. destruct I as (k & I). destruct (nth_error_exists (map FNum t) k) as (t' & H).
  { rewrite map_length, L. apply nth_error_Some. congruence. }
  exists t'. apply (nth_error_In _ k). now apply nth_error_combine_.
Qed.
Lemma on_curves_app l m y : on_curves (l ++ m) y <-> on_curves l y \/ on_curves m y.
Proof.
  split.
  - intros (t & I). apply in_app_or in I. destruct I; [left|right]; exists t; assumption.
  - intros [(t & I)|(t & I)]; exists t; apply in_or_app; auto.
Qed.

Lemma Forall_nums {A} (P : R -> A -> Prop) (f : A -> pyf) l : Forall (fun a => exists v, f a = FNum v /\ P v a) l ->
  exists vs, map f l = map FNum vs /\ Forall2 P vs l.
Proof.
  induction 1 as [|a l (v & E & H) F (vs & EV & FV)]; [exists []; split; [reflexivity|constructor]|].
  exists (v :: vs). cbn. rewrite E, EV. auto.
Qed.

Lemma Forall2_in_r {A B} (P : A -> B -> Prop) l m : Forall2 P l m -> forall y, In y m -> exists x, In x l /\ P x y.
Proof. induction 1 as [|x y l m H F IH]; intros z I; [destruct I|]. destruct I as [<-|I]; [exists x; cbn; auto|]. destruct (IH z I) as (w & I1 & I2). exists w. cbn; auto. Qed.
Lemma Forall2_in_l {A B} (P : A -> B -> Prop) l m : Forall2 P l m -> forall x, In x l -> exists y, In y m /\ P x y.
Proof. induction 1 as [|x y l m H F IH]; intros z I; [destruct I|]. destruct I as [<-|I]; [exists y; cbn; auto|]. destruct (IH z I) as (w & I1 & I2). exists w. cbn; auto. Qed.

Lemma fits_limits G un es g0 b W Rs v0 x sm ps xl yl :
  plot_fits G un es g0 (Some (FNum b)) W Rs v0 x sm None None = Ok (ps, xl, yl) ->
  Forall (fun e => (0 <= edelta e)%Z) es ->
  (forall q, In (Some q) ps -> finite_curve (n_data q) /\ finite_curve (n_model q) /\ finite_curve (n_coda q) /\ finite_curve (n_coda_model q)) ->
  fst xl = 0 /\
  (forall q t y, In (Some q) ps -> In (FNum t, y) (n_data q) -> t <= snd xl) /\
  (forall q y, In (Some q) ps -> on_curves (n_data q ++ n_model q) y -> 3 / 2 * y <= snd yl) /\
  (exists q y, In (Some q) ps /\ on_curves (n_data q ++ n_model q) y /\ snd yl = 3 / 2 * y) /\
  (forall q y, In (Some q) ps -> on_curves (n_coda_model q) y -> fst yl <= y / 10) /\
  (forall q, In (Some q) ps -> exists y, on_curves (n_coda q) y /\ fst yl <= y / 10) /\
  (exists q y, In (Some q) ps /\
     (on_curves (n_coda_model q) y \/ (on_curves (n_coda q) y /\ forall z, on_curves (n_coda q) z -> z <= y)) /\ fst yl = y / 10).
Proof.
  intros H DE FIN. unfold plot_fits in H. cbn zeta in H. destruct es as [|e0 es'] eqn:ES; [discriminate|]. rewrite <- ES in *.
  apply bind_ok in H. destruct H as (rs & EM & H). apply bind_ok in H. destruct H as (xl' & EX & H). apply bind_ok in H. destruct H as (yl' & EY & H).
  injection H as <- <- <-.
  apply bind_ok in EX. destruct EX as (mx & EX & EX2). apply bind_ok in EY. destruct EY as (m1 & EY1 & EY). apply bind_ok in EY. destruct EY as (m2 & EY2 & EY).
  set (dr := flat_map (fun p : option (panel * (R * pyf * pyf)) => match p with Some p => [p] | None => [] end) rs).
  assert (DR : flat_map (fun p : option (panel * (R * pyf * pyf)) => match p with Some p => [snd p] | None => [] end) rs = map snd dr).
  { subst dr. clear. induction rs as [|[p|] rs IH]; cbn; congruence. }
  rewrite DR, !map_map in *.
  assert (IN : forall q, In (Some q) (map (option_map fst) rs) <-> exists l, In (q, l) dr).
  { intros q. rewrite in_map_iff. subst dr. split.
    - intros ([[q' l]|] & E & I); [|discriminate]. cbn in E. injection E as ->. exists l. apply in_flat_map. exists (Some (q, l)). cbn. auto.
    - intros (l & I). apply in_flat_map in I. destruct I as ([p|] & I & K); [|destruct K]. destruct K as [->|[]]. exists (Some (q, l)). auto. }
  assert (FA : Forall (fun d => exists e r w tc ec gc mc m i, panel_of G un es g0 (FNum b) W Rs v0 x sm i (fst d) (fst (fst (snd d))) (snd (fst (snd d))) (snd (snd d)) e r w tc ec gc mc m) dr).
  { apply Forall_forall. intros [q [[tm hi] lo]] I. subst dr. apply in_flat_map in I. destruct I as ([p|] & I & K); [|destruct K]. destruct K as [->|[]].
    apply In_nth_error in I. destruct I as (i & I). apply mapM_nth in EM. destruct EM as [LR EM]. rewrite seq_length in LR.
    assert (LI : (i < List.length rs)%nat) by (apply nth_error_Some; congruence).
    destruct (EM i i) as (y & N & EF); [apply nth_seq; lia|]. assert (y = Some (q, (tm, hi, lo))) by congruence. subst y.
    destruct (fit_panel_some _ _ _ _ _ _ _ _ _ _ _ _ _ _ _ EF) as (e & r & w & tc & ec & gc' & mc & m & P).
    exists e, r, w, tc, ec, gc', mc, m, i. exact P. }
  clearbody dr. rewrite Forall_forall in FA.
  (* the right limit *)
  assert (X : exists vx, mx = FNum vx /\ forall d, In d dr -> fst (fst (snd d)) <= vx).
  { rewrite <- (map_map (fun d : panel * (R * pyf * pyf) => fst (fst (snd d))) FNum) in EX. apply pymax_of_spec in EX.
    destruct EX as (v & E & _ & M). exists v. split; [exact E|]. intros d I. apply M. now apply (in_map (fun d : panel * (R * pyf * pyf) => fst (fst (snd d)))). }
  destruct X as (vx & -> & MX). cbn [set_lim] in EX2. injection EX2 as <-. cbn [fst snd].
  (* the largest value *)
  assert (HI : Forall (fun d : panel * (R * pyf * pyf) => exists v, snd (fst (snd d)) = FNum v /\
     (on_curves (n_data (fst d) ++ n_model (fst d)) v /\ forall y, on_curves (n_data (fst d) ++ n_model (fst d)) y -> y <= v)) dr).
  { apply Forall_forall. intros d I. destruct (FA d I) as (e & r & w & tc & ec & gc' & mc & m & i & P). destruct P.
    destruct (FIN (fst d)) as (F1 & F2 & _). { apply IN. exists (snd d). now rewrite <- surjective_pairing. }
    destruct po_hi as (u1 & u2 & U1 & U2 & EH). destruct po_model as [EQM LM]. rewrite po_data, EQM in *.
    assert (LT := fit_times_length e v0).
    apply finite_combine in F1; [|exact LT]. apply finite_combine in F2; [|congruence].
    destruct (npmax_spec _ _ U1 F2) as (v1 & -> & I1 & M1). destruct (npmax_spec _ _ U2 F1) as (v2 & -> & I2 & M2).
    rewrite pymax2 in EH. exists (Rmax v1 v2). split; [exact EH|]. split.
    - apply on_curves_app. unfold Rmax. destruct (Rle_dec v1 v2); [left|right]; apply in_curve; congruence.
    - intros y Hy. apply on_curves_app in Hy. destruct Hy as [Hy|Hy]; apply curve_in in Hy; [specialize (M2 _ Hy); pose proof (Rmax_r v1 v2)|specialize (M1 _ Hy); pose proof (Rmax_l v1 v2)]; lra. }
  apply Forall_nums in HI. destruct HI as (vs & EV & FV). rewrite EV in EY2. apply pymax_of_spec in EY2. destruct EY2 as (vh & -> & IH1 & MH).
  (* the smallest value *)
  assert (LO : Forall (fun d : panel * (R * pyf * pyf) => exists v, snd (snd d) = FNum v /\
     ((on_curves (n_coda_model (fst d)) v \/ (on_curves (n_coda (fst d)) v /\ forall z, on_curves (n_coda (fst d)) z -> z <= v)) /\ (forall y, on_curves (n_coda_model (fst d)) y -> v <= y) /\
      exists y, on_curves (n_coda (fst d)) y /\ v <= y)) dr).
  { apply Forall_forall. intros d I. destruct (FA d I) as (e & r & w & tc & ec & gc' & mc & m & i & P). destruct P.
    destruct (FIN (fst d)) as (_ & _ & F1 & F2). { apply IN. exists (snd d). now rewrite <- surjective_pairing. }
    destruct po_lo as (u1 & u2 & U1 & U2 & EH). destruct po_coda as [E1 L1]. destruct po_coda_model as [E2 L2]. rewrite E1, E2 in *.
    apply finite_combine in F1; [|exact L1]. apply finite_combine in F2; [|exact L2].
    destruct (npmin_spec _ _ U1 F2) as (v1 & -> & I1 & M1). destruct (npmax_spec _ _ U2 F1) as (v2 & -> & I2 & M2).
    rewrite pymin2 in EH. exists (Rmin v1 v2). split; [exact EH|]. split; [|split].
    - unfold Rmin. destruct (Rle_dec v1 v2); [left; apply in_curve; congruence|right].
      split; [apply in_curve; congruence|]. intros z Hz. apply curve_in in Hz. auto.
    - intros y Hy. apply curve_in in Hy. eapply Rle_trans; [apply Rmin_l|]. auto.
    - exists v2. split; [apply in_curve; congruence|apply Rmin_r]. }
  apply Forall_nums in LO. destruct LO as (us & EU & FU).
  rewrite EU in EY1. apply pymin_of_spec in EY1. destruct EY1 as (vl & -> & IL & ML).
  cbn [fmul set_lim] in EY. injection EY as <-. cbn [fst snd].
  split; [reflexivity|]. split; [|split; [|split; [|split; [|split]]]].
  - intros q t y I K. apply IN in I. destruct I as (l & I). eapply Rle_trans; [|exact (MX _ I)].
    destruct (FA _ I) as (e & r & w & tc & ec & gc' & mc & m & i & P). destruct P. cbn [fst snd] in *. rewrite po_data in K. rewrite po_tm.
    apply in_combine_l in K. apply in_map_iff in K. destruct K as (t' & Q & K). injection Q as ->.
    assert (D0 : (0 <= edelta e)%Z). { rewrite Forall_forall in DE. apply DE. exact (nth_error_In _ _ po_trace). }
    apply In_nth_error in K. destruct K as (k & K).
    assert (LK : (k < List.length (fit_times e v0))%nat) by (apply nth_error_Some; congruence).
    assert (LK2 := LK). rewrite fit_times_length in LK2. rewrite (fit_time_nth _ _ _ LK2) in K. injection K as <-.
    assert (NL : nth_error (fit_times e v0) (List.length (fit_times e v0) - 1) = Some (last (fit_times e v0) 0)).
    { clear - LK. destruct (exists_last (l := fit_times e v0)) as (l' & z & E); [intros Q; rewrite Q in LK; cbn in LK; lia|].
      rewrite E, last_last, app_length. cbn [List.length]. rewrite nth_error_app2 by lia. replace (List.length l' + 1 - 1 - List.length l')%nat with 0%nat by lia. reflexivity. }
    rewrite fit_time_nth in NL by (rewrite fit_times_length; lia). injection NL as <-. rewrite fit_times_length.
    apply Rplus_le_compat_r. unfold seconds. apply Rmult_le_compat_r; [apply Rlt_le, Rinv_0_lt_compat; lra|]. apply IZR_le. nia.
  - intros q y I K. apply IN in I. destruct I as (l & I). destruct (Forall2_in_r _ _ _ FV _ I) as (v & Iv & _ & M). specialize (M y K). specialize (MH v Iv). lra.
  - destruct (Forall2_in_l _ _ _ FV _ IH1) as ([q l] & I & C & _). exists q, vh. split; [apply IN; eauto|]. split; [exact C|]. lra.
  - intros q y I K. apply IN in I. destruct I as (l & I). destruct (Forall2_in_r _ _ _ FU _ I) as (v & Iv & _ & M & _). specialize (M y K). specialize (ML v Iv). lra.
  - intros q I. apply IN in I. destruct I as (l & I). destruct (Forall2_in_r _ _ _ FU _ I) as (v & Iv & _ & _ & y & K & M). exists y. split; [exact K|]. specialize (ML v Iv). lra.
  - destruct (Forall2_in_l _ _ _ FU _ IL) as ([q l] & I & C & _). exists q, vl. split; [apply IN; eauto|]. split; [exact C|]. lra.
Qed.
