(** Proofs about the curves: the misfit in plot_lstsq. *)
From Coq Require Import String List Bool Reals Lra Lia ZArith Arith Sorted.
From Verif Require Import Base Pyf PyfOps FbModel LsqfbModel LsqfbSpec LsqfbProof LsqfbProof2 LsqfbProof3 LsqfbProof4 CurveModel CurveSpec CurveProof CurveProof2.
Import ListNotations.
Open Scope string_scope.
Open Scope list_scope.
Open Scope R_scope.

Lemma Forall2_trans_ {A B C} (P : A -> B -> Prop) (Q : B -> C -> Prop) l m n :
  Forall2 P l m -> Forall2 Q m n -> Forall2 (fun x z => exists y, In y m /\ P x y /\ Q y z) l n.
Proof.
  intros F. revert n. induction F as [|x y l m H F IH]; intros n G; inversion G as [|? z ? n' H' G']; subst; constructor.
  - exists y. cbn. auto.
  - specialize (IH _ G'). eapply Forall2_impl_in; [|exact IH]. cbn. intros u v _ _ (w & I & K). exists w. tauto.
Qed.

(** the points on the line *)
Lemma line_points (w0 b base tmin tmax : R) l : 0 < base -> base <> 1 ->
  l = map (fun k => let t := tmin + INR k * ((tmax - tmin) / 99) in (FNum t, FNum ((ln w0 - b * t) / ln base))) (seq 0 100) ->
  Forall (fun q => exists t y, q = (FNum t, FNum y) /\ on_line (ln w0) b base t y) l.
Proof.
  intros B N ->. apply Forall_forall. intros q I. apply in_map_iff in I. destruct I as (k & <- & _). cbn zeta.
  eexists. eexists. split; [reflexivity|]. unfold on_line. field. now apply ln_neq0.
Qed.

Lemma lsq_residuals st gc gb W Rs b base evs stas : aligned st -> good_band st gc gb ->
  List.length gb = List.length (w_ebulk st) -> Forall (fun e => e <> []) (w_ecoda st) ->
  in_order (map fst (pairs st)) evs -> in_order (map snd (pairs st)) stas ->
  (forall ev sta, In (ev, sta) (pairs st) -> exists r w, number stas Rs sta r /\ number evs W ev w /\ 0 < r /\ 0 < w) ->
  0 < base -> base <> 1 ->
  exists p l0, plot_lstsq (pairs st) (FNum b) W Rs (band_info st gc gb) base = Ok p /\
    List.length (q_coda p) = List.length (pairs st) /\
    Forall (fun q => exists t y, q = (FNum t, FNum y) /\ on_line l0 b base t y) (q_line p) /\
    Forall2 (fun q s => exists t y e g r w, s = ((fst (fst s), (FNum t, FNum e)), FNum g) /\ q = (FNum t, FNum y) /\
        number stas Rs (snd (fst (fst s))) r /\ number evs W (fst (fst (fst s))) w /\
        y * ln base - (l0 - b * t) = ln (e / (r * w * g * exp (- (b * t)))))
      (concat (q_coda p) ++ q_bulk p) (combine (samples st) (concat gc ++ gb)).
Proof.
  intros AL GB BL NE OE OS PV BP BN. apply in_order_unique in OE. apply in_order_unique in OS.
  assert (PV' : forall p, In p (pairs st) -> exists r w, value (stations st) Rs (snd p) r /\ value (eventids st) W (fst p) w /\ 0 < r /\ 0 < w).
  { intros [ev sta] I. destruct (PV ev sta I) as (r & w & V1 & V2 & H). subst evs stas. exists r, w. auto. }
  destruct (first_source st W Rs AL PV') as (w0 & W0 & W0P).
  destruct (plot_ok st gc gb W Rs b base AL GB BL NE PV' BP BN w0 W0 W0P) as (p & tmin & tmax & E & F & LQ & _ & EL & _).
  exists p, (ln w0). split; [exact E|]. split; [exact LQ|]. split; [exact (line_points _ _ _ _ _ _ BP BN EL)|].
  eapply Forall2_impl_in; [|exact F]. intros q [[pr te] g'] _ _ (t & e & g & r & w & y & H1 & H2 & EP & GP & V1 & V2 & RP & WPos & -> & HY).
  cbn [fst snd] in *. subst te g'. exists t, y, e, g, r, w. subst evs stas. split; [reflexivity|]. split; [reflexivity|]. split; [exact V1|]. split; [exact V2|].
  assert (P1 : 0 < r * w * g). { apply Rmult_lt_0_compat; [now apply Rmult_lt_0_compat|exact GP]. }
  assert (P2 := exp_pos (- (b * t))).
  unfold Rdiv. rewrite ln_mult, ln_Rinv, ln_mult, ln_mult, ln_mult, ln_exp; auto using Rmult_lt_0_compat; try lra.
  apply Rinv_0_lt_compat. now apply Rmult_lt_0_compat.
Qed.

Lemma lsq_misfit o st g0 a bs rs gc gb f err base :
  aligned st -> least_squares (l_wls o) -> good_weights o st ->
  l_coda_norm o = false -> l_fix_sites o = None -> l_fix o = false -> 0 < l_R0 o ->
  build o st = Ok (a, bs, rs) -> greens o st g0 (pairs st) (w_ecoda st) (w_tcoda st) = Ok (gc, gb) -> good_band st gc gb ->
  solve_at o st a bs rs g0 None false = Ok f -> f_err f = FNum err -> 0 < base -> base <> 1 ->
  exists p b l0 ds, plot_lstsq (pairs st) (f_b f) (f_W f) (f_R f) (band_info st gc gb) base = Ok p /\ f_b f = FNum b /\
    Forall (fun q => exists t y, q = (FNum t, FNum y) /\ on_line l0 b base t y) (q_line p) /\
    Forall2 (fun q d => exists t y, q = (FNum t, FNum y) /\ d = y * ln base - (l0 - b * t)) (concat (q_coda p) ++ q_bulk p) ds /\
    rms (sample_weights (l_bulk o) st) ds err.
Proof.
  intros AL LS WP CN FS FX R0 BU GR GB SO ER BP BN.
  destruct (solution_shape o st g0 a bs rs gc gb AL LS WP BU GR GB CN FS FX R0 f SO) as (b & ds & m & EB & _ & LW & LR & EE & LG & F & dof & DP & EM).
  assert (NE := ecoda_nonempty o st g0 gc gb AL GR).
  assert (BL : List.length gb = List.length (w_ebulk st)).
  { rewrite (samples_length st AL) in LG. rewrite !app_length in LG. destruct GB as (_ & _ & _ & _ & _ & GL).
    assert (CL : List.length (concat gc) = List.length (concat (w_ecoda st))).
    { clear - GL. induction GL as [|e g l m H F IH]; cbn; [reflexivity|]. rewrite !app_length. lia. }
    lia. }
  assert (PV : forall p, In p (pairs st) -> exists r w, value (stations st) (f_R f) (snd p) r /\ value (eventids st) (f_W f) (fst p) w /\ 0 < r /\ 0 < w).
  { intros p I. destruct (pair_has_sample st AL p NE I) as (te & IS).
    assert (I2 : exists g, In ((p, te), g) (combine (samples st) (concat gc ++ gb))).
    { destruct (In_nth_error _ _ IS) as (i & Hi). destruct (nth_error_exists (concat gc ++ gb) i) as (g & Hg).
      { rewrite LG. apply nth_error_Some. congruence. }
      exists g. apply (nth_error_In _ i). now apply nth_error_combine_. }
    destruct I2 as (g & I2). assert (K : exists d, resid st f b ((p, te), g) d).
    { clear - F I2. induction F as [|x d l m H F IH]; [destruct I2|]. destruct I2 as [->|I2]; eauto. }
    destruct K as (d & t & e & g' & r & w & _ & _ & _ & _ & V1 & V2 & P1 & P2 & _). exists r, w. auto. }
  destruct (first_source st (f_W f) (f_R f) AL PV) as (w0 & W0 & W0P).
  destruct (plot_ok st gc gb (f_W f) (f_R f) b base AL GB BL NE PV BP BN w0 W0 W0P) as (p & tmin & tmax & E & FP & LQ & _ & EL & _).
  exists p, b, (ln w0), ds. rewrite EB. split; [exact E|]. split; [reflexivity|]. split; [exact (line_points _ _ _ _ _ _ BP BN EL)|]. split.
  - pose proof (Forall2_trans_ _ _ _ _ _ FP F) as K. eapply Forall2_impl_in; [|exact K].
    intros q d _ _ (sg & _ & (t & e & g & r & w & y & H1 & H2 & _ & _ & V1 & V2 & _ & _ & -> & HY) & (t' & e' & g' & r' & w' & G1 & G2 & _ & _ & U1 & U2 & _ & _ & ->)).
    exists t, y. split; [reflexivity|].
    rewrite (value_unique _ _ _ _ _ (proj1 (fromkeys_spec (map snd (pairs st)))) U1 V1), (value_unique _ _ _ _ _ (proj1 (fromkeys_spec (map fst (pairs st)))) U2 V2).
    rewrite H1 in G1. injection G1 as <- <-. rewrite H2 in G2. injection G2 as <-. lra.
  - unfold rms. rewrite ER in EE. destruct EE as [EE|EE]; [discriminate|]. cbn in EE. destruct (Rlt_dec m 0) as [|NN]; [discriminate|].
    injection EE as ->. split; [apply sqrt_pos|]. exists dof. split; [exact DP|]. rewrite sqrt_sqrt by lra. exact EM.
Qed.

Lemma sorted_bounds t : Sorted Rle t -> forall u, In u t -> hd 0 t <= u <= last t 0.
Proof.
  intros S. apply Sorted_StronglySorted in S; [|intros ? ? ?; apply Rle_trans]. induction S as [|x l S IH F]; intros u I; [destruct I|].
  rewrite Forall_forall in F. destruct I as [<-|I].
  - split; [cbn; lra|]. destruct l as [|y l]; [cbn; lra|]. apply Rle_trans with (hd 0 (y :: l)); [apply F; now left|].
    change (last (x :: y :: l) 0) with (last (y :: l) 0). destruct (IH y (or_introl eq_refl)). cbn [hd]. lra.
  - split; [cbn [hd]; now apply F|]. destruct l as [|y l]; [destruct I|]. change (last (x :: y :: l) 0) with (last (y :: l) 0). now apply IH.
Qed.

Lemma lsq_range st gc gb W Rs b base evs stas p : aligned st -> good_band st gc gb ->
  List.length gb = List.length (w_ebulk st) -> Forall (fun e => e <> []) (w_ecoda st) -> Forall (Sorted Rle) (w_tcoda st) ->
  in_order (map fst (pairs st)) evs -> in_order (map snd (pairs st)) stas ->
  (forall ev sta, In (ev, sta) (pairs st) -> exists r w, number stas Rs sta r /\ number evs W ev w /\ 0 < r /\ 0 < w) ->
  0 < base -> base <> 1 ->
  plot_lstsq (pairs st) (FNum b) W Rs (band_info st gc gb) base = Ok p ->
  exists tmin tmax y1 y2, nth_error (q_line p) 0 = Some (FNum tmin, y1) /\ nth_error (q_line p) 99 = Some (FNum tmax, y2) /\
    List.length (q_line p) = 100%nat /\ q_right p = FNum tmax /\
    (forall t u, In t (w_tcoda st) -> In u t -> tmin <= u <= tmax) /\ (forall t, In (FNum t) (w_tbulk st) -> tmin <= t).
Proof.
  intros AL GB BL NE SO OE OS PV BP BN H. apply in_order_unique in OE. apply in_order_unique in OS. subst evs stas.
  assert (PV' : forall p, In p (pairs st) -> exists r w, value (stations st) Rs (snd p) r /\ value (eventids st) W (fst p) w /\ 0 < r /\ 0 < w).
  { intros [ev sta] I. exact (PV ev sta I). }
  destruct (first_source st W Rs AL PV') as (w0 & W0 & W0P).
  destruct (plot_ok st gc gb W Rs b base AL GB BL NE PV' BP BN w0 W0 W0P) as (p' & tmin & tmax & E & F & LQ & ER & EL & MT & MB).
  rewrite H in E. injection E as <-. exists tmin, tmax. eexists. eexists. rewrite EL. split; [|split; [|split; [|split; [exact ER|split; [|exact MB]]]]].
  - cbn [seq map nth_error]. cbn zeta. cbn [INR]. rewrite Rmult_0_l, Rplus_0_r. reflexivity.
  - rewrite nth_error_map. change (nth_error (seq 0 100) 99) with (Some 99%nat). cbn [option_map].
    assert (Q : tmin + INR 99 * ((tmax - tmin) / 99) = tmax). { replace (INR 99) with 99 by (cbn; lra). field. }
    cbn zeta. rewrite Q. reflexivity.
  - now rewrite map_length, seq_length.
  - intros t u I1 I2. destruct (MT t I1). rewrite Forall_forall in SO. destruct (sorted_bounds t (SO t I1) u I2). lra.
Qed.
