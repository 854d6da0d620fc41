(** Concrete cases for the theorems about the curves. *)
From Coq Require Import String List Bool Reals Lra Lia ZArith Arith Sorted.
From Verif Require Import Base Pyf PyfOps FbModel SiteProof LsqfbModel LsqfbSpec LsqfbProof LsqfbProof2 LsqfbProof3 LsqfbProof4 LsqfbProof5 LsqfbEx CurveModel CurveSpec CurveProof CurveProof2 CurveProof3 CurveProof4 CurveProof5 CurveProof6.
Import ListNotations.
Open Scope string_scope.
Open Scope list_scope.
Open Scope R_scope.

(** ** The band of LsqfbEx.v, with two samples in each trace *)
Definition tr_c (id : nat) (e s : string) : etrace :=
  {| uid := id; evid := e; sta := s; edata := [FNum 1; FNum 2]; estart := 3000000000; esr := 1; edelta := 1000000000;
     eotime := 1000000000; esonset := 2000000000; edist := 10; enoise := None |}.
Definition st_c : wstate :=
  {| w_energies := [tr_c 1 "e1" "A"; tr_c 2 "e1" "B"; tr_c 3 "e2" "A"];
     w_distances := w_distances st_ex; w_tcoda := w_tcoda st_ex; w_tbulk := w_tbulk st_ex;
     w_tbulk_window := w_tbulk_window st_ex; w_weights := w_weights st_ex;
     w_ebulk := w_ebulk st_ex; w_ecoda := w_ecoda st_ex |}.
Definition gc_c : list (list pyf) := [[FNum 1; FNum 1]; [FNum 1; FNum 1]; [FNum 1; FNum 1]].
Definition gb_c : list pyf := [FNum 1; FNum 1; FNum 1].
Definition G_c (r : R) (t : list R) (g0 : pyf) : res (list pyf) := Ok (map (fun _ => FNum 1) t).
Definition un_c (i : nat) : res (list pyf) := Ok [FNum 1; FNum 2].

Lemma en_pos e s t : positive (en_ex e s t).
Proof.
  eexists. split; [reflexivity|]. assert (E := exp_pos (- (bt_ex * t))).
  assert (0 < source_ex e) by (unfold source_ex; destruct (String.eqb e "e1"); lra).
  assert (0 < site_ex s) by (unfold site_ex; destruct (String.eqb s "A"); lra).
  apply Rmult_lt_0_compat; [|exact E]. apply Rmult_lt_0_compat; [|lra]. now apply Rmult_lt_0_compat.
Qed.

Lemma one_pos : positive (FNum 1).
Proof. exists 1. split; [reflexivity|lra]. Qed.

Lemma band_c : good_band st_c gc_c gb_c.
Proof.
  split; [repeat constructor; apply en_pos|]. split; [repeat constructor; apply en_pos|].
  split; [repeat (constructor; [eexists; reflexivity|]); constructor|].
  split; [repeat constructor; apply one_pos|]. split; [repeat constructor; apply one_pos|]. repeat constructor.
Qed.

Lemma solve_c : exists a f, build go_ex st_c = Ok (a, [], []) /\
  greens go_ex st_c (FNum (1 / 5)) (pairs st_c) (w_ecoda st_c) (w_tcoda st_c) = Ok (gc_c, gb_c) /\
  solve_at go_ex st_c a [] [] (FNum (1 / 5)) None false = Ok f /\ f_err f = FNum 0.
Proof.
  destruct (build_ex false go_wls) as (a & BU). fold go_ex in BU.
  destruct (go_solve a (FNum (1 / 5)) BU) as (f & S & _ & _ & E). exists a, f.
  split; [exact BU|]. split; [reflexivity|]. split; [exact S|]. apply E.
  intros lo hi [= <- <-]. eexists; split; [reflexivity|]. lra.
Qed.

Lemma hyps_c : aligned st_c /\ least_squares (l_wls go_ex) /\ good_weights go_ex st_c /\
  l_coda_norm go_ex = false /\ l_fix_sites go_ex = None /\ l_fix go_ex = false /\ 0 < l_R0 go_ex /\
  good_band st_c gc_c gb_c /\
  exists a f, build go_ex st_c = Ok (a, [], []) /\
    greens go_ex st_c (FNum (1 / 5)) (pairs st_c) (w_ecoda st_c) (w_tcoda st_c) = Ok (gc_c, gb_c) /\
    solve_at go_ex st_c a [] [] (FNum (1 / 5)) None false = Ok f /\ f_err f = FNum 0.
Proof.
  split; [exact aligned_ex|]. split; [apply wls_ex_least|]. split; [apply weights_ex|].
  repeat (split; [reflexivity|]). split; [cbn; lra|]. split; [exact band_c|exact solve_c].
Qed.

Definition W_c : list pyf := [FNum 3; FNum 5].
Definition R_c : list pyf := [FNum 2; FNum (1 / 2)].

Lemma evs_c : in_order (map fst (pairs st_c)) ["e1"; "e2"].
Proof. exact (fromkeys_order (map fst (pairs st_c))). Qed.
Lemma stas_c : in_order (map snd (pairs st_c)) ["A"; "B"].
Proof. exact (fromkeys_order (map snd (pairs st_c))). Qed.

Lemma values_c ev sta' : In (ev, sta') (pairs st_c) ->
  exists r w, number ["A"; "B"] R_c sta' r /\ number ["e1"; "e2"] W_c ev w /\ 0 < r /\ 0 < w.
Proof.
  intros I. cbn in I. destruct I as [[= <- <-]|[[= <- <-]|[[= <- <-]|[]]]].
  - exists 2, 3. split; [exists 0%nat; auto|]. split; [exists 0%nat; auto|lra].
  - exists (1 / 2), 3. split; [exists 1%nat; auto|]. split; [exists 0%nat; auto|lra].
  - exists 2, 5. split; [exists 0%nat; auto|]. split; [exists 1%nat; auto|lra].
Qed.

Lemma residuals_c : aligned st_c /\ good_band st_c gc_c gb_c /\ List.length gb_c = List.length (w_ebulk st_c) /\
  Forall (fun e => e <> []) (w_ecoda st_c) /\ Forall (Sorted Rle) (w_tcoda st_c) /\
  in_order (map fst (pairs st_c)) ["e1"; "e2"] /\ in_order (map snd (pairs st_c)) ["A"; "B"] /\
  (forall ev sta, In (ev, sta) (pairs st_c) ->
     exists r w, number ["A"; "B"] R_c sta r /\ number ["e1"; "e2"] W_c ev w /\ 0 < r /\ 0 < w).
Proof.
  split; [exact aligned_ex|]. split; [exact band_c|]. split; [reflexivity|]. split; [repeat constructor; discriminate|].
  split; [repeat constructor; lra|]. split; [exact evs_c|]. split; [exact stas_c|exact values_c].
Qed.

Lemma range_c : exists p, plot_lstsq (pairs st_c) (FNum (1 / 10)) W_c R_c (band_info st_c gc_c gb_c) 10 = Ok p.
Proof.
  destruct residuals_c as (AL & GB & BL & NE & _ & OE & OS & V).
  destruct (lsq_residuals st_c gc_c gb_c W_c R_c (1 / 10) 10 _ _ AL GB BL NE OE OS V ltac:(lra) ltac:(lra)) as (p & _ & E & _). eauto.
Qed.

(** the bulk window after the coda window *)
Definition st_late : wstate :=
  {| w_energies := [tr_c 1 "e1" "A"]; w_distances := [(("e1", "A"), 10)]; w_tcoda := [[1; 2]]; w_tbulk := [FNum 5];
     w_tbulk_window := [(("e1", "A"), (4, 6))]; w_weights := [1]; w_ebulk := [FNum 1]; w_ecoda := [[FNum 1; FNum 1]] |}.

Lemma late : exists st gc gb b W Rs base p t y tmax, aligned st /\ good_band st gc gb /\
  plot_lstsq (pairs st) b W Rs (band_info st gc gb) base = Ok p /\
  In (FNum t, y) (q_bulk p) /\ q_right p = FNum tmax /\ tmax < t.
Proof.
  assert (AL : aligned st_late).
  { split; [discriminate|]. split; [reflexivity|]. split; [repeat constructor|]. split; [reflexivity|]. right. reflexivity. }
  assert (GB : good_band st_late [[FNum 1; FNum 1]] [FNum 1]).
  { split; [repeat constructor; apply one_pos|]. split; [repeat constructor; apply one_pos|].
    split; [repeat (constructor; [eexists; reflexivity|]); constructor|].
    split; [repeat constructor; apply one_pos|]. split; [repeat constructor; apply one_pos|]. repeat constructor. }
  exists st_late, [[FNum 1; FNum 1]], [FNum 1], (FNum (1 / 10)), [FNum 1], [FNum 1], 10. eexists. exists 5. eexists. exists 2.
  split; [exact AL|]. split; [exact GB|]. split; [reflexivity|]. split; [left; reflexivity|]. split; [reflexivity|lra].
Qed.

(** ** plot_fits *)
Lemma dicts_c ev sta' : In (ev, sta') (pairs st_c) ->
  exists r w, dget String.eqb (combine ["A"; "B"] R_c) sta' = Some (FNum r) /\ dget String.eqb (combine ["e1"; "e2"] W_c) ev = Some (FNum w).
Proof. intros I. cbn in I. destruct I as [[= <- <-]|[[= <- <-]|[[= <- <-]|[]]]]; eexists; eexists; split; reflexivity. Qed.

Lemma traces_c : forall e, In e (w_energies st_c) -> edata e <> [] /\ Forall finite (edata e) /\
     (exists g, G_c (edist e) (fit_times e 5) (FNum (1 / 5)) = Ok g /\ Forall finite g /\ List.length g = List.length (edata e)) /\
     (true = true -> exists d, un_c (uid e) = Ok d /\ List.length d = List.length (edata e)).
Proof.
  intros e I. cbn in I. destruct I as [<-|[<-|[<-|[]]]]; (split; [discriminate|]; split; [repeat (constructor; [eexists; reflexivity|]); constructor|];
    split; [eexists; split; [reflexivity|]; split; [repeat (constructor; [eexists; reflexivity|]); constructor|reflexivity]|]; intros _; eexists; split; reflexivity).
Qed.

Lemma drawn_c : aligned st_c /\ good_band st_c gc_c gb_c /\
  List.length gb_c = List.length (w_ebulk st_c) /\ Forall (fun e => e <> []) (w_ecoda st_c) /\
  (forall ev sta, In (ev, sta) (pairs st_c) -> exists r w,
     dget String.eqb (combine ["A"; "B"] R_c) sta = Some (FNum r) /\ dget String.eqb (combine ["e1"; "e2"] W_c) ev = Some (FNum w)) /\
  (forall e, In e (w_energies st_c) -> edata e <> [] /\ Forall finite (edata e) /\
     (exists g, G_c (edist e) (fit_times e 5) (FNum (1 / 5)) = Ok g /\ Forall finite g /\ List.length g = List.length (edata e)) /\
     (true = true -> exists d, un_c (uid e) = Ok d /\ List.length d = List.length (edata e))).
Proof.
  destruct residuals_c as (AL & GB & BL & NE & _). split; [exact AL|]. split; [exact GB|]. split; [exact BL|]. split; [exact NE|].
  split; [exact dicts_c|exact traces_c].
Qed.

Lemma fits_c : exists ps xl yl, plot_fits G_c un_c (w_energies st_c) (FNum (1 / 5)) (Some (FNum (1 / 10))) (combine ["e1"; "e2"] W_c)
  (combine ["A"; "B"] R_c) 5 (band_info st_c gc_c gb_c) true None None = Ok (ps, xl, yl) /\
  Forall (fun e => (0 <= edelta e)%Z) (w_energies st_c) /\
  (forall q, In (Some q) ps -> finite_curve (n_data q) /\ finite_curve (n_model q) /\ finite_curve (n_coda q) /\ finite_curve (n_coda_model q)).
Proof.
  destruct drawn_c as (AL & GB & BL & NE & D & T).
  destruct (fits_drawn st_c gc_c gb_c _ _ (1 / 10) G_c un_c (FNum (1 / 5)) 5 true None None AL GB BL NE D T) as (ps & xl & yl & E & _).
  exists ps, xl, yl. split; [exact E|]. split; [repeat constructor; cbn; lia|].
  intros q I. apply In_nth_error in I. destruct I as (i & I). apply plot_fits_inv in E. destruct E as (rs & EM & ->).
  apply mapM_nth in EM. destruct EM as [LR EM]. rewrite seq_length in LR. rewrite nth_error_map in I.
  destruct (nth_error rs i) as [[[q' [[tm hi] lo]]|]|] eqn:N; cbn in I; try discriminate. injection I as ->.
  assert (LI : (i < List.length rs)%nat) by (apply nth_error_Some; congruence).
  destruct (EM i i) as (y & N' & EF). { apply nth_seq. rewrite <- LR. exact LI. } assert (y = Some (q, (tm, hi, lo))) by congruence. subst y.
  destruct (fit_panel_some _ _ _ _ _ _ _ _ _ _ _ _ _ _ _ EF) as (e & r & w & tc & ec & gc' & mc & m & P). destruct P.
  assert (CU : forall (t : list pyf) l, Forall finite l -> finite_curve (combine t l)).
  { clear. intros t l F. apply Forall_forall. intros [a b] I. apply in_combine_r in I. rewrite Forall_forall in F. exact (F _ I). }
  assert (RW : exists r' w', r = FNum r' /\ w = FNum w').
  { destruct (D (evid e) (sta e)) as (r' & w' & D1 & D2); [exact (nth_error_In _ _ (pair_nth st_c _ _ po_trace))|]. exists r', w'. split; congruence. }
  destruct RW as (r' & w' & -> & ->). destruct (T e (nth_error_In _ _ po_trace)) as (_ & F1 & (g & EG & FG & LG) & _).
  destruct po_g as (g1 & EG1 & m0 & EMC & ->). assert (g1 = g) by congruence. subst g1.
  destruct (model_curve_total r' w' (1 / 10) g FG (fit_times e 5)) as (m1 & EM1 & FM1 & _). { rewrite fit_times_length. exact LG. }
  assert (m1 = m0) by congruence. subst m1.
  assert (F3 : Forall finite gc'). { apply pos_finite. destruct GB as (_ & _ & _ & PG & _). rewrite Forall_forall in PG. exact (PG _ (nth_error_In _ _ po_gc)). }
  destruct (model_curve_total r' w' (1 / 10) gc' F3 tc) as (m2 & EM2 & FM2 & _). { destruct (model_curve_nth _ _ _ _ _ _ po_mc) as [L _]. now rewrite map_length in L. }
  assert (m2 = mc) by congruence. subst m2.
  rewrite po_data, (proj1 po_model), (proj1 po_coda), (proj1 po_coda_model).
  split; [now apply CU|]. split; [apply CU, clip_finite, FM1|]. split; [|now apply CU].
  apply CU, pos_finite. destruct GB as (PE & _). rewrite Forall_forall in PE. exact (PE _ (nth_error_In _ _ po_ec)).
Qed.

Lemma misfit_c : exists a f ps xl yl, build go_ex st_c = Ok (a, [], []) /\
    solve_at go_ex st_c a [] [] (FNum (1 / 5)) None false = Ok f /\ f_err f = FNum 0 /\
    plot_fits G_c un_c (w_energies st_c) (FNum (1 / 5)) (Some (f_b f)) (combine ["e1"; "e2"] (f_W f)) (combine ["A"; "B"] (f_R f)) 5
      (band_info st_c gc_c gb_c) true None None = Ok (ps, xl, yl).
Proof.
  destruct hyps_c as (AL & LS & WP & CN & FS & FX & R0 & GB & a & f & BU & GR & S & E). exists a, f.
  destruct (lsq_misfit go_ex st_c (FNum (1 / 5)) a [] [] gc_c gb_c f 0 10 AL LS WP CN FS FX R0 BU GR GB S E ltac:(lra) ltac:(lra)) as (_ & b & _ & _ & _ & EB & _).
  destruct (solution_shape go_ex st_c (FNum (1 / 5)) a [] [] gc_c gb_c AL LS WP BU GR GB CN FS FX R0 f S) as (b' & ds & m & EB' & _ & LW & LR & _ & _ & F & _).
  assert (V : exists w1 w2 r1 r2, f_W f = [FNum w1; FNum w2] /\ f_R f = [FNum r1; FNum r2]).
  { cbn in LW, LR. destruct (f_W f) as [|w1 [|w2 [|]]] eqn:EW; try discriminate. destruct (f_R f) as [|r1 [|r2 [|]]] eqn:ER; try discriminate.
    assert (K : forall sg, In sg (combine (samples st_c) (concat gc_c ++ gb_c)) -> exists d, resid st_c f b' sg d).
    { clear - F. induction F as [|x d l m H F IH]; intros sg I; [destruct I|]. destruct I as [->|I]; eauto. }
    assert (IX : forall (s1 s2 k : string) i, nth_error [s1; s2] i = Some k -> k = s1 /\ i = 0%nat \/ k = s2 /\ i = 1%nat).
    { intros s1 s2 k [|[|i]] H; cbn in H; [injection H as <-; auto|injection H as <-; auto|destruct i; discriminate]. }
    assert (K1 : exists t e, In ((("e1", "B"), (t, e)), FNum 1) (combine (samples st_c) (concat gc_c ++ gb_c))).
    { eexists. eexists. right. right. left. reflexivity. }
    assert (K2 : exists t e, In ((("e2", "A"), (t, e)), FNum 1) (combine (samples st_c) (concat gc_c ++ gb_c))).
    { eexists. eexists. right. right. right. right. left. reflexivity. }
    destruct K1 as (t1 & e1 & K1). destruct K2 as (t2 & e2 & K2).
    destruct (K _ K1) as (d1 & ? & ? & ? & u1 & v1 & _ & _ & _ & _ & (i1 & A1 & A2) & (i2 & B1 & B2) & _).
    destruct (K _ K2) as (d2 & ? & ? & ? & u2 & v2 & _ & _ & _ & _ & (i3 & A3 & A4) & (i4 & B3 & B4) & _).
    cbn [fst snd] in *. change (stations st_c) with ["A"; "B"] in *. change (eventids st_c) with ["e1"; "e2"] in *.
    rewrite ER in A2, A4. rewrite EW in B2, B4.
    destruct (IX _ _ _ _ A1) as [[Q _]|[_ ->]]; [discriminate|]. destruct (IX _ _ _ _ A3) as [[_ ->]|[Q _]]; [|discriminate].
    destruct (IX _ _ _ _ B1) as [[_ ->]|[Q _]]; [|discriminate]. destruct (IX _ _ _ _ B3) as [[Q _]|[_ ->]]; [discriminate|].
    cbn in A2, A4, B2, B4. injection A2 as ->. injection A4 as ->. injection B2 as ->. injection B4 as ->. exists v1, v2, u2, u1. auto. }
  destruct V as (w1 & w2 & r1 & r2 & EW & ER). destruct drawn_c as (_ & _ & BL & NE & _ & T).
  assert (D : forall ev sta, In (ev, sta) (pairs st_c) -> exists r w,
     dget String.eqb (combine ["A"; "B"] (f_R f)) sta = Some (FNum r) /\ dget String.eqb (combine ["e1"; "e2"] (f_W f)) ev = Some (FNum w)).
  { intros ev s I. rewrite EW, ER. cbn in I. destruct I as [[= <- <-]|[[= <- <-]|[[= <- <-]|[]]]]; eexists; eexists; split; reflexivity. }
  destruct (fits_drawn st_c gc_c gb_c _ _ b G_c un_c (FNum (1 / 5)) 5 true None None AL GB BL NE D T) as (ps & xl & yl & EP & _).
  exists ps, xl, yl. split; [exact BU|]. split; [exact S|]. split; [exact E|]. rewrite EB. exact EP.
Qed.

(** a small value in the coda window *)
Definition tr_low : etrace :=
  {| uid := 1; evid := "e1"; sta := "A"; edata := [FNum 1; FNum (1 / 100)]; estart := 0; esr := 1; edelta := 1000000000;
     eotime := 0; esonset := 0; edist := 0; enoise := None |}.
Definition info_low : info :=
  {| i_tcoda := [[0; 1]]; i_tbulk := []; i_ecoda := [[FNum 1; FNum (1 / 100)]]; i_ebulk := [];
     i_gcoda := [[FNum 1; FNum 1]]; i_gbulk := [] |}.

Lemma pymax_of2 a c : pymax_of [FNum a; FNum c] = Ok (FNum (Rmax a c)).
Proof. cbn [pymax_of fold_left]. now rewrite pymax2. Qed.
Lemma pymin_of2 a c : pymin_of [FNum a; FNum c] = Ok (FNum (Rmin a c)).
Proof. cbn [pymin_of fold_left]. now rewrite pymin2. Qed.

Lemma low : exists G un es g0 b W Rs v0 x ps xl yl q y,
  plot_fits G un es g0 (Some b) W Rs v0 x false None None = Ok (ps, xl, yl) /\ In (Some q) ps /\ on_curves (n_coda q) y /\ 0 < y /\ y < fst yl.
Proof.
  exists G_c, un_c, [tr_low], (FNum (1 / 5)), (FNum 0), [("e1", FNum 1)], [("A", FNum 1)], 1, info_low.
  eexists. eexists. eexists. eexists. exists (1 / 100). split.
  - unfold plot_fits. cbn zeta. cbn [seq mapM List.length].
    unfold fit_panel. cbn [item nth_error bind tr_low sta dget String.eqb Ascii.eqb Bool.eqb fisnan evid].
    cbn zeta. unfold fit_times. cbn [tr_low evid edata List.length seq map points bind]. unfold G_c, model_curve.
    cbn [tr_low evid edata List.length seq map points bind zip_op dget String.eqb Ascii.eqb Bool.eqb].
    rewrite !emod_num. cbn [map]. rewrite !clip_num. cbn [points bind i_tcoda i_ecoda i_gcoda i_tbulk info_low item nth_error map model_curve zip_op].
    rewrite !emod_num. cbn [points bind]. unfold npmax, npmin. cbn [existsb fisnan orb].
    rewrite !pymax_of2, !pymin_of2. cbn [bind]. rewrite pymax2, pymin2. cbn [flat_map app snd fst map pymax_of pymin_of fold_left bind set_lim fmul option_map].
    reflexivity.
  - split; [left; reflexivity|]. split; [eexists; right; left; reflexivity|]. split; [lra|].
    cbn [fst]. rewrite ?Rmult_0_l, ?Ropp_0, ?exp_0. rewrite (Rmin_left (1 * 1 * 1 * 1)), (Rmax_left 1 (1 / 100)) by lra. rewrite Rmin_left by lra. lra.
Qed.

(** *** Fixed sites and two events *)
Definition en_fix (e s : string) : R := source_ex e * site_ex s.
Definition st_fix : wstate :=
  {| w_energies := [tr_c 1 "e1" "A"; tr_c 2 "e2" "A"; tr_c 3 "e2" "B"];
     w_distances := map (fun p => (p, 10)) [("e1", "A"); ("e2", "A"); ("e2", "B")];
     w_tcoda := [[0]; [0]; [0]]; w_tbulk := []; w_tbulk_window := []; w_weights := []; w_ebulk := [];
     w_ecoda := [[FNum 6]; [FNum 10]; [FNum (5 / 2)]] |}.
Definition lo_fix : lopts :=
  {| l_coda_norm := false; l_fix := true; l_fix_sites := Some params_ex;
     l_fix_params := Some (Some (FNum (1 / 5)), Some (FNum bt_ex));
     l_R0 := 1; l_b_bounds := Some (1 / 100, 10); l_g0_bounds := Some (1 / 1000, 1);
     l_bulk := false; l_optimize := true; l_plot_optimization := true; l_num := 2;
     l_gcoda := fun _ t _ => Ok (map (fun _ => FNum 1) t); l_gbulk := fun _ _ _ => Ok (FNum 1);
     l_wls := source_wls; l_optim := optim_ex |}.
Definition gc_fix : list (list pyf) := [[FNum 1]; [FNum 1]; [FNum 1]].

Lemma band_fix : good_band st_fix gc_fix [].
Proof.
  split; [repeat constructor; eexists; (split; [reflexivity|lra])|]. split; [constructor|]. split; [constructor|].
  split; [repeat constructor; apply one_pos|]. split; [constructor|]. repeat constructor.
Qed.

Lemma aligned_fix : aligned st_fix.
Proof. split; [discriminate|]. split; [reflexivity|]. split; [repeat constructor|]. split; [reflexivity|]. left. reflexivity. Qed.

Lemma solve_fix : exists a bs f, build lo_fix st_fix = Ok (a, bs, [FNum 2; FNum 2]) /\
  solve_at lo_fix st_fix a bs [FNum 2; FNum 2] (FNum (1 / 5)) (Some (FNum bt_ex)) true = Ok f /\
  f_err f = FNum 0 /\ f_W f = [FNum 3; FNum 5] /\ f_R f = [FNum 2; FNum 2] /\ f_b f = FNum bt_ex.
Proof.
  assert (F2 : flog (FNum 2) = FNum (ln 2)) by (apply flog_num; lra).
  assert (F3 : flog (FNum (1 / 2)) = FNum (ln (1 / 2))) by (apply flog_num; lra).
  assert (BU : build lo_fix st_fix = Ok ([[FNum 1; FNum 0]; [FNum 0; FNum 1]; [FNum 0; FNum 1]], map FNum [ln 2; ln 2; ln (1 / 2)], [FNum 2; FNum 2])).
  { unfold build. change (l_coda_norm lo_fix) with false. change (l_fix_sites lo_fix) with (Some params_ex).
    change (l_fix lo_fix) with true. cbv iota.
    assert (M : mapM (row_fix_sites st_fix params_ex) (seq 0 (List.length (block_lengths st_fix))) =
            Ok [([FNum 1; FNum 0], FNum 2); ([FNum 0; FNum 1], FNum 2); ([FNum 0; FNum 1], FNum (1 / 2))]) by reflexivity.
    rewrite M. cbn [bind map fst snd]. rewrite F2, F3. reflexivity. }
  eexists. eexists. eexists. split; [exact BU|].
  assert (NZ : nonzero (Some (FNum bt_ex)) = Some (FNum bt_ex)).
  { unfold nonzero. destruct (Req_EM_T bt_ex 0) as [Q|]; [|reflexivity]. unfold bt_ex in Q. lra. }
  assert (RH : rhs lo_fix st_fix (FNum (1 / 5)) (Some (FNum bt_ex)) true (map FNum [ln 2; ln 2; ln (1 / 2)]) = Ok (map FNum [ln 3; ln 5; ln 5])).
  { unfold rhs. rewrite NZ.
    assert (GR : greens lo_fix st_fix (FNum (1 / 5)) (pairs st_fix) (w_ecoda st_fix) (w_tcoda st_fix) = Ok (gc_fix, [])) by reflexivity.
    rewrite GR. cbn [bind st_fix w_ecoda w_ebulk gc_fix concat app map]. rewrite !flog_pos by lra.
    unfold times. cbn [zip_op fsub bind w_tcoda w_tbulk st_fix concat app map fmul fadd].
    replace (ln 6) with (ln 2 + ln 3) by (rewrite <- ln_mult by lra; f_equal; lra).
    replace (ln 10) with (ln 2 + ln 5) by (rewrite <- ln_mult by lra; f_equal; lra).
    replace (ln (5 / 2)) with (ln (1 / 2) + ln 5) by (rewrite <- ln_mult by lra; f_equal; lra). rewrite ln_1. cbn [fneg fsub fadd map].
    apply f_equal. repeat (apply f_equal2; [apply f_equal; ring|]). reflexivity. }
  assert (SV : solve_at lo_fix st_fix [[FNum 1; FNum 0]; [FNum 0; FNum 1]; [FNum 0; FNum 1]] (map FNum [ln 2; ln 2; ln (1 / 2)])
     [FNum 2; FNum 2] (FNum (1 / 5)) (Some (FNum bt_ex)) true =
     Ok {| f_err := FNum 0; f_g0 := FNum (1 / 5); f_b := FNum bt_ex; f_W := [FNum 3; FNum 5]; f_R := [FNum 2; FNum 2] |}).
  { unfold solve_at. rewrite RH. cbn [bind]. change (l_wls lo_fix) with source_wls. unfold source_wls. rewrite wls_ex_ok.
    - cbn [bind]. change (l_fix lo_fix) with true. change (l_coda_norm lo_fix) with false. cbv iota. cbn [bind decode map fexp].
      rewrite !exp_ln by lra. cbn [fsqrt]. destruct (Rlt_dec 0 0); [lra|]. rewrite sqrt_0. reflexivity.
    - exists [[1; 0]; [0; 1]; [0; 1]], [ln 3; ln 5; ln 5]. split; [reflexivity|]. split; [reflexivity|]. split; [discriminate|].
      split; [repeat constructor|]. split; [repeat (constructor; [cbn; ring|]); constructor|]. exact I. }
  split; [exact SV|]. cbn. auto.
Qed.

Lemma fixed_sites : exists o st params g0 b a bs rs gc gb f,
  least_squares (l_wls o) /\ aligned st /\ good_band st gc gb /\ l_fix_sites o = Some params /\
  build o st = Ok (a, bs, rs) /\ greens o st g0 (pairs st) (w_ecoda st) (w_tcoda st) = Ok (gc, gb) /\
  solve_at o st a bs rs g0 (Some b) true = Ok f /\ f_err f = FNum 0 /\
  exists G un v0 ps xl yl q t x y,
    plot_fits G un (w_energies st) g0 (Some (f_b f)) (combine (eventids st) (f_W f)) (combine (stations st) (f_R f)) v0
      (band_info st gc gb) false None None = Ok (ps, xl, yl) /\
    In (Some q) ps /\ n_coda q = [(FNum t, FNum x)] /\ n_coda_model q = [(FNum t, FNum y)] /\ y = 4 * x.
Proof.
  destruct solve_fix as (a & bs & f & BU & S & E & EW & ER & EB).
  exists lo_fix, st_fix, params_ex, (FNum (1 / 5)), (FNum bt_ex), a, bs. eexists. exists gc_fix, [], f.
  split; [apply wls_ex_least|]. split; [exact aligned_fix|]. split; [exact band_fix|]. split; [reflexivity|]. split; [exact BU|].
  split; [reflexivity|]. split; [exact S|]. split; [exact E|]. rewrite EW, ER, EB.
  change (combine (eventids st_fix) [FNum 3; FNum 5]) with [("e1", FNum 3); ("e2", FNum 5)].
  change (combine (stations st_fix) [FNum 2; FNum 2]) with [("A", FNum 2); ("B", FNum 2)].
  destruct (fits_drawn st_fix gc_fix [] [("e1", FNum 3); ("e2", FNum 5)] [("A", FNum 2); ("B", FNum 2)] bt_ex G_c un_c (FNum (1 / 5)) 5 false None None)
    as (ps & xl & yl & EP & _).
  - exact aligned_fix.
  - exact band_fix.
  - reflexivity.
  - repeat constructor; discriminate.
  - intros ev s I. cbn in I. destruct I as [[= <- <-]|[[= <- <-]|[[= <- <-]|[]]]]; eexists; eexists; split; reflexivity.
  - intros e I. cbn in I. destruct I as [<-|[<-|[<-|[]]]]; (split; [discriminate|]; split; [repeat (constructor; [eexists; reflexivity|]); constructor|];
    split; [eexists; split; [reflexivity|]; split; [repeat (constructor; [eexists; reflexivity|]); constructor|reflexivity]|]; discriminate).
  - exists G_c, un_c, 5, ps, xl, yl.
    destruct (fits_panels _ _ _ _ _ _ _ _ _ _ _ _ _ _ _ EP) as [LP FP].
    destruct (FP 2%nat (tr_c 3 "e2" "B") (FNum 2) eq_refl eq_refl) as [[Q _]|(_ & q & g & NQ & _)]; [discriminate|].
    pose proof EP as EP'. apply plot_fits_inv in EP'. destruct EP' as (rs & EM & EQ). apply mapM_nth in EM. destruct EM as [LR EM].
    destruct (EM 2%nat 2%nat eq_refl) as (y & N' & EF). rewrite EQ, nth_error_map, N' in NQ. destruct y as [[q' [[tm hi] lo]]|]; [|discriminate].
    assert (q' = q) by (cbn in NQ; congruence). subst q'.
    destruct (fit_panel_some _ _ _ _ _ _ _ _ _ _ _ _ _ _ _ EF) as (e & r & w & tc & ec & gc' & mc & m & P). destruct P.
    assert (e = tr_c 3 "e2" "B") by (cbn in po_trace; congruence). subst e.
    assert (r = FNum 2) by (cbn in po_r; congruence). subst r. assert (w = FNum 5) by (cbn in po_w; congruence). subst w.
    assert (tc = [0]) by (cbn in po_tc; congruence). subst tc. assert (ec = [FNum (5 / 2)]) by (cbn in po_ec; congruence). subst ec.
    assert (gc' = [FNum 1]) by (cbn in po_gc; congruence). subst gc'.
    cbn [map model_curve zip_op bind] in po_mc. unfold model_curve in po_mc. cbn [zip_op bind] in po_mc. rewrite emod_num in po_mc. injection po_mc as <-.
    exists q, 0, (5 / 2). eexists. split; [exact EP|]. split; [rewrite EQ; apply (nth_error_In _ 2%nat); rewrite nth_error_map, N'; reflexivity|].
    split; [exact (proj1 po_coda)|]. split; [exact (proj1 po_coda_model)|]. rewrite Rmult_0_r, Ropp_0, exp_0. lra.
Qed.

(** ** plot_energies *)
Lemma energies_c : exists ps, plot_energies (fun _ => Some 1500000000%Z) [(("e1", "A"), (3000000000, 4000000000)%Z)]
  [(("e1", "A"), (5000000000, 7000000000)%Z)] None [tr_c 1 "e1" "A"] = Ok ps.
Proof. eexists. reflexivity. Qed.

Lemma windows_c : [tr_c 1 "e1" "A"] <> [] /\ [(("e1", "A"), (3000000000, 4000000000)%Z)] <> [] /\ [(("e1", "A"), (5000000000, 7000000000)%Z)] <> [] /\
  (forall e, In e [tr_c 1 "e1" "A"] -> exists b c, dget pair_eqb [(("e1", "A"), (3000000000, 4000000000)%Z)] (evid e, sta e) = Some b /\
     dget pair_eqb [(("e1", "A"), (5000000000, 7000000000)%Z)] (evid e, sta e) = Some c).
Proof.
  split; [discriminate|]. split; [discriminate|]. split; [discriminate|]. intros e [<-|[]]. eexists. eexists. split; reflexivity.
Qed.

Lemma no_bulk : exists ponset (cw : list ((string * string) * (Z * Z))) e ps p c, dget pair_eqb cw (evid e, sta e) = Some c /\
  plot_energies ponset [] cw None [e] = Ok ps /\ In p ps /\ e_windows p = None.
Proof.
  exists (fun _ => None), [(("e1", "A"), (5000000000, 7000000000)%Z)], (tr_c 1 "e1" "A"). eexists. eexists. eexists.
  split; [reflexivity|]. split; [reflexivity|]. split; [left; reflexivity|]. reflexivity.
Qed.

(** ** The panel of the misfit *)
Definition optim_best : optim := Ask (FNum (1 / 5)) (fun _ => Ask (FNum (1 / 10)) (fun _ => Done (FNum (1 / 5)))).
Definition optim_none : optim := Ask (FNum 5) (fun _ => Done (FNum (1 / 5))).
Definition lo_with (op : optim) : lopts :=
  {| l_coda_norm := false; l_fix := false; l_fix_sites := None; l_fix_params := l_fix_params go_ex;
     l_R0 := 1; l_b_bounds := l_b_bounds go_ex; l_g0_bounds := Some (1 / 1000, 1);
     l_bulk := true; l_optimize := true; l_plot_optimization := true; l_num := 2;
     l_gcoda := l_gcoda go_ex; l_gbulk := l_gbulk go_ex; l_wls := go_wls; l_optim := op |}.

Lemma inside_c x : 1 / 1000 <= x <= 1 -> g0_outside go_ex (FNum x) = false.
Proof. intros H. apply g0_outside_spec. intros lo hi [= <- <-]. eexists; split; [reflexivity|]. lra. Qed.

Lemma best_run : exists s f, choose (lo_with optim_best) st_c = Ok (Some (s, f)) /\ f_g0 f = FNum (1 / 5) /\
  r_g0 s = [(FNum 0, FNum (1 / 5)); (FNum 0, FNum (1 / 10))].
Proof.
  destruct (build_ex false go_wls) as (a & BU). fold go_ex in BU.
  destruct (go_solve a (FNum (1 / 10)) BU) as (f1 & S1 & G1 & B1 & E1).
  destruct (go_solve a (FNum (1 / 5)) BU) as (f2 & S2 & G2 & B2 & E2).
  assert (I1 : inside_closed (Some (1 / 1000, 1)) (FNum (1 / 10))). { intros lo hi [= <- <-]. eexists; split; [reflexivity|]. lra. }
  assert (I2 : inside_closed (Some (1 / 1000, 1)) (FNum (1 / 5))). { intros lo hi [= <- <-]. eexists; split; [reflexivity|]. lra. }
  set (o := lo_with optim_best).
  assert (BU' : build o st_c = Ok (a, [], [])) by exact BU.
  assert (S1' : solve_at o st_c a [] [] (FNum (1 / 10)) None false = Ok f1) by exact S1.
  assert (S2' : solve_at o st_c a [] [] (FNum (1 / 5)) None false = Ok f2) by exact S2.
  assert (L1 : exists s1, lstsq_opt o st_c a [] [] {| r_record := []; r_g0 := [] |} (FNum (1 / 5)) = Ok (s1, FNum 0) /\ r_g0 s1 = [(FNum 0, FNum (1 / 5))]).
  { unfold lstsq_opt. change (g0_outside o) with (g0_outside go_ex). rewrite inside_c by lra. rewrite S2'. cbn [bind]. rewrite (E2 I2). eexists. split; [reflexivity|].
    unfold add_record. cbn. rewrite G2, (E2 I2). cbn. reflexivity. }
  destruct L1 as (s1 & L1 & R1).
  assert (L2 : exists s2, lstsq_opt o st_c a [] [] s1 (FNum (1 / 10)) = Ok (s2, FNum 0) /\ r_g0 s2 = [(FNum 0, FNum (1 / 5)); (FNum 0, FNum (1 / 10))]).
  { unfold lstsq_opt. change (g0_outside o) with (g0_outside go_ex). rewrite inside_c by lra. rewrite S1'. cbn [bind]. rewrite (E1 I1). eexists. split; [reflexivity|].
    unfold add_record. change (l_plot_optimization o) with true. cbn [andb]. rewrite G1, (E1 I1). cbn. rewrite R1.
    match goal with |- context [if ?c then _ else _] => destruct c end; reflexivity. }
  destruct L2 as (s2 & L2 & R2).
  assert (M : minimize o st_c a [] [] (l_optim o) {| r_record := []; r_g0 := [] |} = Ok (s2, FNum (1 / 5))).
  { change (l_optim o) with optim_best. unfold optim_best. cbn [minimize]. rewrite L1. cbn [bind]. rewrite L2. reflexivity. }
  exists (add_record o s2 f2 false), f2. split; [|split; [exact G2|]].
  - unfold choose. rewrite BU'. cbn [bind]. change (l_fix o) with false. change (negb (l_optimize o)) with false. cbv iota. rewrite M. cbn [bind].
    unfold lstsq. rewrite S2'. reflexivity.
  - rewrite <- R2. unfold add_record. change (l_plot_optimization o) with true. cbn [andb].
    match goal with |- context [if ?c then _ else _] => destruct c end; reflexivity.
Qed.

Lemma best : exists o st s f p g y, aligned st /\ least_squares (l_wls o) /\ choose o st = Ok (Some (s, f)) /\
  l_fix o = false /\ l_optimize o = true /\ l_plot_optimization o = true /\
  plot_misfit (r_g0 s) = Ok p /\ In (f_g0 f, FNum y) (m_all p) /\ m_best p = Some (g, FNum y) /\ g <> f_g0 f.
Proof.
  destruct best_run as (s & f & CH & G & R). exists (lo_with optim_best), st_c, s, f. eexists. exists (FNum (1 / 10)), 0.
  split; [exact aligned_ex|]. split; [apply wls_ex_least|]. split; [exact CH|]. repeat (split; [reflexivity|]). rewrite R, G.
  split; [reflexivity|]. split; [left; reflexivity|]. split; [reflexivity|]. intros Q. injection Q as Q. lra.
Qed.

Lemma misfit_ex : exists s f p, choose (lo_with optim_best) st_c = Ok (Some (s, f)) /\ l_fix (lo_with optim_best) = false /\
  l_optimize (lo_with optim_best) = true /\ l_plot_optimization (lo_with optim_best) = true /\ plot_misfit (r_g0 s) = Ok p.
Proof.
  destruct best_run as (s & f & CH & G & R). exists s, f. eexists. split; [exact CH|]. repeat (split; [reflexivity|]). rewrite R. reflexivity.
Qed.

Lemma no_trial : exists o st s f, aligned st /\ least_squares (l_wls o) /\ choose o st = Ok (Some (s, f)) /\
  l_fix o = false /\ l_optimize o = true /\ l_plot_optimization o = true /\ plot_misfit (r_g0 s) = Err ValueError.
Proof.
  destruct (build_ex false go_wls) as (a & BU). fold go_ex in BU.
  destruct (go_solve a (FNum (1 / 5)) BU) as (f2 & S2 & G2 & B2 & E2).
  set (o := lo_with optim_none).
  assert (BU' : build o st_c = Ok (a, [], [])) by exact BU.
  assert (S2' : solve_at o st_c a [] [] (FNum (1 / 5)) None false = Ok f2) by exact S2.
  assert (O5 : g0_outside go_ex (FNum 5) = true).
  { destruct (g0_outside go_ex (FNum 5)) eqn:Q; [reflexivity|]. apply g0_outside_spec in Q.
    destruct (Q _ _ eq_refl) as (x & [= <-] & ?). lra. }
  assert (M : minimize o st_c a [] [] (l_optim o) {| r_record := []; r_g0 := [] |} = Ok ({| r_record := []; r_g0 := [] |}, FNum (1 / 5))).
  { change (l_optim o) with optim_none. unfold optim_none. cbn [minimize]. unfold lstsq_opt. change (g0_outside o) with (g0_outside go_ex). rewrite O5. reflexivity. }
  exists o, st_c. eexists. exists f2. split; [exact aligned_ex|]. split; [apply wls_ex_least|]. split.
  - unfold choose. rewrite BU'. cbn [bind]. change (l_fix o) with false. change (negb (l_optimize o)) with false. cbv iota. rewrite M. cbn [bind].
    unfold lstsq. rewrite S2'. cbn [bind]. reflexivity.
  - repeat (split; [reflexivity|]). unfold add_record. change (l_plot_optimization o) with true. cbn. reflexivity.
Qed.

Lemma no_site_c : w_energies st_c <> [] /\
  (forall e, In e (w_energies st_c) -> dget String.eqb [("A", FNan); ("B", FNan)] (sta e) = Some FNan).
Proof. split; [discriminate|]. intros e I. cbn in I. destruct I as [<-|[<-|[<-|[]]]]; reflexivity. Qed.

Lemma traces_given : w_energies st_c <> [].
Proof. discriminate. Qed.

Lemma missing_window : [(("e1", "A"), (3000000000, 4000000000)%Z)] <> [] /\ In (tr_c 2 "e1" "B") [tr_c 1 "e1" "A"; tr_c 2 "e1" "B"] /\
  dget pair_eqb [(("e1", "A"), (3000000000, 4000000000)%Z)] (evid (tr_c 2 "e1" "B"), sta (tr_c 2 "e1" "B")) = None.
Proof. split; [discriminate|]. split; [right; now left|reflexivity]. Qed.

Lemma given_c : exists ps yl, plot_fits G_c un_c (w_energies st_c) (FNum (1 / 5)) (Some (FNum (1 / 10))) (combine ["e1"; "e2"] W_c)
  (combine ["A"; "B"] R_c) 5 (band_info st_c gc_c gb_c) true (Some (1, 7)) None = Ok (ps, (1, 7), yl).
Proof.
  destruct drawn_c as (AL & GB & LE & NE & PV & EN).
  destruct (fits_drawn st_c gc_c gb_c (combine ["e1"; "e2"] W_c) (combine ["A"; "B"] R_c) (1 / 10) G_c un_c (FNum (1 / 5)) 5 true (Some (1, 7)) None AL GB LE NE PV EN)
    as (ps & xl & yl & E & _). exists ps, yl. destruct (fits_given _ _ _ _ _ _ _ _ _ _ _ _ _ _ _ E) as (X & _). pose proof (X (1, 7) eq_refl). subst xl. exact E.
Qed.
