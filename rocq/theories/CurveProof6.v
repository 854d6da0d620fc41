(** Proofs about the curves: plot_fits is drawn, plot_energies and the panel of the misfit. *)
From Coq Require Import String List Bool Reals Lra Lia ZArith Arith Sorted.
From Verif Require Import Base Pyf PyfOps FbModel LsqfbModel LsqfbSpec LsqfbProof LsqfbProof2 LsqfbProof3 LsqfbProof4 LsqfbProof7 CurveModel CurveSpec CurveProof CurveProof2 CurveProof3 CurveProof4 CurveProof5.
Import ListNotations.
Open Scope string_scope.
Open Scope list_scope.
Open Scope R_scope.

Lemma points_total x : forall y, List.length x = List.length y -> points x y = Ok (combine x y).
Proof. induction x as [|a x IH]; intros [|c y] L; cbn in L |- *; try discriminate; [reflexivity|]. rewrite IH by lia. reflexivity. Qed.

Lemma model_curve_total r w b g : Forall finite g -> forall t, List.length g = List.length t ->
  exists m, model_curve (FNum r) (FNum w) (FNum b) g (map FNum t) = Ok m /\ Forall finite m /\ List.length m = List.length t.
Proof.
  unfold model_curve. induction 1 as [|x g (x' & ->) F IH]; intros [|t0 t] L; cbn in L; try discriminate.
  - exists []. repeat split; constructor.
  - destruct (IH t) as (m & E & FM & LM); [lia|]. eexists. cbn [map zip_op]. rewrite E. cbn [bind]. split; [reflexivity|].
    split; [constructor; [|exact FM]; unfold get_Emod; cbn; eexists; reflexivity|cbn; lia].
Qed.

Lemma clip_finite m : Forall finite m -> Forall finite (map clip_low m).
Proof. induction 1 as [|x m (y & ->) F IH]; cbn [map]; constructor; [|exact IH]. rewrite clip_num. eexists; reflexivity. Qed.

Lemma npmax_total l : l <> [] -> Forall finite l -> exists v, npmax l = Ok (FNum v).
Proof.
  intros N F. destruct (finite_map l F) as (k & ->). unfold npmax.
  replace (existsb fisnan (map FNum k)) with false by (clear; induction k; cbn; auto). destruct k as [|u k]; [contradiction|].
  cbn [pymax_of map]. destruct (pymax_num k u) as (v & -> & _). eauto.
Qed.
Lemma npmin_total l : l <> [] -> Forall finite l -> exists v, npmin l = Ok (FNum v).
Proof.
  intros N F. destruct (finite_map l F) as (k & ->). unfold npmin.
  replace (existsb fisnan (map FNum k)) with false by (clear; induction k; cbn; auto). destruct k as [|u k]; [contradiction|].
  cbn [pymin_of map]. destruct (pymin_num k u) as (v & -> & _). eauto.
Qed.

Lemma pos_finite l : Forall positive l -> Forall finite l.
Proof. apply Forall_impl. intros x (r & -> & _). eexists; reflexivity. Qed.

Lemma length_nonempty {A B} (l : list A) (m : list B) : List.length l = List.length m -> m <> [] -> l <> [].
Proof. destruct l, m; cbn; intros; try discriminate; try contradiction. Qed.

Lemma fits_drawn st gc gb W Rs b G un g0 v0 sm xlim ylim : aligned st -> good_band st gc gb ->
  List.length gb = List.length (w_ebulk st) -> Forall (fun e => e <> []) (w_ecoda st) ->
  (forall ev sta, In (ev, sta) (pairs st) -> exists r w, dget String.eqb Rs sta = Some (FNum r) /\ dget String.eqb W ev = Some (FNum w)) ->
  (forall e, In e (w_energies st) -> edata e <> [] /\ Forall finite (edata e) /\
     (exists g, G (edist e) (fit_times e v0) g0 = Ok g /\ Forall finite g /\ List.length g = List.length (edata e)) /\
     (sm = true -> exists d, un (uid e) = Ok d /\ List.length d = List.length (edata e))) ->
  exists ps xl yl, plot_fits G un (w_energies st) g0 (Some (FNum b)) W Rs v0 (band_info st gc gb) sm xlim ylim = Ok (ps, xl, yl) /\
    List.length ps = List.length (pairs st) /\ ~ In None ps.
Proof.
  intros AL GB BL NE DV ED. assert (LEN := lengths st gc gb AL GB BL). destruct LEN as (LT & LE & LG & LTB & LEB & _).
  assert (LP : List.length (w_energies st) = List.length (pairs st)) by (unfold pairs; now rewrite map_length).
  destruct AL as (PN & _ & FT & _ & BB). destruct GB as (PE & PEB & FTB & PG & PGB & FG).
  set (x := band_info st gc gb).
  destruct (mapM_seq (fit_panel G un (w_energies st) g0 (FNum b) W Rs v0 x sm)
    (fun i y => exists q tm hi lo, y = Some (q, (tm, FNum hi, FNum lo))) (List.length (w_energies st)) 0) as (rs & EM & FM).
  { intros i I. destruct (nth_error_exists (w_energies st) i) as (e & He); [lia|]. assert (HP := pair_nth st i e He).
    destruct (nth_error_exists (w_tcoda st) i) as (t & HT); [lia|].
    destruct (nth_error_exists (w_ecoda st) i) as (ec & HE); [lia|]. destruct (nth_error_exists gc i) as (g & HG); [lia|].
    assert (L1 : List.length t = List.length ec).
    { clear - FT HT HE. revert i HT HE. induction FT; intros [|i] HT HE; cbn in HT, HE; try discriminate; [congruence|eauto]. }
    assert (L2 : List.length ec = List.length g).
    { clear - FG HG HE. revert i HG HE. induction FG; intros [|i] HT HE; cbn in HT, HE; try discriminate; [congruence|eauto]. }
    destruct (DV _ _ (nth_error_In _ _ HP)) as (r & w & DR & DW). destruct (ED e (nth_error_In _ _ He)) as (N1 & F1 & (G1 & EG & FG1 & LG1) & UN).
    assert (N2 : ec <> []) by (rewrite Forall_forall in NE; exact (NE _ (nth_error_In _ _ HE))).
    assert (F2 : Forall finite ec) by (apply pos_finite; rewrite Forall_forall in PE; exact (PE _ (nth_error_In _ _ HE))).
    assert (F3 : Forall finite g) by (apply pos_finite; rewrite Forall_forall in PG; exact (PG _ (nth_error_In _ _ HG))).
    assert (LTM := fit_times_length e v0).
    destruct (model_curve_total r w b G1 FG1 (fit_times e v0)) as (m & EMC & FMC & LMC); [congruence|].
    destruct (model_curve_total r w b g F3 t) as (mc & EMC2 & FMC2 & LMC2); [congruence|].
    assert (UN' : exists u, (if sm then do d <- un (uid e); do p <- points (map FNum (fit_times e v0)) d; Ok (Some p) else Ok None) = Ok u).
    { destruct sm; [|eauto]. destruct (UN eq_refl) as (d & -> & LD). cbn [bind]. rewrite points_total by (rewrite map_length; congruence). cbn [bind]. eauto. }
    destruct UN' as (u & EU).
    assert (BK : exists k, match i_tbulk x with
                         | [] => Ok None
                         | _ =>
                             do tb <- item (i_tbulk x) i;
                             do eb <- item (i_ebulk x) i;
                             do gb <- item (i_gbulk x) i;
                             Ok (Some ((tb, eb), (tb, get_Emod (FNum r) (FNum w) (FNum b) gb tb)))
                         end = Ok k).
    { cbn [x band_info i_tbulk i_ebulk i_gbulk]. destruct BB as [BB|BB].
      - destruct (w_tbulk st); [eauto|]. rewrite BB in BL. cbn in BL, LTB. lia.
      - destruct (nth_error_exists (w_tbulk st) i) as (k1 & K1); [lia|]. destruct (nth_error_exists (w_ebulk st) i) as (k2 & K2); [lia|].
        destruct (nth_error_exists gb i) as (k3 & K3); [lia|]. rewrite (item_some _ _ _ K1), (item_some _ _ _ K2), (item_some _ _ _ K3). cbn [bind].
        destruct (w_tbulk st); eauto. }
    destruct BK as (k & BK).
    destruct (npmax_total (map clip_low m)) as (v1 & V1). { apply (length_nonempty _ (edata e)); [rewrite map_length; congruence|exact N1]. } { now apply clip_finite. }
    destruct (npmax_total (edata e) N1 F1) as (v2 & V2).
    destruct (npmin_total mc) as (v3 & V3). { apply (length_nonempty _ ec); [congruence|exact N2]. } { exact FMC2. }
    destruct (npmax_total ec N2 F2) as (v4 & V4).
    assert (TN : forall (A : Type) (a c : A), match fit_times e v0 with [] => a | _ :: _ => c end = c).
    { intros. destruct (fit_times e v0); [destruct (edata e); [contradiction|discriminate]|reflexivity]. }
    eexists. split.
    - unfold fit_panel. rewrite (item_some _ _ _ He). cbn [bind]. rewrite DR. cbn [fisnan]. cbn zeta. rewrite EU. cbn [bind].
      rewrite points_total by (rewrite map_length; congruence). cbn [bind]. rewrite EG. cbn [bind]. rewrite DW, EMC. cbn [bind].
      rewrite points_total by (rewrite !map_length; congruence). cbn [bind].
      change (item (i_tcoda x) i) with (item (w_tcoda st) i). change (item (i_ecoda x) i) with (item (w_ecoda st) i). change (item (i_gcoda x) i) with (item gc i).
      rewrite (item_some _ _ _ HT), (item_some _ _ _ HE), (item_some _ _ _ HG). cbn [bind].
      rewrite points_total by (rewrite map_length; congruence). cbn [bind]. rewrite EMC2. cbn [bind].
      rewrite points_total by (rewrite map_length; congruence). cbn [bind]. rewrite BK. cbn [bind].
      rewrite TN.
      rewrite V1. cbn [bind]. rewrite V2. cbn [bind]. rewrite V3. cbn [bind]. rewrite V4. cbn [bind]. rewrite pymax2, pymin2. reflexivity.
    - eexists. eexists. eexists. eexists. reflexivity. }
  assert (LR : List.length rs = List.length (pairs st)) by (apply Forall2_len in FM; rewrite seq_length in FM; lia).
  assert (FR : Forall (fun y : option (panel * (R * pyf * pyf)) => exists q tm hi lo, y = Some (q, (tm, FNum hi, FNum lo))) rs).
  { clear - FM. induction FM; constructor; auto. }
  set (dr := flat_map (fun p : option (panel * (R * pyf * pyf)) => match p with Some p => [snd p] | None => [] end) rs).
  assert (DR : dr <> [] /\ exists a c d, dr = map (fun z => (fst (fst z), FNum (snd (fst z)), FNum (snd z))) (combine (combine a c) d)
      /\ List.length a = List.length c /\ List.length c = List.length d).
  { split.
    - subst dr. destruct rs as [|y rs]; [destruct (pairs st); [contradiction|discriminate]|]. inversion FR as [|? ? (q & tm & hi & lo & ->)]; subst. discriminate.
    - subst dr. clear - FR. induction FR as [|y rs (q & tm & hi & lo & ->) F (a & c & d & E & L1 & L2)]; [exists [], [], []; auto|].
      exists (tm :: a), (hi :: c), (lo :: d). cbn. rewrite E. auto. }
  destruct DR as (ND & a & c & d & DR & L1 & L2).
  assert (X : exists vx, pymax_of (map (fun z : R * pyf * pyf => FNum (fst (fst z))) dr) = Ok (FNum vx)).
  { rewrite DR, map_map. cbn [fst snd]. rewrite <- (map_map (fun z : R * R * R => fst (fst z)) FNum).
    destruct (combine (combine a c) d) as [|u l]; [contradiction|]. cbn [map pymax_of]. destruct (pymax_num (map (fun z => fst (fst z)) l) (fst (fst u))) as (v & -> & _). eauto. }
  assert (Y : exists vy, pymax_of (map (fun z : R * pyf * pyf => snd (fst z)) dr) = Ok (FNum vy)).
  { rewrite DR, map_map. cbn [fst snd]. rewrite <- (map_map (fun z : R * R * R => snd (fst z)) FNum).
    destruct (combine (combine a c) d) as [|u l]; [contradiction|]. cbn [map pymax_of]. destruct (pymax_num (map (fun z => snd (fst z)) l) (snd (fst u))) as (v & -> & _). eauto. }
  assert (Z : exists vz, pymin_of (map snd dr) = Ok (FNum vz)).
  { rewrite DR, map_map. cbn [fst snd]. rewrite <- (map_map (fun z : R * R * R => snd z) FNum).
    destruct (combine (combine a c) d) as [|u l]; [contradiction|]. cbn [map pymin_of]. destruct (pymin_num (map (fun z => snd z) l) (snd u)) as (v & -> & _). eauto. }
  destruct X as (vx & X). destruct Y as (vy & Y). destruct Z as (vz & Z).
  unfold plot_fits. destruct (w_energies st) as [|e0 es] eqn:ES; [destruct (pairs st); [contradiction|discriminate]|]. rewrite <- ES in *. cbn zeta.
  rewrite EM. cbn [bind]. fold dr. rewrite X, Y, Z. cbn [bind set_lim fmul].
  exists (map (option_map fst) rs), (match xlim with Some l => l | None => (0, vx) end), (match ylim with Some l => l | None => (1 / 10 * vz, 3 / 2 * vy) end).
  split; [|split].
  - destruct xlim, ylim; cbn [bind]; reflexivity.
  - now rewrite map_length.
  - intros I. apply in_map_iff in I. destruct I as (y & E & I). rewrite Forall_forall in FR. destruct (FR y I) as (q & tm & hi & lo & ->). discriminate.
Qed.

Lemma fits_no_site G un es g0 b W Rs v0 x sm xlim ylim : es <> [] -> xlim = None \/ ylim = None ->
  (forall e, In e es -> dget String.eqb Rs (sta e) = Some FNan) ->
  plot_fits G un es g0 b W Rs v0 x sm xlim ylim = Err ValueError.
Proof.
  intros N L H. unfold plot_fits. destruct es as [|e0 es'] eqn:E; [contradiction|]. rewrite <- E in *. cbn zeta.
  set (bb := match b with None => FNum 0 | Some b => b end).
  destruct (mapM_seq (fit_panel G un es g0 bb W Rs v0 x sm) (fun _ y => y = None) (List.length es) 0) as (rs & EM & FM).
  { intros i I. destruct (nth_error_exists es i) as (e & He); [lia|]. exists None. split; [|reflexivity].
    unfold fit_panel. rewrite (item_some _ _ _ He). cbn [bind]. rewrite (H e (nth_error_In _ _ He)). reflexivity. }
  rewrite EM. cbn [bind]. assert (D : flat_map (fun p : option (panel * (R * pyf * pyf)) => match p with Some p => [snd p] | None => [] end) rs = []).
  { clear - FM. induction FM as [|i y l m -> F IH]; cbn; auto. }
  rewrite D. cbn. destruct xlim; [|reflexivity]. destruct ylim; [destruct L; discriminate|]. reflexivity.
Qed.

(** ** plot_energies *)
Lemma energies_samples ponset bw cw es ps : plot_energies ponset bw cw None es = Ok ps ->
  Forall2 (fun e p => e_label p = (evid e, sta e) /\ List.length (e_samples p) = List.length (edata e) /\
    (forall k y, nth_error (edata e) k = Some y ->
       nth_error (e_samples p) k = Some (seconds (estart e + Z.of_nat k * edelta e) (eotime e), y)) /\
    e_sonset p = seconds (esonset e) (eotime e) /\
    e_ponset p = match ponset (uid e) with Some t => Some (seconds t (eotime e)) | None => None end) es ps.
Proof.
  unfold plot_energies. destruct es as [|e0 es'] eqn:E; [discriminate|]. rewrite <- E. clear E e0 es'. intros H.
  apply mapM_nth in H. destruct H as [L H]. apply Forall2_nth; [congruence|]. intros i e p He Hp.
  destruct (H i e He) as (p' & Hp' & EP). assert (p' = p) by congruence. subst p'.
  unfold plot_energy in EP. apply bind_ok in EP. destruct EP as (w & _ & EP). injection EP as <-. cbn [e_label e_samples e_sonset e_ponset].
  assert (SE : forall t, secs t = IZR t / 10 ^ 9) by (intros t; unfold secs; replace (10 ^ 9) with 1000000000 by lra; reflexivity).
  split; [reflexivity|]. split; [rewrite combine_length, map_length, seq_length; lia|]. split; [|split].
  - intros k y Hy. apply nth_error_combine_. split; [|exact Hy]. rewrite nth_error_map, nth_seq by (apply nth_error_Some; congruence). cbn [option_map].
    f_equal. rewrite !SE. unfold seconds. rewrite INR_IZR_INZ, !minus_IZR, plus_IZR, mult_IZR. unfold Rdiv. ring.
  - unfold after, seconds. now rewrite SE.
  - unfold after, seconds. destruct (ponset (uid e)); cbn; [now rewrite SE|reflexivity].
Qed.

Lemma energies_windows ponset bw cw es : es <> [] -> bw <> [] -> cw <> [] ->
  (forall e, In e es -> exists b c, dget pair_eqb bw (evid e, sta e) = Some b /\ dget pair_eqb cw (evid e, sta e) = Some c) ->
  exists ps, plot_energies ponset bw cw None es = Ok ps /\
    Forall2 (fun e p => exists b c, dget pair_eqb bw (evid e, sta e) = Some b /\ dget pair_eqb cw (evid e, sta e) = Some c /\
      e_windows p = Some ((seconds (fst b) (eotime e), seconds (snd b) (eotime e)),
                          (seconds (fst c) (eotime e), seconds (snd c) (eotime e)))) es ps.
Proof.
  intros N1 N2 N3 H. unfold plot_energies. destruct es as [|e0 es'] eqn:E; [contradiction|]. rewrite <- E in *. clear E e0 es' N1.
  destruct bw as [|b0 bw'] eqn:EB; [contradiction|]. destruct cw as [|c0 cw'] eqn:EC; [contradiction|]. rewrite <- EB, <- EC in *.
  assert (SE : forall t, secs t = IZR t / 10 ^ 9) by (intros t; unfold secs; replace (10 ^ 9) with 1000000000 by lra; reflexivity).
  induction es as [|e es IH]; [exists []; split; [reflexivity|constructor]|].
  destruct IH as (ps & EP & FP). { intros e' I. apply H. now right. }
  destruct (H e (or_introl eq_refl)) as (b & c & D1 & D2). cbn [mapM].
  eexists. split.
  - unfold plot_energy at 1. rewrite EB, EC. rewrite <- EB, <- EC. change (get_pair e) with (evid e, sta e). rewrite D1, D2. cbn [bind]. rewrite EP. cbn [bind]. reflexivity.
  - constructor; [|exact FP]. exists b, c. split; [exact D1|]. split; [exact D2|]. cbn [e_windows]. unfold after, seconds. now rewrite !SE.
Qed.

Lemma energies_no_windows ponset bw cw es : es <> [] -> bw = [] \/ cw = [] ->
  exists ps, plot_energies ponset bw cw None es = Ok ps /\ Forall (fun p => e_windows p = None) ps.
Proof.
  intros N H. unfold plot_energies. destruct es as [|e0 es'] eqn:E; [contradiction|]. rewrite <- E. clear E e0 es' N.
  induction es as [|e es (ps & EP & FP)]; [exists []; split; [reflexivity|constructor]|]. cbn [mapM].
  eexists. split.
  - unfold plot_energy at 1. assert (K : forall (A : Type) (f : (Z * Z) -> (Z * Z) -> res A) (n : res A),
      match bw, cw with _ :: _, _ :: _ => match dget pair_eqb bw (get_pair e), dget pair_eqb cw (get_pair e) with Some b, Some c => f b c | _, _ => Err KeyError end | _, _ => n end = n).
    { intros A f n. destruct H as [-> | ->]; [reflexivity|]. now destruct bw. }
    rewrite K. cbn [bind]. rewrite EP. cbn [bind]. reflexivity.
  - constructor; [reflexivity|exact FP].
Qed.

Lemma energies_downsample ponset bw cw d es : es <> [] ->
  plot_energies ponset bw cw (Some d) es = Err TypeError \/ plot_energies ponset bw cw (Some d) es = Err ZeroDivisionError.
Proof.
  intros N. destruct es as [|e es]; [contradiction|]. cbn [plot_energies mapM plot_energy]. destruct (Req_EM_T d 0); auto.
Qed.

(** ** The panel of the misfit *)
Lemma misfit_crosses o st s f p : choose o st = Ok (Some (s, f)) -> l_fix o = false -> l_optimize o = true -> l_plot_optimization o = true ->
  plot_misfit (r_g0 s) = Ok p ->
  exists a bs rs l sel, build o st = Ok (a, bs, rs) /\ trials (misfit o st a bs rs) (l_optim o) l (f_g0 f) /\
    selected (fun t => inside_closed (l_g0_bounds o) (snd t)) l sel /\
    ((exists t, In t sel /\ fst t <> FPInf /\ fst t <> FNInf) ->
       m_all p = map (fun t => (snd t, fst t)) sel /\
       exists front t, sel = front ++ [t] /\ m_best p = Some (snd t, fst t)) /\
    ((forall t, In t sel -> fst t = FPInf) -> m_all p = [] /\ m_best p = None) /\
    exists inf, selected (fun t => fst t = FPInf) sel inf /\ m_inf p = map snd inf.
Proof.
  intros CH FX OP PL H. destruct (records o st s f CH) as (_ & _ & _ & a & bs & rs & BU & _ & T).
  destruct (T FX OP PL) as (l & TR & SE). exists a, bs, rs, l, (r_g0 s). split; [exact BU|]. split; [exact TR|]. split; [exact SE|].
  generalize dependent (r_g0 s). clear. intros sel H _. unfold plot_misfit in H. destruct sel as [|t0 sel'] eqn:E; [discriminate|]. rewrite <- E in *.
  cbn zeta in H. injection H as <-. cbn [m_all m_best m_inf]. split; [|split].
  - intros (t & I & N1 & N2). assert (D : forallb (fun x : pyf * pyf => fisinf (fst x)) sel = false).
    { destruct (forallb _ sel) eqn:Q; [|reflexivity]. rewrite forallb_forall in Q. specialize (Q t I). destruct (fst t); try discriminate; contradiction. }
    rewrite D. cbn [negb]. split; [reflexivity|]. destruct (exists_last (l := sel)) as (fr & z & EQ); [rewrite E; discriminate|].
    exists fr, z. split; [exact EQ|]. rewrite EQ, app_length, nth_error_app2 by (cbn; lia). cbn [List.length].
    replace (List.length fr + 1 - 1 - List.length fr)%nat with 0%nat by lia. reflexivity.
  - intros A. assert (D : forallb (fun x : pyf * pyf => fisinf (fst x)) sel = true).
    { apply forallb_forall. intros x I. now rewrite (A x I). }
    rewrite D. auto.
  - exists (filter (fun x => is_inf (fst x)) sel). split; [|reflexivity]. clear. induction sel as [|x l IH]; cbn [filter]; [constructor|].
    destruct (is_inf (fst x)) eqn:I; [apply sel_yes|apply sel_no]; auto; destruct (fst x); try discriminate; reflexivity.
Qed.

(** ** given limits, missing data *)
Lemma fits_given G un es g0 b W Rs v0 x sm xlim ylim ps xl yl :
  plot_fits G un es g0 b W Rs v0 x sm xlim ylim = Ok (ps, xl, yl) ->
  (forall l, xlim = Some l -> xl = l) /\ (forall l, ylim = Some l -> yl = l) /\
  (b = None -> plot_fits G un es g0 (Some (FNum 0)) W Rs v0 x sm xlim ylim = Ok (ps, xl, yl)).
Proof.
  intros H. split; [|split].
  - intros l ->. unfold plot_fits in H. destruct es; [discriminate|]. destruct (mapM _ _); [cbn [bind] in H|discriminate].
    match type of H with (bind ?t _) = _ => destruct t end; [cbn [bind] in H|discriminate]. congruence.
  - intros l ->. unfold plot_fits in H. destruct es; [discriminate|]. destruct (mapM _ _); [cbn [bind] in H|discriminate].
    match type of H with (bind ?t _) = _ => destruct t end; [cbn [bind] in H|discriminate]. congruence.
  - intros ->. exact H.
Qed.

Lemma energies_missing ponset bw cw es e : bw <> [] -> cw <> [] -> In e es ->
  dget pair_eqb bw (evid e, sta e) = None \/ dget pair_eqb cw (evid e, sta e) = None ->
  plot_energies ponset bw cw None es = Err KeyError.
Proof.
  intros NB NC I M. destruct es as [|e0 es]; [destruct I|]. unfold plot_energies.
  assert (ALL : forall e, plot_energy ponset bw cw None e = Err KeyError \/ exists p, plot_energy ponset bw cw None e = Ok p).
  { intros f. unfold plot_energy. destruct bw; [congruence|]. destruct cw; [congruence|].
    destruct (dget pair_eqb _ (get_pair f)); [|left; reflexivity]. destruct (dget pair_eqb _ (get_pair f)); [right; eexists; reflexivity|left; reflexivity]. }
  assert (BAD : plot_energy ponset bw cw None e = Err KeyError).
  { unfold plot_energy, get_pair. destruct bw; [congruence|]. destruct cw; [congruence|].
    destruct M as [-> | ->]; [reflexivity|]. destruct (dget pair_eqb _ _); reflexivity. }
  revert I. generalize (e0 :: es). clear - ALL BAD. induction l as [|f l IH]; [intros []|]. intros [->|I]; cbn [mapM].
  - rewrite BAD. reflexivity.
  - destruct (ALL f) as [-> |[p ->]]; [reflexivity|]. cbn [bind]. rewrite (IH I). reflexivity.
Qed.
