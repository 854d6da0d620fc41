(** Proofs about the curves: plot_fits. *)
From Coq Require Import String List Bool Reals Lra Lia ZArith Arith Sorted.
From Verif Require Import Base Pyf PyfOps FbModel LsqfbModel LsqfbSpec LsqfbProof LsqfbProof2 LsqfbProof3 LsqfbProof4 CurveModel CurveSpec CurveProof CurveProof2 CurveProof3.
Import ListNotations.
Open Scope string_scope.
Open Scope list_scope.
Open Scope R_scope.

Lemma bind_ok {A B} (x : res A) (f : A -> res B) y : bind x f = Ok y -> exists a, x = Ok a /\ f a = Ok y.
Proof. destruct x; cbn; [eauto|discriminate]. Qed.

Lemma points_combine x : forall y l, points x y = Ok l -> l = combine x y /\ List.length x = List.length y.
Proof.
  induction x as [|a x IH]; intros [|c y] l H; cbn in H; try discriminate; [injection H as <-; auto|].
  apply bind_ok in H. destruct H as (r & E & H). injection H as <-. destruct (IH _ _ E) as [-> L]. cbn. auto.
Qed.

Lemma item_inv {A} (l : list A) i x : item l i = Ok x -> nth_error l i = Some x.
Proof. unfold item. destruct (nth_error l i); congruence. Qed.

Lemma mapM_nth {A B} (f : A -> res B) l : forall m, mapM f l = Ok m -> List.length m = List.length l /\
  forall i x, nth_error l i = Some x -> exists y, nth_error m i = Some y /\ f x = Ok y.
Proof.
  induction l as [|a l IH]; intros m H; cbn in H.
  - injection H as <-. split; [reflexivity|]. intros [|i] x K; discriminate.
  - apply bind_ok in H. destruct H as (b & E1 & H). apply bind_ok in H. destruct H as (r & E2 & H). injection H as <-.
    destruct (IH _ E2) as [L K]. split; [cbn; lia|]. intros [|i] x N; cbn in N |- *; [injection N as <-; eauto|eauto].
Qed.

Lemma nth_seq n i : (i < n)%nat -> nth_error (seq 0 n) i = Some i.
Proof. intros H. rewrite (nth_error_nth' _ 0%nat) by (now rewrite seq_length). now rewrite seq_nth. Qed.

(** what a drawn panel is made of *)
Record panel_of (G : R -> list R -> pyf -> res (list pyf)) unsmoothed (energies : list etrace) (g0 b : pyf)
    (W Rs : list (string * pyf)) (v0 : R) (x : info) (smooth : bool) (i : nat)
    (q : panel) (tm : R) (hi lo : pyf) (e : etrace) (r w : pyf) (tc : list R) (ec gc mc m : list pyf) : Prop := {
  po_trace : nth_error energies i = Some e;
  po_r : dget String.eqb Rs (sta e) = Some r;
  po_nan : fisnan r = false;
  po_w : dget String.eqb W (evid e) = Some w;
  po_un : smooth = true -> exists d, unsmoothed (uid e) = Ok d /\ n_unsmoothed q = Some (combine (map FNum (fit_times e v0)) d) /\
            List.length d = List.length (edata e);
  po_data : n_data q = combine (map FNum (fit_times e v0)) (edata e);
  po_g : exists g, G (edist e) (fit_times e v0) g0 = Ok g /\ exists m0, model_curve r w b g (map FNum (fit_times e v0)) = Ok m0 /\ m = map clip_low m0;
  po_model : n_model q = combine (map FNum (fit_times e v0)) m /\ List.length m = List.length (edata e);
  po_tc : nth_error (i_tcoda x) i = Some tc;
  po_ec : nth_error (i_ecoda x) i = Some ec;
  po_gc : nth_error (i_gcoda x) i = Some gc;
  po_mc : model_curve r w b gc (map FNum tc) = Ok mc;
  po_coda : n_coda q = combine (map FNum tc) ec /\ List.length tc = List.length ec;
  po_coda_model : n_coda_model q = combine (map FNum tc) mc /\ List.length tc = List.length mc;
  po_bulk : (i_tbulk x = [] /\ n_bulk q = None) \/
            (exists tb eb gb, nth_error (i_tbulk x) i = Some tb /\ nth_error (i_ebulk x) i = Some eb /\
               nth_error (i_gbulk x) i = Some gb /\ n_bulk q = Some ((tb, eb), (tb, get_Emod r w b gb tb)));
  po_tm : tm = last (fit_times e v0) 0;
  po_hi : exists m1 m2, npmax m = Ok m1 /\ npmax (edata e) = Ok m2 /\ hi = pymax m1 m2;
  po_lo : exists m3 m4, npmin mc = Ok m3 /\ npmax ec = Ok m4 /\ lo = pymin m3 m4 }.

Lemma fit_times_length e v0 : List.length (fit_times e v0) = List.length (edata e).
Proof. unfold fit_times. now rewrite map_length, seq_length. Qed.

Lemma fit_panel_some G un es g0 b W Rs v0 x sm i q tm hi lo :
  fit_panel G un es g0 b W Rs v0 x sm i = Ok (Some (q, (tm, hi, lo))) ->
  exists e r w tc ec gc mc m, panel_of G un es g0 b W Rs v0 x sm i q tm hi lo e r w tc ec gc mc m.
Proof.
  unfold fit_panel. intros H. apply bind_ok in H. destruct H as (e & E1 & H). apply item_inv in E1.
  destruct (dget String.eqb Rs (sta e)) as [r|] eqn:DR; [|discriminate]. destruct (fisnan r) eqn:N; [discriminate|]. cbn zeta in H.
  apply bind_ok in H. destruct H as (u & EU & H). apply bind_ok in H. destruct H as (data & ED & H).
  apply bind_ok in H. destruct H as (g & EG & H). destruct (dget String.eqb W (evid e)) as [w|] eqn:DW; [|discriminate].
  apply bind_ok in H. destruct H as (m0 & EM & H). apply bind_ok in H. destruct H as (mp & EMP & H).
  apply bind_ok in H. destruct H as (tc & E2 & H). apply item_inv in E2. apply bind_ok in H. destruct H as (ec & E3 & H). apply item_inv in E3.
  apply bind_ok in H. destruct H as (cp & ECP & H). apply bind_ok in H. destruct H as (gc & E4 & H). apply item_inv in E4.
  apply bind_ok in H. destruct H as (mc & EMC & H). apply bind_ok in H. destruct H as (mcp & EMCP & H).
  apply bind_ok in H. destruct H as (bulk & EB & H).
  destruct (fit_times e v0) as [|t0 ts] eqn:T; [discriminate|]. rewrite <- T in *.
  apply bind_ok in H. destruct H as (m1 & F1 & H). apply bind_ok in H. destruct H as (m2 & F2 & H).
  apply bind_ok in H. destruct H as (m3 & F3 & H). apply bind_ok in H. destruct H as (m4 & F4 & H).
  injection H as <- <- <- <-. apply points_combine in ED. destruct ED as [-> LD]. apply points_combine in EMP. destruct EMP as [-> LM].
  apply points_combine in ECP. destruct ECP as [-> LC]. apply points_combine in EMCP. destruct EMCP as [-> LMC].
  rewrite map_length in LC, LMC, LM. rewrite fit_times_length in LM.
  exists e, r, w, tc, ec, gc, mc, (map clip_low m0). constructor; cbn [n_unsmoothed n_data n_model n_coda n_coda_model n_bulk]; auto.
  - intros ->. apply bind_ok in EU. destruct EU as (d & EU & HU). apply bind_ok in HU. destruct HU as (p & EP & HU). injection HU as <-.
    apply points_combine in EP. destruct EP as [-> LP]. rewrite map_length, fit_times_length in LP. exists d. auto.
  - eauto.
  - destruct (i_tbulk x) as [|tb0 tbs] eqn:TB; [injection EB as <-; auto|right]. rewrite <- TB in *.
    apply bind_ok in EB. destruct EB as (tb & K1 & EB). apply bind_ok in EB. destruct EB as (eb & K2 & EB).
    apply bind_ok in EB. destruct EB as (gb & K3 & EB). injection EB as <-. exists tb, eb, gb.
    repeat split; auto using item_inv.
  - eauto.
  - eauto.
Qed.

Section S.
  Variables (st : wstate) (gc : list (list pyf)) (gb : list pyf) (W Rs : list (string * pyf)) (b : R).
  Variables (G : R -> list R -> pyf -> res (list pyf)) (un : nat -> res (list pyf)) (g0 : pyf) (v0 : R) (sm : bool).
  Hypothesis AL : aligned st.
  Hypothesis GB : good_band st gc gb.
  Hypothesis BL : List.length gb = List.length (w_ebulk st).
  Hypothesis DV : forall p, In p (pairs st) -> exists r w, dget String.eqb Rs (snd p) = Some (FNum r) /\
    dget String.eqb W (fst p) = Some (FNum w) /\ 0 < r /\ 0 < w.
  Let x := band_info st gc gb.

  Definition fitted (om : (pyf * pyf) * (pyf * pyf)) (sg : sample * pyf) : Prop :=
    exists t e g r w y, snd (fst sg) = (FNum t, FNum e) /\ snd sg = FNum g /\ 0 < e /\ 0 < g /\
      dget String.eqb Rs (snd (fst (fst sg))) = Some (FNum r) /\ dget String.eqb W (fst (fst (fst sg))) = Some (FNum w) /\ 0 < r /\ 0 < w /\
      fst om = (FNum t, FNum e) /\ snd om = (FNum t, FNum y) /\ y = r * w * g * exp (- (b * t)).

  Lemma emod_num r w g t : get_Emod (FNum r) (FNum w) (FNum b) (FNum g) (FNum t) = FNum (r * w * g * exp (- (b * t))).
  Proof. unfold get_Emod. cbn. do 2 f_equal. f_equal. lra. Qed.

  Lemma coda_fitted p r w : dget String.eqb Rs (snd p) = Some (FNum r) -> dget String.eqb W (fst p) = Some (FNum w) -> 0 < r -> 0 < w ->
    forall t e g m, List.length t = List.length e -> Forall positive e -> Forall positive g ->
    model_curve (FNum r) (FNum w) (FNum b) g (map FNum t) = Ok m ->
    Forall2 fitted (combine (combine (map FNum t) e) (combine (map FNum t) m))
      (combine (map (fun te => (p, te)) (combine (map FNum t) e)) g).
  Proof.
    intros DR DW RP WP t. induction t as [|t0 t IH]; intros [|e0 e] g m L PE PG H; cbn [List.length] in L; try discriminate; [constructor|].
    unfold model_curve in H. destruct g as [|g1 g]; cbn [map zip_op] in H; [discriminate|].
    apply bind_ok in H. destruct H as (m' & E & H). injection H as <-.
    inversion PE as [|? ? (e1 & -> & EP) PE']; subst. inversion PG as [|? ? (g2 & -> & GP) PG']; subst.
    cbn [map combine]. constructor.
    - exists t0, e1, g2, r, w. eexists. cbn [fst snd]. rewrite emod_num. repeat split; auto.
    - apply IH; auto.
  Qed.

  Lemma pair_nth i e : nth_error (w_energies st) i = Some e -> nth_error (pairs st) i = Some (evid e, sta e).
  Proof. intros H. unfold pairs. rewrite nth_error_map, H. reflexivity. Qed.

  Lemma fits_shown xlim ylim ps xl yl :
    plot_fits G un (w_energies st) g0 (Some (FNum b)) W Rs v0 x sm xlim ylim = Ok (ps, xl, yl) ->
    exists qs, ps = map Some qs /\ List.length qs = List.length (pairs st) /\
      Forall (fun q => List.length (n_coda q) = List.length (n_coda_model q)) qs /\
      Forall2 fitted (drawn qs) (combine (samples st) (concat gc ++ gb)).
  Proof.
    intros H. assert (LEN := lengths st gc gb AL GB BL). destruct LEN as (LT & LE & LG & _).
    assert (LP : List.length (w_energies st) = List.length (pairs st)) by (unfold pairs; now rewrite map_length).
    assert (AL' := AL). destruct AL' as (_ & _ & FT & LTB & BB). destruct GB as (PE & PEB & FTB & PG & PGB & FG).
    unfold plot_fits in H. cbn zeta in H. destruct (w_energies st) as [|e0 es] eqn:ES; [discriminate|]. rewrite <- ES in *.
    apply bind_ok in H. destruct H as (rs & EM & H). apply bind_ok in H. destruct H as (xl' & _ & H). apply bind_ok in H. destruct H as (yl' & _ & H).
    injection H as <- _ _. apply mapM_nth in EM. destruct EM as [LR EM]. rewrite seq_length in LR.
    assert (K : forall i y, nth_error rs i = Some y -> exists q tm hi lo, y = Some (q, (tm, hi, lo)) /\ exists e r w tc ec gc' mc m,
      panel_of G un (w_energies st) g0 (FNum b) W Rs v0 x sm i q tm hi lo e (FNum r) (FNum w) tc ec gc' mc m /\ 0 < r /\ 0 < w).
    { intros i y N. assert (I : (i < List.length rs)%nat) by (apply nth_error_Some; congruence).
      destruct (EM i i) as (y' & N' & EF). { apply nth_seq. lia. }
      assert (y' = y) by congruence. subst y'.
      destruct (nth_error_exists (w_energies st) i) as (e & He); [lia|]. assert (HP := pair_nth i e He).
      destruct (DV _ (nth_error_In _ _ HP)) as (r & w & DR & DW & RP & WP). cbn [fst snd] in DR, DW.
      destruct y as [[q [[tm hi] lo]]|].
      - exists q, tm, hi, lo. split; [reflexivity|]. destruct (fit_panel_some _ _ _ _ _ _ _ _ _ _ _ _ _ _ _ EF) as (e' & r' & w' & tc & ec & gc' & mc & m & P).
        assert (e' = e) by (generalize (po_trace _ _ _ _ _ _ _ _ _ _ _ _ _ _ _ _ _ _ _ _ _ _ _ P); congruence). subst e'.
        assert (r' = FNum r) by (generalize (po_r _ _ _ _ _ _ _ _ _ _ _ _ _ _ _ _ _ _ _ _ _ _ _ P); congruence). subst r'.
        assert (w' = FNum w) by (generalize (po_w _ _ _ _ _ _ _ _ _ _ _ _ _ _ _ _ _ _ _ _ _ _ _ P); congruence). subst w'.
        exists e, r, w, tc, ec, gc', mc, m. auto.
      - exfalso. unfold fit_panel in EF. rewrite (item_some _ _ _ He) in EF. cbn [bind] in EF. rewrite DR in EF. cbn [fisnan] in EF. cbn zeta in EF.
        apply bind_ok in EF. destruct EF as (? & _ & EF). apply bind_ok in EF. destruct EF as (? & _ & EF). apply bind_ok in EF. destruct EF as (? & _ & EF).
        rewrite DW in EF. do 9 (apply bind_ok in EF; destruct EF as (? & _ & EF)).
        destruct (fit_times e v0); [discriminate|]. do 4 (apply bind_ok in EF; destruct EF as (? & _ & EF)). discriminate. }
    set (qs := flat_map (fun y : option (panel * (R * pyf * pyf)) => match y with Some z => [fst z] | None => [] end) rs).
    assert (Q : map (option_map fst) rs = map Some qs /\ List.length qs = List.length rs).
    { assert (A : Forall (fun y : option (panel * (R * pyf * pyf)) => y <> None) rs).
      { apply Forall_forall. intros y I. apply In_nth_error in I. destruct I as (i & I). destruct (K i y I) as (q & tm & hi & lo & -> & _). discriminate. }
      subst qs. clear - A. induction rs as [|[[q l]|] rs IH]; cbn; [auto| |inversion A; congruence]. inversion A; subst. destruct IH as [I1 I2]; auto. rewrite I1, I2. auto. }
    destruct Q as [Q1 Q2].
    assert (KQ : forall i q, nth_error qs i = Some q -> exists tm hi lo, exists e r w tc ec gc' mc m,
      panel_of G un (w_energies st) g0 (FNum b) W Rs v0 x sm i q tm hi lo e (FNum r) (FNum w) tc ec gc' mc m /\ 0 < r /\ 0 < w).
    { intros i q N. assert (N1 : nth_error (map Some qs) i = Some (Some q)) by now rewrite nth_error_map, N.
      rewrite <- Q1, nth_error_map in N1. destruct (nth_error rs i) as [y|] eqn:NY; [|discriminate]. cbn in N1.
      destruct (K i y NY) as (q' & tm & hi & lo & -> & R'). cbn in N1. injection N1 as ->. exists tm, hi, lo. exact R'. }
    clearbody qs. clear K EM.
    exists qs. split; [exact Q1|]. split; [lia|]. split.
    { apply Forall_forall. intros q I. apply In_nth_error in I. destruct I as (i & I).
      destruct (KQ i q I) as (tm & hi & lo & e & r & w & tc & ec & gc' & mc & m & P & _).
      destruct (po_coda _ _ _ _ _ _ _ _ _ _ _ _ _ _ _ _ _ _ _ _ _ _ _ P) as [-> L1].
      destruct (po_coda_model _ _ _ _ _ _ _ _ _ _ _ _ _ _ _ _ _ _ _ _ _ _ _ P) as [-> L2].
      rewrite !combine_length, map_length. lia. }
    rewrite (samples_split st AL). unfold drawn.
    assert (CL := coda_lengths st gc gb AL GB BL).
    rewrite combine_app2 by (clear - CL; induction CL; cbn; [reflexivity|]; rewrite !app_length; lia).
    apply Forall2_app.
    - rewrite combine_concat by exact CL. rewrite flat_map_concat_map. apply Forall2_concat. apply Forall2_nth.
      + rewrite !map_length, !combine_length, map_length, combine_length, map_length, combine_length. lia.
      + intros i d s HD HS. rewrite nth_error_map in HD. destruct (nth_error qs i) as [q|] eqn:NQ; [|discriminate]. cbn in HD. injection HD as <-.
        destruct (KQ i q NQ) as (tm & hi & lo & e & r & w & tc & ec & gc' & mc & m & P & RP & WP).
        destruct (po_coda _ _ _ _ _ _ _ _ _ _ _ _ _ _ _ _ _ _ _ _ _ _ _ P) as [-> L1].
        destruct (po_coda_model _ _ _ _ _ _ _ _ _ _ _ _ _ _ _ _ _ _ _ _ _ _ _ P) as [-> L2].
        rewrite nth_error_map in HS. destruct (nth_error (combine _ gc) i) as [[u g]|] eqn:C; [|discriminate]. cbn in HS. injection HS as <-.
        apply nth_error_combine_ in C. destruct C as [C HG]. rewrite nth_error_map in C.
        destruct (nth_error (combine (pairs st) _) i) as [[p v]|] eqn:D; [|discriminate]. cbn in C. injection C as <-.
        apply nth_error_combine_ in D. destruct D as [HP D]. rewrite nth_error_map in D.
        destruct (nth_error (combine (w_tcoda st) (w_ecoda st)) i) as [[t e']|] eqn:E; [|discriminate]. cbn in D. injection D as <-.
        apply nth_error_combine_ in E. destruct E as [HT HE]. cbn [fst snd].
        pose proof (po_tc _ _ _ _ _ _ _ _ _ _ _ _ _ _ _ _ _ _ _ _ _ _ _ P) as U1. pose proof (po_ec _ _ _ _ _ _ _ _ _ _ _ _ _ _ _ _ _ _ _ _ _ _ _ P) as U2.
        pose proof (po_gc _ _ _ _ _ _ _ _ _ _ _ _ _ _ _ _ _ _ _ _ _ _ _ P) as U3. cbn [x band_info i_tcoda i_ecoda i_gcoda] in U1, U2, U3.
        rewrite (pair_nth _ _ (po_trace _ _ _ _ _ _ _ _ _ _ _ _ _ _ _ _ _ _ _ _ _ _ _ P)) in HP. injection HP as <-.
        replace t with tc by congruence. replace e' with ec by congruence. replace g with gc' by congruence.
        apply (coda_fitted (evid e, sta e) r w); auto.
        * exact (po_r _ _ _ _ _ _ _ _ _ _ _ _ _ _ _ _ _ _ _ _ _ _ _ P).
        * exact (po_w _ _ _ _ _ _ _ _ _ _ _ _ _ _ _ _ _ _ _ _ _ _ _ P).
        * rewrite Forall_forall in PE. exact (PE _ (nth_error_In _ _ U2)).
        * rewrite Forall_forall in PG. exact (PG _ (nth_error_In _ _ U3)).
        * exact (po_mc _ _ _ _ _ _ _ _ _ _ _ _ _ _ _ _ _ _ _ _ _ _ _ P).
    - destruct BB as [BE|BE].
      + (* no bulk window *)
        assert (TE : w_tbulk st = []) by (destruct (w_tbulk st); [reflexivity|rewrite BE in LTB; discriminate]).
        rewrite TE. rewrite combine_nil. cbn [combine]. replace (flat_map _ qs) with (@nil ((pyf * pyf) * (pyf * pyf))); [constructor|].
        symmetry. rewrite flat_map_concat_map. apply concat_nil_Forall. apply Forall_forall. intros d I. apply in_map_iff in I. destruct I as (q & <- & I).
        apply In_nth_error in I. destruct I as (i & I). destruct (KQ i q I) as (tm & hi & lo & e & r & w & tc & ec & gc' & mc & m & P & RP & WP).
        destruct (po_bulk _ _ _ _ _ _ _ _ _ _ _ _ _ _ _ _ _ _ _ _ _ _ _ P) as [[_ ->]|(tb & eb & g & N & _)]; [reflexivity|].
        cbn [x band_info i_tbulk] in N. rewrite TE in N. now destruct i.
      + assert (FB : Forall2 (fun q sg => exists d, n_bulk q = Some d /\ fitted d sg) qs
          (combine (combine (pairs st) (combine (w_tbulk st) (w_ebulk st))) gb)).
        { apply Forall2_nth.
          - rewrite !combine_length. lia.
          - intros i q s NQ HS. destruct (KQ i q NQ) as (tm & hi & lo & e & r & w & tc & ec & gc' & mc & m & P & RP & WP).
            destruct s as [[p [t e1]] g]. apply nth_error_combine_ in HS. destruct HS as [HS HG]. apply nth_error_combine_ in HS. destruct HS as [HP HS].
            apply nth_error_combine_ in HS. destruct HS as [HT HE].
            destruct (po_bulk _ _ _ _ _ _ _ _ _ _ _ _ _ _ _ _ _ _ _ _ _ _ _ P) as [[TE _]|(tb & eb & g' & N1 & N2 & N3 & ->)].
            { cbn [x band_info i_tbulk] in TE. rewrite TE in HT. now destruct i. }
            cbn [x band_info i_tbulk i_ebulk i_gbulk] in N1, N2, N3. replace tb with t in * by congruence. replace eb with e1 in * by congruence. replace g' with g in * by congruence.
            rewrite (pair_nth _ _ (po_trace _ _ _ _ _ _ _ _ _ _ _ _ _ _ _ _ _ _ _ _ _ _ _ P)) in HP. injection HP as <-.
            rewrite Forall_forall in PEB, PGB, FTB. destruct (PEB _ (nth_error_In _ _ HE)) as (e2 & -> & EP).
            destruct (PGB _ (nth_error_In _ _ HG)) as (g2 & -> & GP). destruct (FTB _ (nth_error_In _ _ HT)) as (t2 & ->).
            eexists. split; [reflexivity|]. exists t2, e2, g2, r, w. eexists. cbn [fst snd]. rewrite emod_num. repeat split; auto.
            + exact (po_r _ _ _ _ _ _ _ _ _ _ _ _ _ _ _ _ _ _ _ _ _ _ _ P).
            + exact (po_w _ _ _ _ _ _ _ _ _ _ _ _ _ _ _ _ _ _ _ _ _ _ _ P). }
        clear - FB. induction FB as [|q sg qs l (d & E & F) FB IH]; cbn [flat_map]; [constructor|]. rewrite E. constructor; auto.
  Qed.
End S.
