(** Proofs about the curves: plot_lstsq. *)
From Coq Require Import String List Bool Reals Lra Lia ZArith Arith.
From Verif Require Import Base Pyf PyfOps FbModel LsqfbModel LsqfbSpec LsqfbProof LsqfbProof2 LsqfbProof3 LsqfbProof4 CurveModel CurveSpec CurveProof.
Import ListNotations.
Open Scope string_scope.
Open Scope list_scope.
Open Scope R_scope.

Lemma nth_error_combine_ {A B} (l : list A) : forall (m : list B) i x y,
  nth_error (combine l m) i = Some (x, y) <-> nth_error l i = Some x /\ nth_error m i = Some y.
Proof.
  induction l as [|a l IH]; intros [|b m] [|i] x y; cbn.
  - split; [discriminate|intros [? _]; discriminate].
  - split; [discriminate|intros [? _]; discriminate].
  - split; [discriminate|intros [? _]; discriminate].
  - split; [discriminate|intros [? _]; discriminate].
  - split; [discriminate|intros [_ ?]; discriminate].
  - split; [discriminate|intros [_ ?]; discriminate].
  - split; [intros [= <- <-]; auto|intros [[= <-] [= <-]]; reflexivity].
  - apply IH.
Qed.

Lemma combine_concat {A B} (l : list (list A)) : forall (m : list (list B)),
  Forall2 (fun a b => List.length a = List.length b) l m ->
  combine (concat l) (concat m) = concat (map (fun ab => combine (fst ab) (snd ab)) (combine l m)).
Proof.
  induction l as [|a l IH]; intros m F; inversion F as [|? b ? m' L F']; subst; cbn; [reflexivity|].
  rewrite combine_app2 by exact L. now rewrite IH.
Qed.

Lemma nth_error_exists {A} (l : list A) i : (i < List.length l)%nat -> exists x, nth_error l i = Some x.
Proof. intros H. apply nth_error_Some in H. destruct (nth_error l i); [eauto|contradiction]. Qed.

(** the coda samples and the bulk values *)
Lemma samples_split st : aligned st ->
  samples st =
  concat (map (fun b => map (fun te => (fst b, te)) (snd b))
    (combine (pairs st) (map (fun te => combine (map FNum (fst te)) (snd te)) (combine (w_tcoda st) (w_ecoda st)))))
  ++ combine (pairs st) (combine (w_tbulk st) (w_ebulk st)).
Proof.
  intros AL. unfold samples, blocks. rewrite flat_map_app_, <- flat_map_concat_map. f_equal.
  generalize (pairs st). induction (combine (w_tbulk st) (w_ebulk st)) as [|x l IH]; intros [|p ps]; cbn; try reflexivity.
  f_equal. apply IH.
Qed.

Section Q.
  Variables (st : wstate) (gc : list (list pyf)) (gb : list pyf).
  Variables (W Rs : list pyf) (b base : R).
  Hypothesis AL : aligned st.
  Hypothesis GB : good_band st gc gb.
  Hypothesis BL : List.length gb = List.length (w_ebulk st).
  Hypothesis NE : Forall (fun e => e <> []) (w_ecoda st).
  Hypothesis PV : forall p, In p (pairs st) -> exists r w, value (stations st) Rs (snd p) r /\ value (eventids st) W (fst p) w /\ 0 < r /\ 0 < w.
  Hypothesis BP : 0 < base.
  Hypothesis BN : base <> 1.

  Lemma value_index keys vals k x : NoDup keys -> value keys vals k x ->
    exists j, index_of keys k = Ok j /\ item vals j = Ok (FNum x).
  Proof.
    intros ND (i & H1 & H2). exists i. split; [exact (index_of_nodup _ ND _ _ H1)|]. now apply item_some.
  Qed.

  Lemma value_unique keys vals k x y : NoDup keys -> value keys vals k x -> value keys vals k y -> x = y.
  Proof.
    intros ND (i & H1 & H2) (j & H3 & H4).
    assert (i = j). { apply (proj1 (NoDup_nth_error keys) ND); [apply nth_error_Some; congruence|congruence]. }
    subst. congruence.
  Qed.

  Lemma first_source : exists w0, item W 0 = Ok (FNum w0) /\ 0 < w0.
  Proof.
    destruct AL as (NP & _). destruct (pairs st) as [|p ps] eqn:E; [contradiction|].
    destruct (PV p) as (r & w & _ & V & _ & P); [now left|].
    destruct (value_index _ _ _ _ (proj1 (fromkeys_spec (map fst (pairs st)))) V) as (j & I & IT).
    unfold eventids in I. rewrite E in I. cbn [map] in I. unfold fromkeys in I. cbn in I. rewrite String.eqb_refl in I.
    injection I as <-. eauto.
  Qed.

  Variable w0 : R.
  Hypothesis W0 : item W 0 = Ok (FNum w0).
  Hypothesis W0P : 0 < w0.

  Let x := band_info st gc gb.

  Lemma offset_value i p r w : nth_error (pairs st) i = Some p ->
    value (stations st) Rs (snd p) r -> value (eventids st) W (fst p) w ->
    lsq_offset (pairs st) W Rs i = Ok (FNum (r * w / w0)).
  Proof.
    intros H V1 V2. unfold lsq_offset. rewrite (item_some _ _ _ H). cbn [bind].
    destruct (value_index _ _ _ _ (proj1 (fromkeys_spec (map snd (pairs st)))) V1) as (j & I & IT).
    destruct (value_index _ _ _ _ (proj1 (fromkeys_spec (map fst (pairs st)))) V2) as (k & J & JT).
    unfold stations, eventids in *. rewrite I. cbn [bind]. rewrite IT. cbn [bind]. rewrite J. cbn [bind]. rewrite JT. cbn [bind].
    rewrite W0. cbn [bind fmul]. rewrite fdiv_num by lra. reflexivity.
  Qed.

  (** a drawn point for the sample with Green's function *)
  Definition shown (pt : pyf * pyf) (sg : sample * pyf) : Prop :=
    exists t e g r w y, snd (fst sg) = (FNum t, FNum e) /\ snd sg = FNum g /\ 0 < e /\ 0 < g /\
      value (stations st) Rs (snd (fst (fst sg))) r /\ value (eventids st) W (fst (fst (fst sg))) w /\ 0 < r /\ 0 < w /\
      pt = (FNum t, FNum y) /\ y * ln base = ln e - ln g - (ln r + ln w - ln w0).

  Lemma point_value e g r w : 0 < e -> 0 < g -> 0 < r -> 0 < w ->
    exists y, fdiv (fsub (fsub (flog (FNum e)) (flog (FNum g))) (flog (FNum (r * w / w0)))) (flog (FNum base)) = FNum y /\
      y * ln base = ln e - ln g - (ln r + ln w - ln w0).
  Proof.
    intros E G R P. assert (Q : 0 < r * w / w0). { apply Rdiv_lt_0_compat; [now apply Rmult_lt_0_compat|exact W0P]. }
    rewrite !flog_pos by assumption. cbn [fsub fadd fneg]. rewrite fdiv_num by now apply ln_neq0.
    eexists. split; [reflexivity|]. rewrite Rmult_comm. unfold Rdiv at 1. rewrite (Rmult_comm (_ + _)), <- Rmult_assoc, Rinv_r, Rmult_1_l by now apply ln_neq0.
    unfold Rdiv. rewrite ln_mult, ln_Rinv, ln_mult by (try assumption; try (now apply Rmult_lt_0_compat); now apply Rinv_0_lt_compat). lra.
  Qed.

  Lemma coda_block p i t e g : nth_error (pairs st) i = Some p ->
    nth_error (w_tcoda st) i = Some t -> nth_error (w_ecoda st) i = Some e -> nth_error gc i = Some g ->
    List.length t = List.length e -> List.length e = List.length g -> Forall positive e -> Forall positive g ->
    exists l, lsq_coda (pairs st) W Rs x base i = Ok l /\
      Forall2 shown l (combine (map (fun te => (p, te)) (combine (map FNum t) e)) g).
  Proof.
    intros HP HT HE HG L1 L2 P1 P2. destruct (PV p (nth_error_In _ _ HP)) as (r & w & V1 & V2 & RP & WPos).
    unfold lsq_coda. rewrite (offset_value _ _ _ _ HP V1 V2). cbn [bind x band_info i_ecoda i_gcoda i_tcoda].
    rewrite (item_some _ _ _ HE), (item_some _ _ _ HG), (item_some _ _ _ HT). cbn [bind].
    clear HT HE HG. revert e g L1 L2 P1 P2. induction t as [|t0 t IH]; intros [|e0 e] [|g1 g] L1 L2 P1 P2; cbn in L1, L2; try discriminate.
    - exists []. split; [reflexivity|constructor].
    - inversion P1 as [|? ? (u & -> & U) P1']; subst. inversion P2 as [|? ? (v & -> & V) P2']; subst.
      destruct (IH e g ltac:(lia) ltac:(lia) P1' P2') as (l & E & F).
      cbn [map zip_op] in *. destruct (zip_op fsub (map flog e) (map flog g)) as [d|] eqn:Z; [|discriminate]. cbn [bind] in E |- *.
      cbn [map points]. rewrite E. cbn [bind].
      destruct (point_value u v r w U V RP WPos) as (y & EY & HY). rewrite EY.
      eexists. split; [reflexivity|]. cbn [combine]. constructor; [|exact F].
      exists t0, u, v, r, w, y. cbn [fst snd]. auto 12.
  Qed.

  Lemma bulk_value p i t e g : nth_error (pairs st) i = Some p ->
    nth_error (w_tbulk st) i = Some t -> nth_error (w_ebulk st) i = Some e -> nth_error gb i = Some g ->
    finite t -> positive e -> positive g ->
    exists q, lsq_bulk (pairs st) W Rs x base i = Ok q /\ shown q ((p, (t, e)), g).
  Proof.
    intros HP HT HE HG (t' & ->) (e' & -> & E) (g' & -> & G). destruct (PV p (nth_error_In _ _ HP)) as (r & w & V1 & V2 & RP & WPos).
    unfold lsq_bulk. rewrite (offset_value _ _ _ _ HP V1 V2). cbn [bind x band_info i_ebulk i_gbulk i_tbulk].
    rewrite (item_some _ _ _ HE), (item_some _ _ _ HG), (item_some _ _ _ HT). cbn [bind].
    destruct (point_value e' g' r w E G RP WPos) as (y & EY & HY). rewrite EY.
    eexists. split; [reflexivity|]. exists t', e', g', r, w, y. cbn [fst snd]. auto 12.
  Qed.

  Lemma lengths : List.length (w_tcoda st) = List.length (pairs st) /\ List.length (w_ecoda st) = List.length (pairs st) /\
    List.length gc = List.length (pairs st) /\ List.length (w_tbulk st) = List.length gb /\
    List.length (w_ebulk st) = List.length gb /\ (List.length gb <= List.length (pairs st))%nat.
  Proof.
    destruct AL as (_ & L1 & F & L2 & L3). destruct GB as (_ & _ & _ & _ & _ & G).
    apply Forall2_len in F. apply Forall2_len in G. rewrite BL. repeat split; try congruence.
    destruct L3 as [E|E]; [rewrite E; cbn; lia|lia].
  Qed.

  Lemma coda_lengths : Forall2 (fun (a : list sample) (g : list pyf) => List.length a = List.length g)
    (map (fun b => map (fun te => (fst b, te)) (snd b))
      (combine (pairs st) (map (fun te => combine (map FNum (fst te)) (snd te)) (combine (w_tcoda st) (w_ecoda st))))) gc.
  Proof.
    destruct lengths as (LT & LE & LG & _). destruct AL as (_ & _ & FT & _). destruct GB as (PE & _ & _ & PG & _ & FG).
    apply Forall2_nth.
    - rewrite map_length, combine_length, map_length, combine_length. lia.
    - intros i u g C HG. rewrite nth_error_map in C.
        destruct (nth_error (combine (pairs st) _) i) as [[p v]|] eqn:D; [|discriminate]. cbn in C. injection C as <-.
        apply nth_error_combine_ in D. destruct D as [HP D]. rewrite nth_error_map in D.
        destruct (nth_error (combine (w_tcoda st) (w_ecoda st)) i) as [[t e]|] eqn:E; [|discriminate]. cbn in D. injection D as <-.
        apply nth_error_combine_ in E. destruct E as [HT HE]. rewrite map_length, combine_length, map_length.
        assert (L1 : List.length t = List.length e).
        { clear - FT HT HE. revert i HT HE. induction FT; intros [|i] HT HE; cbn in HT, HE; try discriminate; [congruence|eauto]. }
        assert (L2 : List.length e = List.length g).
        { clear - FG HG HE. revert i HG HE. induction FG; intros [|i] HT HE; cbn in HT, HE; try discriminate; [congruence|eauto]. }
        lia.
  Qed.

  Lemma coda_points : exists l, mapM (lsq_coda (pairs st) W Rs x base) (seq 0 (List.length (i_tcoda x))) = Ok l /\
    List.length l = List.length (pairs st) /\
    Forall2 shown (concat l) (combine
      (concat (map (fun b => map (fun te => (fst b, te)) (snd b))
        (combine (pairs st) (map (fun te => combine (map FNum (fst te)) (snd te)) (combine (w_tcoda st) (w_ecoda st))))))
      (concat gc)).
  Proof.
    destruct lengths as (LT & LE & LG & _). destruct AL as (_ & _ & FT & _). destruct GB as (PE & _ & _ & PG & _ & FG).
    destruct (mapM_seq (lsq_coda (pairs st) W Rs x base)
      (fun i l => forall p t e g, nth_error (pairs st) i = Some p -> nth_error (w_tcoda st) i = Some t ->
         nth_error (w_ecoda st) i = Some e -> nth_error gc i = Some g ->
         Forall2 shown l (combine (map (fun te => (p, te)) (combine (map FNum t) e)) g)) (List.length (i_tcoda x)) 0) as (l & EL & FL).
    { intros i I. cbn [x band_info i_tcoda] in I.
      destruct (nth_error_exists (pairs st) i) as (p & HP); [lia|]. destruct (nth_error_exists (w_tcoda st) i) as (t & HT); [lia|].
      destruct (nth_error_exists (w_ecoda st) i) as (e & HE); [lia|]. destruct (nth_error_exists gc i) as (g & HG); [lia|].
      assert (L1 : List.length t = List.length e).
      { clear - FT HT HE. revert i HT HE. induction FT; intros [|i] HT HE; cbn in HT, HE; try discriminate; [congruence|eauto]. }
      assert (L2 : List.length e = List.length g).
      { clear - FG HG HE. revert i HG HE. induction FG; intros [|i] HT HE; cbn in HT, HE; try discriminate; [congruence|eauto]. }
      destruct (coda_block p i t e g HP HT HE HG L1 L2) as (q & EQ & FQ).
      { rewrite Forall_forall in PE. exact (PE _ (nth_error_In _ _ HE)). }
      { rewrite Forall_forall in PG. exact (PG _ (nth_error_In _ _ HG)). }
      exists q. split; [exact EQ|]. intros p' t' e' g' H1 H2 H3 H4. replace p' with p by congruence. replace t' with t by congruence. replace e' with e by congruence. replace g' with g by congruence. exact FQ. }
    exists l. split; [exact EL|]. split.
    { apply Forall2_len in FL. rewrite seq_length in FL. rewrite <- FL. exact LT. }
    rewrite combine_concat.
    - apply Forall2_concat. apply Forall2_nth.
      + rewrite map_length, !combine_length, map_length, combine_length, map_length, combine_length.
        apply Forall2_len in FL. rewrite seq_length in FL. rewrite <- FL. cbn [x band_info i_tcoda]. lia.
      + intros i q s HQ HS. pose proof (Forall2_seq_nth _ _ _ _ FL i q HQ) as K. cbn [Nat.add] in K.
        rewrite nth_error_map in HS. destruct (nth_error (combine _ gc) i) as [[u g]|] eqn:C; [|discriminate]. cbn in HS. injection HS as <-.
        apply nth_error_combine_ in C. destruct C as [C HG]. rewrite nth_error_map in C.
        destruct (nth_error (combine (pairs st) _) i) as [[p v]|] eqn:D; [|discriminate]. cbn in C. injection C as <-.
        apply nth_error_combine_ in D. destruct D as [HP D]. rewrite nth_error_map in D.
        destruct (nth_error (combine (w_tcoda st) (w_ecoda st)) i) as [[t e]|] eqn:E; [|discriminate]. cbn in D. injection D as <-.
        apply nth_error_combine_ in E. destruct E as [HT HE]. cbn [fst snd]. exact (K p t e g HP HT HE HG).
    - exact coda_lengths.
  Qed.

  Lemma bulk_points : exists l, mapM (lsq_bulk (pairs st) W Rs x base) (seq 0 (List.length (i_tbulk x))) = Ok l /\
    Forall2 shown l (combine (combine (pairs st) (combine (w_tbulk st) (w_ebulk st))) gb).
  Proof.
    destruct lengths as (_ & _ & _ & LT & LE & LP). destruct GB as (_ & PE & FT & _ & PG & _).
    destruct (mapM_seq (lsq_bulk (pairs st) W Rs x base)
      (fun i q => forall p t e g, nth_error (pairs st) i = Some p -> nth_error (w_tbulk st) i = Some t ->
         nth_error (w_ebulk st) i = Some e -> nth_error gb i = Some g -> shown q ((p, (t, e)), g)) (List.length (i_tbulk x)) 0) as (l & EL & FL).
    { intros i I. cbn [x band_info i_tbulk] in I.
      destruct (nth_error_exists (pairs st) i) as (p & HP); [lia|]. destruct (nth_error_exists (w_tbulk st) i) as (t & HT); [lia|].
      destruct (nth_error_exists (w_ebulk st) i) as (e & HE); [lia|]. destruct (nth_error_exists gb i) as (g & HG); [lia|].
      rewrite Forall_forall in PE, FT, PG.
      destruct (bulk_value p i t e g HP HT HE HG (FT _ (nth_error_In _ _ HT)) (PE _ (nth_error_In _ _ HE)) (PG _ (nth_error_In _ _ HG))) as (q & EQ & FQ).
      exists q. split; [exact EQ|]. intros p' t' e' g' H1 H2 H3 H4. replace p' with p by congruence. replace t' with t by congruence. replace e' with e by congruence. replace g' with g by congruence. exact FQ. }
    exists l. split; [exact EL|]. apply Forall2_nth.
    - rewrite !combine_length. apply Forall2_len in FL. rewrite seq_length in FL. rewrite <- FL. cbn [x band_info i_tbulk]. lia.
    - intros i q [[p [t e]] g] HQ HS. pose proof (Forall2_seq_nth _ _ _ _ FL i q HQ) as K. cbn [Nat.add] in K.
      apply nth_error_combine_ in HS. destruct HS as [HS HG]. apply nth_error_combine_ in HS. destruct HS as [HP HS].
      apply nth_error_combine_ in HS. destruct HS as [HT HE]. exact (K p t e g HP HT HE HG).
  Qed.

  Lemma tcoda_nonempty : Forall (fun t => t <> []) (w_tcoda st).
  Proof.
    destruct AL as (_ & _ & F & _). clear - F NE. induction F as [|t e l m H F IH]; [constructor|].
    inversion NE; subst. constructor; [|auto]. destruct t; [|discriminate]. destruct e; [contradiction|discriminate].
  Qed.

  Lemma firsts_ok l : Forall (fun t : list R => t <> []) l -> mapM first_time l = Ok (map (fun t => FNum (hd 0 t)) l).
  Proof.
    induction 1 as [|t l H F IH]; cbn; [reflexivity|]. destruct t as [|t0 t]; [contradiction|]. cbn. now rewrite IH.
  Qed.
  Lemma lasts_ok l : Forall (fun t : list R => t <> []) l -> mapM last_time l = Ok (map (fun t => FNum (last t 0)) l).
  Proof.
    induction 1 as [|t l H F IH]; [reflexivity|]. cbn [mapM map]. destruct t as [|t0 t]; [contradiction|].
    cbn [last_time bind]. now rewrite IH.
  Qed.

  Lemma pymin_num l : forall u, exists v, fold_left pymin (map FNum l) (FNum u) = FNum v /\
    v <= u /\ (forall y, In y l -> v <= y) /\ (v = u \/ In v l).
  Proof.
    induction l as [|y l IH]; intros u; cbn [map fold_left].
    - exists u. split; [reflexivity|]. split; [lra|]. split; [contradiction|]. now left.
    - unfold pymin at 2. cbn [fltb]. destruct (rltb y u) eqn:E.
      + apply rltb_true in E. destruct (IH y) as (v & EV & H1 & H2 & H3). exists v. split; [exact EV|]. split; [lra|].
        split; [intros z [<-|I]; [exact H1|auto]|]. right. destruct H3 as [->|I]; cbn; auto.
      + apply rltb_false in E. destruct (IH u) as (v & EV & H1 & H2 & H3). exists v. split; [exact EV|]. split; [exact H1|].
        split; [intros z [<-|I]; [lra|auto]|]. destruct H3 as [->|I]; cbn; auto.
  Qed.
  Lemma pymax_num l : forall u, exists v, fold_left pymax (map FNum l) (FNum u) = FNum v /\
    u <= v /\ (forall y, In y l -> y <= v) /\ (v = u \/ In v l).
  Proof.
    induction l as [|y l IH]; intros u; cbn [map fold_left].
    - exists u. split; [reflexivity|]. split; [lra|]. split; [contradiction|]. now left.
    - unfold pymax at 2. cbn [fltb]. destruct (rltb u y) eqn:E.
      + apply rltb_true in E. destruct (IH y) as (v & EV & H1 & H2 & H3). exists v. split; [exact EV|]. split; [lra|].
        split; [intros z [<-|I]; [exact H1|auto]|]. right. destruct H3 as [->|I]; cbn; auto.
      + apply rltb_false in E. destruct (IH u) as (v & EV & H1 & H2 & H3). exists v. split; [exact EV|]. split; [exact H1|].
        split; [intros z [<-|I]; [lra|auto]|]. destruct H3 as [->|I]; cbn; auto.
  Qed.

  Lemma finite_map l : Forall finite l -> exists m, l = map FNum m.
  Proof.
    induction 1 as [|y l (r & ->) F (m & ->)]; [now exists []|]. exists (r :: m). reflexivity.
  Qed.

  (** the whole plot *)
  Lemma plot_ok : exists p tmin tmax, plot_lstsq (pairs st) (FNum b) W Rs x base = Ok p /\
    Forall2 shown (concat (q_coda p) ++ q_bulk p) (combine (samples st) (concat gc ++ gb)) /\
    List.length (q_coda p) = List.length (pairs st) /\
    q_right p = FNum tmax /\
    q_line p = map (fun k => let t := tmin + INR k * ((tmax - tmin) / 99) in (FNum t, FNum ((ln w0 - b * t) / ln base))) (seq 0 100) /\
    (forall t, In t (w_tcoda st) -> tmin <= hd 0 t /\ last t 0 <= tmax) /\
    (forall t, In (FNum t) (w_tbulk st) -> tmin <= t).
  Proof.
    destruct coda_points as (lc & EC & LCP & FC). destruct bulk_points as (lb & EB & FB).
    unfold plot_lstsq. destruct (pairs st) as [|p0 ps] eqn:EP; [destruct AL; contradiction|]. rewrite <- EP in *. cbn [x band_info i_tcoda i_tbulk].
    pose proof tcoda_nonempty as TN. rewrite (firsts_ok _ TN), (lasts_ok _ TN). cbn [bind].
    destruct GB as (_ & _ & FT & _). destruct (finite_map _ FT) as (tb & ETB).
    assert (NT : w_tcoda st <> []).
    { intros Q. destruct lengths as (L & _). rewrite EP, Q in L. discriminate. }
    assert (PM : exists m1 m2, pymin_of (map (fun t => FNum (hd 0 t)) (w_tcoda st)) = Ok (FNum m1) /\
      pymax_of (map (fun t => FNum (last t 0)) (w_tcoda st)) = Ok (FNum m2) /\
      forall t, In t (w_tcoda st) -> m1 <= hd 0 t /\ last t 0 <= m2).
    { destruct (w_tcoda st) as [|t0 tc]; [contradiction|]. cbn [map pymin_of pymax_of].
      destruct (pymin_num (map (hd 0) tc) (hd 0 t0)) as (m1 & M1 & L1 & L2 & _). rewrite map_map in M1. rewrite M1.
      destruct (pymax_num (map (fun t => last t 0) tc) (last t0 0)) as (m2 & M2 & U1 & U2 & _). rewrite map_map in M2. rewrite M2.
      exists m1, m2. split; [reflexivity|]. split; [reflexivity|]. intros t [<-|I]; [lra|]. split.
      - apply L2. now apply in_map.
      - apply U2. apply (in_map (fun t => last t 0)). exact I. }
    destruct PM as (m1 & m2 & M1 & M2 & MT). rewrite M1, M2. cbn [bind].
    cbn [x band_info i_tcoda i_tbulk] in EC, EB. fold x. rewrite EC. cbn [bind]. rewrite EB. cbn [bind]. rewrite ETB.
    destruct (pymin_num tb m1) as (m3 & M3 & L3 & L4 & _). rewrite M3. rewrite W0. cbn [bind].
    eexists. exists m3, m2. split; [reflexivity|]. cbn [q_coda q_bulk q_right q_line].
    split; [|split; [|split; [reflexivity|split; [|split]]]].
    - rewrite (samples_split st AL), combine_app2.
      + apply Forall2_app; [exact FC|exact FB].
      + pose proof coda_lengths as CL. clear - CL. induction CL as [|a g l m H F IH]; cbn; [reflexivity|].
        rewrite !app_length. lia.
    - exact LCP.
    - unfold linspace100. rewrite map_map. apply map_ext. intros k. cbn [fsub fneg fadd]. rewrite fdiv_num by lra. cbn [fmul fadd].
      rewrite flog_pos by exact W0P. cbn [fmul fneg fadd fsub]. rewrite (flog_pos base) by exact BP. rewrite fdiv_num by now apply ln_neq0.
      cbn zeta. assert (Q : INR k * ((m2 + - m3) / 99) + m3 = m3 + INR k * ((m2 - m3) / 99)) by (unfold Rminus; ring).
      rewrite Q. f_equal.
    - intros t I. destruct (MT t I). lra.
    - intros t I. apply in_map_iff in I. destruct I as (u & [= ->] & I). now apply L4.
  Qed.
End Q.

Lemma lsq_empty pairs b W Rs x base :
  pairs <> [] -> In [] (i_tcoda x) -> plot_lstsq pairs b W Rs x base = Err IndexError.
Proof.
  intros P I. unfold plot_lstsq. destruct pairs; [congruence|].
  assert (E : mapM first_time (i_tcoda x) = Err IndexError); [|rewrite E; reflexivity].
  clear P. induction (i_tcoda x) as [|t l IH]; [easy|].
  destruct t as [|t0 t]; [reflexivity|]. destruct I as [I|I]; [discriminate|].
  cbn [mapM first_time bind]. rewrite (IH I). reflexivity.
Qed.
