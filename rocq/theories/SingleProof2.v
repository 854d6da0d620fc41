(** Further lemmas on the plots of the result of one inversion. *)
From Coq Require Import String List Bool Reals Lra Lia Arith Permutation Sorted.
From Verif Require Import Base Pyf PyfOps PySort DepModel DepSpec DepProof GridModel GridSpec GridProof PanelModel PanelSpec StatProof PanelProof2
  SiteProof9 SingleModel SingleSpec SingleProof.
Import ListNotations.
Open Scope string_scope.
Open Scope list_scope.

Lemma from_in q c quantities k : from_list q c -> nth_error quantities k = Some q -> c = "W" -> In "W" quantities.
Proof.
  intros [H|[-> ->]] N E; [|eapply nth_error_In; exact N]. subst c. unfold calculated_from in H. cbn in H. intuition discriminate.
Qed.

Lemma single_shown nf r e : joint nf r e ->
  forall freq v0 quantities method smo fig k q c l v,
  List.length freq = nf -> plot_eventresult freq r v0 quantities method (Some smo) = Ok fig -> velocity_of_plot v0 r v ->
  nth_error quantities k = Some q -> from_list q c ->
  (c <> "W" -> stored (er_lists r) c l) -> (c = "W" -> stored (ev_lists e) c l) ->
  exists pts cell linear, nth_error (ef_panels fig) k = Some (EPoints linear pts, cell) /\ (linear = true <-> q = "error") /\ map fst pts = freq /\
    (forall j x f, nth_error l j = Some (FNum x) -> x <> 0%R -> nth_error freq j = Some f -> f <> 0%R ->
       exists y, nth_error pts j = Some (f, FNum y) /\ derived q x f v y) /\
    (forall j f, nth_error l j = Some FNan -> nth_error freq j = Some f -> nth_error pts j = Some (f, FNan)).
Proof.
  intros J freq v0 quantities method smo fig k q c l v LF H V Q FL S1 S2.
  destruct (single_parts nf r freq v0 quantities method smo LF fig k q H Q) as (m & p & cl & M & P & EP).
  destruct (merged_ok nf r e J quantities) as (m' & M' & M1 & M2). assert (m' = m) by congruence. subst m'.
  rewrite (event_velocity _ _ _ V) in EP.
  assert (G : dget String.eqb (ev_lists m) c = Some l /\ List.length l = nf).
  { destruct (known_quantity q c FL) as (_ & _ & _ & KC). destruct J as (J1 & _ & J3 & _). destruct KC as [KC|[-> ->]].
    - assert (c <> "W") by (intros ->; cbn in KC; intuition discriminate). specialize (S1 H0). split; [|exact (J1 _ _ S1)].
      rewrite (M1 c KC). exact S1.
    - specialize (S2 eq_refl). destruct (J3 "W" (or_introl eq_refl)) as (l' & S' & L').
      assert (l' = l) by (unfold stored in *; congruence). subst l'. split; [|exact L'].
      destruct M2 as (_ & _ & M3); [left; eapply from_in; eauto|]. rewrite M3 by now left. exact S2. }
  destruct G as [G LL]. destruct (value_shown nf freq v m q c l method (Some smo) LF FL G LL) as (pts & E & R1 & R2 & R3).
  exists pts, cl, (String.eqb q "error"). split; [rewrite P; congruence|]. split; [apply String.eqb_eq|]. auto.
Qed.

Lemma single_spectrum nf r e : joint nf r e ->
  forall freq v0 quantities method smo fig k l,
  List.length freq = nf -> nf <> 0%nat -> method <> Some "mean" ->
  plot_eventresult freq r v0 quantities method (Some smo) = Ok fig ->
  nth_error quantities k = Some "sds" -> stored (ev_lists e) "sds" l ->
  exists d cell, nth_error (ef_panels fig) k = Some (ESpectrum d (ev_nst e), cell) /\
    (d = None <-> forall x, In x l -> x = FNan) /\
    forall d', d = Some d' -> List.length (d_points d') = nf /\
      (forall j f x, nth_error freq j = Some f -> nth_error l j = Some x -> nth_error (d_points d') j = Some (f, x)) /\
      (forall model, d_model d' = Some model -> forall f, exists M0 fc n gamma,
         first_given (p_M0 smo) (p_M0 (ev_pars e)) 0 M0 /\ first_given (p_fc smo) (p_fc (ev_pars e)) 0 fc /\
         first_given (p_n smo) (p_n (ev_pars e)) 2 n /\ first_given (p_gamma smo) (p_gamma (ev_pars e)) 1 gamma /\
         model f = (M0 * Rpower (1 + Rpower (f / fc) (n * gamma)) (- (1) / gamma))%R /\ d_level d' = Some M0).
Proof.
  intros J freq v0 quantities method smo fig k l LF N0 MM H Q S.
  destruct (single_parts nf r freq v0 quantities method smo LF fig k _ H Q) as (m & p & cl & M & P & EP).
  destruct (merged_ok nf r e J quantities) as (m' & M' & M1 & M2). assert (m' = m) by congruence. subst m'.
  destruct (M2 (or_intror (nth_error_In _ _ Q))) as (MP & MN & ML).
  assert (LL : List.length l = nf).
  { destruct J as (_ & _ & J3 & _). destruct (J3 "sds" (or_intror (or_introl eq_refl))) as (l' & S' & L'). unfold stored in *. congruence. }
  assert (G : dget String.eqb (ev_lists m) "sds" = Some l) by (rewrite ML by (right; now left); exact S).
  destruct (spectrum_shown nf r e J freq (event_v0 v0 r) m l method smo LF N0 MM MN G LL) as (d & E & D).
  exists d, cl. split; [rewrite P; congruence|]. rewrite MP in D. split.
  - split.
    + intros ->. apply all_nan_forallb. destruct (forallb fisnan l) eqn:F; [reflexivity|]. exfalso.
      destruct (existsb (fun x => negb (fisnan x)) l) eqn:X.
      * apply existsb_exists in X. destruct X as (o & I & O).
        destruct (sds_ok freq l (ev_pars e) method smo (match ev_nst e with Some _ => true | None => false end) MM ltac:(congruence)) as (d & D' & _);
          [|congruence]. exists o. split; [exact I|]. intros ->. discriminate.
      * apply Bool.not_true_iff_false in F. apply F. apply forallb_forall. intros x I. destruct (fisnan x) eqn:FX; [reflexivity|].
        rewrite <- X. apply existsb_exists. exists x. split; [exact I|now rewrite FX].
    + intros A. apply all_nan_forallb in A. unfold plot_sds in D. rewrite A in D. congruence.
  - intros d' ->. assert (NA : exists o, In o l /\ o <> FNan).
    { destruct (existsb (fun x => negb (fisnan x)) l) eqn:X.
      - apply existsb_exists in X. destruct X as (o & I & O). exists o. split; [exact I|]. intros ->. discriminate.
      - exfalso. assert (A : forallb fisnan l = true).
        { apply forallb_forall. intros x I. destruct (fisnan x) eqn:FX; [reflexivity|].
          rewrite <- X. apply existsb_exists. exists x. split; [exact I|now rewrite FX]. }
        unfold plot_sds in D. rewrite A in D. discriminate. }
    destruct (sds_ok freq l (ev_pars e) method smo (match ev_nst e with Some _ => true | None => false end) MM ltac:(congruence) NA) as (d2 & D2 & L2 & P2).
    assert (d2 = d') by congruence. subst d2. split; [congruence|]. split; [exact P2|].
    intros model DM f.
    assert (FM : fit_method method).
    { unfold plot_sds in D. destruct (forallb fisnan l); [discriminate|]. unfold fit_method.
      destruct method as [mt|].
      - destruct (String.eqb_spec mt "mean"); [congruence|]. destruct (String.eqb_spec mt "fit"); [left; congruence|].
        destruct (String.eqb_spec mt "robust_fit"); [right; congruence|]. exfalso. cbn [orb] in D.
        destruct (Nat.eqb _ _); [|discriminate]. injection D as <-. cbn in DM. discriminate.
      - exfalso. cbn in D. destruct (Nat.eqb _ _); [|discriminate]. injection D as <-. cbn in DM. discriminate. }
    destruct (sds_model freq l (ev_pars e) method smo (match ev_nst e with Some _ => true | None => false end) d' f FM D) as [_ X].
    exact (X model DM).
Qed.

(** only the first event counts *)
Lemma single_first freq r x l v0 quantities method smo : er_events r = Some (x :: l) ->
  plot_eventresult freq r v0 quantities method smo =
  plot_eventresult freq {| er_lists := er_lists r; er_v0 := er_v0 r; er_conf := er_conf r; er_events := Some [x] |} v0 quantities method smo.
Proof.
  intros E. unfold plot_eventresult, merged, event_v0. cbn [er_lists er_v0 er_conf er_events]. rewrite E. destruct x. reflexivity.
Qed.

(** without velocity *)
Lemma single_velocity freq r v0 quantities method smo q fig :
  missing v0 -> missing (er_v0 r) -> er_conf r = None -> In q quantities -> q <> "sds" ->
  plot_eventresult freq r v0 quantities method smo <> Ok fig.
Proof.
  intros A B C I N. unfold plot_eventresult. rewrite (no_velocity _ _ A B C).
  destruct (merged r quantities) as [m|]; cbn [bind]; [|discriminate]. destruct (square_plot _) as [lay|]; cbn [bind]; [|discriminate].
  destruct (mapM _ quantities) as [ps|] eqn:PS; cbn [bind]; [|discriminate]. exfalso.
  apply In_nth_error in I. destruct I as (k & K). destruct (mapM_at _ _ _ _ _ PS K) as (p & _ & P).
  unfold event_panel in P. apply String.eqb_neq in N. rewrite N in P. unfold value_panel in P.
  destruct (dget String.eqb DEPMAP q); [|discriminate]. destruct (dget String.eqb (ev_lists m) s); [|discriminate].
  rewrite calc_none in P. discriminate.
Qed.

(** method "mean" *)
Lemma single_mean nf r e : joint nf r e ->
  forall freq v0 quantities smo fig l x, In "sds" quantities -> stored (ev_lists e) "sds" l -> In x l -> x <> FNan ->
  plot_eventresult freq r v0 quantities (Some "mean") smo <> Ok fig.
Proof.
  intros J freq v0 quantities smo fig l x I S IX NX. unfold plot_eventresult.
  destruct (merged_ok nf r e J quantities) as (m & -> & _ & M2). cbn [bind].
  destruct (square_plot _) as [lay|]; cbn [bind]; [|discriminate].
  destruct (mapM _ quantities) as [ps|] eqn:PS; cbn [bind]; [|discriminate]. exfalso.
  destruct (M2 (or_intror I)) as (_ & _ & ML). specialize (ML "sds" (or_intror (or_introl eq_refl))).
  apply In_nth_error in I. destruct I as (k & K). destruct (mapM_at _ _ _ _ _ PS K) as (p & _ & P).
  unfold event_panel in P. change (String.eqb "sds" "sds") with true in P. cbv iota in P. unfold spectrum_panel in P.
  rewrite ML in P. unfold stored in S. rewrite S in P.
  destruct (match ev_nst m with Some [] => Err ValueError | _ => Ok tt end); cbn [bind] in P; [|discriminate].
  destruct (plot_sds _ _ _ _ _ _) as [[d|]|] eqn:D; cbn [bind] in P; [|destruct (forallb fisnan l) eqn:F|discriminate].
  - now apply sds_mean_fails in D.
  - rewrite all_nan_forallb in F. apply NX. now apply F.
  - unfold plot_sds in D. rewrite F in D. destruct smo; [|discriminate]. cbn in D. destruct (either _ _); [|discriminate]. destruct (ev_nst m); discriminate.
Qed.

(** the quantities chosen for the plot *)
Lemma single_quantities r : (forall q, In q (event_quantities r) <->
    (In q ["g0"; "lsc"; "Qsc"; "b"; "li"; "Qi"] /\ exists l, stored (er_lists r) "g0" l) \/ q = "error" \/
    (In q ["W"; "sds"] /\ ((exists l, stored (er_lists r) "W" l) \/
       exists evs id e l, er_events r = Some evs /\ In (id, e) evs /\ stored (ev_lists e) "W" l))) /\
  NoDup (event_quantities r).
Proof.
  unfold event_quantities, stored. split.
  - intros q. rewrite !in_app_iff.
    assert (A : (existsb (fun e => match dget String.eqb (ev_lists (snd e)) "W" with Some _ => true | None => false end)
        (match er_events r with Some evs => evs | None => [] end) ||
        match dget String.eqb (er_lists r) "W" with Some _ => true | None => false end)%bool = true <->
      ((exists l, dget String.eqb (er_lists r) "W" = Some l) \/
       exists evs id e l, er_events r = Some evs /\ In (id, e) evs /\ dget String.eqb (ev_lists e) "W" = Some l)).
    { rewrite orb_true_iff, existsb_exists. split.
      - intros [([id e] & I & H)|H].
        + right. destruct (er_events r) as [evs|]; [|destruct I]. cbn [snd] in H.
          destruct (dget String.eqb (ev_lists e) "W") as [l|] eqn:G; [|discriminate]. exists evs, id, e, l. auto.
        + left. destruct (dget String.eqb (er_lists r) "W") as [l|]; [eauto|discriminate].
      - intros [(l & ->)|(evs & id & e & l & -> & I & G)]; [now right|]. left. exists (id, e). cbn [snd]. rewrite G. auto. }
    set (w := (_ || _)%bool) in *. clearbody w.
    destruct (dget String.eqb (er_lists r) "g0") as [l|] eqn:G.
    + split.
      * intros [H|[H|H]]; [left; split; [exact H|eauto]|right; left; cbn in H; intuition|].
        destruct w; [|destruct H]. right. right. split; [exact H|]. now apply A.
      * intros [[H _]|[->|[H W]]]; [now left|right; left; now left|]. apply A in W. subst w. auto.
    + split.
      * intros [H|[H|H]]; [destruct H|right; left; cbn in H; intuition|].
        destruct w; [|destruct H]. right. right. split; [exact H|]. now apply A.
      * intros [[_ (l & L)]|[->|[H W]]]; [congruence|right; left; now left|]. apply A in W. subst w. auto.
  - set (w := (_ || _)%bool). clearbody w. destruct (dget String.eqb (er_lists r) "g0"), w; cbn;
      repeat (constructor; [cbn; intuition discriminate|]); constructor.
Qed.

(** ** Site responses *)

Lemma numbers_in l x : In x (numbers l) <-> In (Some x) l.
Proof.
  unfold numbers. rewrite in_flat_map. split.
  - intros ([y|] & I & H); [|destruct H]. destruct H as [->|[]]. exact I.
  - intros I. exists (Some x). split; [exact I|now left].
Qed.

Lemma numbers_nil l : numbers l = [] <-> forall x, ~ In (Some x) l.
Proof.
  split.
  - intros E x I. apply numbers_in in I. rewrite E in I. destruct I.
  - intros H. destruct (numbers l) as [|x t] eqn:E; [reflexivity|]. exfalso. apply (H x). apply numbers_in. rewrite E. now left.
Qed.

Lemma fold_min l : forall a, (fold_left Rmin l a <= a)%R /\ (forall x, In x l -> (fold_left Rmin l a <= x)%R) /\ In (fold_left Rmin l a) (a :: l).
Proof.
  induction l as [|b l IH]; intros a; cbn [fold_left].
  - split; [lra|]. split; [intros x []|now left].
  - destruct (IH (Rmin a b)) as (A & B & C). assert (M1 := Rmin_l a b). assert (M2 := Rmin_r a b). split; [lra|]. split.
    + intros x [<-|I]; [lra|now apply B].
    + destruct C as [C|C]; [|right; now right]. rewrite <- C. unfold Rmin. destruct (Rle_dec a b); [now left|right; now left].
Qed.

Lemma fold_max l : forall a, (a <= fold_left Rmax l a)%R /\ (forall x, In x l -> (x <= fold_left Rmax l a)%R) /\ In (fold_left Rmax l a) (a :: l).
Proof.
  induction l as [|b l IH]; intros a; cbn [fold_left].
  - split; [lra|]. split; [intros x []|now left].
  - destruct (IH (Rmax a b)) as (A & B & C). assert (M1 := Rmax_l a b). assert (M2 := Rmax_r a b). split; [lra|]. split.
    + intros x [<-|I]; [lra|now apply B].
    + destruct C as [C|C]; [|right; now right]. rewrite <- C. unfold Rmax. destruct (Rle_dec a b); [right; now left|now left].
Qed.

Lemma min_max_ok l P : (forall x, In x l <-> P x) -> l <> [] -> exists a b, min_max l = Ok (a, b) /\ least P a /\ largest P b.
Proof.
  intros H N. destruct l as [|x l]; [congruence|]. cbn [min_max]. do 2 eexists. split; [reflexivity|].
  destruct (fold_min l x) as (A1 & A2 & A3). destruct (fold_max l x) as (B1 & B2 & B3). split; split.
  - now apply H.
  - intros y Y. apply H in Y. destruct Y as [<-|Y]; [exact A1|now apply A2].
  - now apply H.
  - intros y Y. apply H in Y. destruct Y as [<-|Y]; [exact B1|now apply B2].
Qed.

Section Sites.
  Variables (freq : list R) (sites : list (string * list (option R))).
  Let leb (a b : string * list (option R)) := String.leb (fst a) (fst b).
  Let sorted := pysort leb sites.

  Lemma all_numbers x : In x (flat_map (fun s => numbers (snd s)) sorted) <-> site_value sites x.
  Proof.
    rewrite in_flat_map. unfold site_value, sorted. split.
    - intros ([sta l] & I & H). apply pysort_in in I. cbn [snd] in H. apply numbers_in in H. eauto.
    - intros (sta & l & I & H). exists (sta, l). split; [now apply pysort_in|]. cbn [snd]. now apply numbers_in.
  Qed.

  (** a station without values or with a value for every frequency *)
  Definition good_site (s : string * list (option R)) : Prop := List.length (snd s) = List.length freq.

  Lemma station_ok s : good_site s -> exists p, station_panel freq s = Ok p /\ sp_station p = fst s /\
    (sp_points p = None <-> forall x, ~ In (Some x) (snd s)) /\
    (forall pts, sp_points p = Some pts -> pts = combine freq (snd s)).
  Proof.
    intros G. unfold station_panel. unfold good_site in G. rewrite G, Nat.eqb_refl. destruct (numbers (snd s)) as [|y t] eqn:E.
    - eexists. split; [reflexivity|]. cbn [sp_station sp_points]. split; [reflexivity|]. split; [|discriminate].
      split; [intros _; now apply numbers_nil|reflexivity].
    - eexists. split; [reflexivity|]. cbn [sp_station sp_points]. split; [reflexivity|]. split; [|congruence].
      split; [discriminate|]. intros H. apply numbers_nil in H. congruence.
  Qed.

  Lemma sites_ok : freq <> [] -> (forall s, In s sites -> good_site s) -> (exists x, site_value sites x) ->
    exists fig, plot_eventsites freq sites = Ok fig /\
      List.length (sg_panels fig) = List.length sites /\
      (forall k p c, nth_error (sg_panels fig) k = Some (p, c) ->
         square_cell (List.length sites) k c /\ exists s, nth_error sorted k = Some s /\ sp_station p = fst s /\
           (sp_points p = None <-> forall x, ~ In (Some x) (snd s)) /\
           (forall pts, sp_points p = Some pts -> pts = combine freq (snd s))) /\
      (exists a b, least (site_value sites) a /\ largest (site_value sites) b /\
         (sg_ylim fig = None <-> a = b) /\ forall lim, sg_ylim fig = Some lim -> lim = (a, b)) /\
      nth_error freq 0 = Some (fst (sg_xlim fig)) /\ nth_error freq (List.length freq - 1) = Some (snd (sg_xlim fig)).
  Proof.
    intros NF GS (x0 & X0). unfold plot_eventsites. fold leb. fold sorted.
    destruct (square_cells (List.length sites)) as (lay & -> & LL & LC).
    { destruct X0 as (sta & l & I & _). destruct sites; [destruct I|cbn; lia]. }
    cbn [bind].
    assert (GS' : forall s, In s sorted -> good_site s). { intros s I. apply GS. unfold sorted in I. now apply pysort_in in I. }
    assert (exists ps, mapM (station_panel freq) sorted = Ok ps) as (ps & PS).
    { clearbody sorted. clear - GS'. induction sorted as [|s l IH]; [cbn; eauto|]. cbn [mapM].
      destruct (station_ok s (GS' s (or_introl eq_refl))) as (p & -> & _). cbn [bind].
      destruct IH as (ps & ->); [intros; apply GS'; now right|]. cbn [bind]. eauto. }
    rewrite PS. cbn [bind].
    destruct (min_max_ok _ (site_value sites) all_numbers) as (a & b & -> & A & B).
    { intros E. apply all_numbers in X0. rewrite E in X0. destruct X0. }
    cbn [bind fst snd]. destruct (ends_ok (List.length freq) freq eq_refl) as (f0 & f1 & -> & E0 & E1).
    { destruct freq; [congruence|discriminate]. }
    cbn [bind]. assert (LP := mapM_length _ _ _ PS). unfold sorted in LP. rewrite pysort_length in LP.
    eexists. split; [reflexivity|]. cbn [sg_panels sg_ylim sg_xlim fst snd]. split; [rewrite combine_length; lia|]. split; [|split; [|split; assumption]].
    - intros k p c H. apply nth_error_combine_inv in H. cbn [fst snd] in H. destruct H as [H1 H2]. split; [now apply LC|].
      assert (K : (k < List.length sorted)%nat). { apply nth_lt in H1. unfold sorted. rewrite pysort_length. lia. }
      destruct (nth_exists sorted k K) as (s & S). exists s. split; [exact S|].
      destruct (mapM_at _ _ _ _ _ PS S) as (p' & P1 & P2). assert (p' = p) by congruence. subst p'.
      destruct (station_ok s (GS' s (nth_error_In _ _ S))) as (p' & P3 & R). assert (p' = p) by congruence. now subst p'.
    - exists a, b. split; [exact A|]. split; [exact B|]. destruct (Req_EM_T a b); split; try congruence; split; congruence.
  Qed.

  Lemma sites_order : Permutation (map fst sorted) (map fst sites) /\ StronglySorted (fun a b => String.leb a b = true) (map fst sorted).
  Proof.
    split; [apply Permutation_map; apply pysort_perm|].
    assert (S : StronglySorted (fun a b => leb a b = true) sorted).
    { apply pysort_sorted; unfold leb.
      - intros a b. apply string_leb_total.
      - intros a b c. apply string_leb_trans. }
    induction S as [|s l S IH F]; cbn [map]; [constructor|]. constructor; [exact IH|].
    apply Forall_forall. intros x I. apply in_map_iff in I. destruct I as (y & <- & I). rewrite Forall_forall in F. now apply F.
  Qed.

  Lemma sites_nothing fig : (forall x, ~ site_value sites x) -> plot_eventsites freq sites <> Ok fig.
  Proof.
    intros N. unfold plot_eventsites. fold leb. fold sorted.
    destruct (square_plot _) as [lay|]; cbn [bind]; [|discriminate]. destruct (mapM _ _) as [ps|]; cbn [bind]; [|discriminate].
    destruct (flat_map (fun s => numbers (snd s)) sorted) as [|x t] eqn:E; [discriminate|].
    exfalso. apply (N x). apply all_numbers. rewrite E. now left.
  Qed.
End Sites.

Lemma sites_shown freq sites : freq <> [] -> (forall sta l, In (sta, l) sites -> List.length l = List.length freq) ->
  (exists x, site_value sites x) ->
  exists fig order, plot_eventsites freq sites = Ok fig /\ Permutation order sites /\
    StronglySorted (fun a b => String.leb a b = true) (map fst order) /\
    List.length (sg_panels fig) = List.length sites /\
    (forall k p c, nth_error (sg_panels fig) k = Some (p, c) ->
       square_cell (List.length sites) k c /\ exists sta l, nth_error order k = Some (sta, l) /\ sp_station p = sta /\
         (sp_points p = None <-> forall x, ~ In (Some x) l) /\
         (forall pts, sp_points p = Some pts -> pts = combine freq l)) /\
    (exists a b, least (site_value sites) a /\ largest (site_value sites) b /\
       (sg_ylim fig = None <-> a = b) /\ forall lim, sg_ylim fig = Some lim -> lim = (a, b)) /\
    nth_error freq 0 = Some (fst (sg_xlim fig)) /\ nth_error freq (List.length freq - 1) = Some (snd (sg_xlim fig)).
Proof.
  intros NF GS X. destruct (sites_ok freq sites NF) as (fig & E & L & P & Y & F0 & F1); [intros [sta l]; apply GS|exact X|].
  destruct (sites_order sites) as [_ O2]. exists fig. eexists. split; [exact E|]. split; [apply pysort_perm|]. split; [exact O2|].
  split; [exact L|]. split; [|split; [exact Y|split; assumption]].
  intros k p c H. destruct (P k p c H) as (C & [sta l] & S). split; [exact C|]. exists sta, l. exact S.
Qed.
