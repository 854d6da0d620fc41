(** Lemmas on the plot of the result of one inversion. *)
From Coq Require Import String List Bool Reals Lra Lia Arith.
From Verif Require Import Base Pyf PyfOps DepModel DepSpec DepProof GridModel GridSpec GridProof PanelModel PanelSpec StatProof PanelProof2 PanelProof6
  SingleModel SingleSpec.
Import ListNotations.
Open Scope string_scope.
Open Scope list_scope.

Lemma square_cells n : (0 < n)%nat -> exists lay, square_plot n = Ok lay /\ List.length (g_cells lay) = n /\
  forall k c, nth_error (g_cells lay) k = Some c -> square_cell n k c.
Proof.
  intros P. rewrite (square_ok n P). eexists. split; [reflexivity|]. unfold placed. cbn [g_cells].
  split; [now rewrite map_length, seq_length|]. intros k c H.
  assert (K : (k < n)%nat). { assert (Q := nth_lt _ _ _ H). now rewrite map_length, seq_length in Q. }
  rewrite nth_error_map, nth_error_seq in H by exact K. cbn in H. injection H as <-.
  destruct (ceil_sqrt_spec n) as [A B]. specialize (B P). exists (ceil_sqrt n). split; [exact A|]. split; [|split; reflexivity].
  intros i I. destruct (le_lt_dec (ceil_sqrt n) i); [assumption|]. exfalso. nia.
Qed.

Lemma square_zero : square_plot 0 = Err ValueError.
Proof. reflexivity. Qed.

Lemma event_velocity v0 r v : velocity_of_plot v0 r v -> event_v0 v0 r = AScalar v.
Proof.
  assert (M : forall x b, missing x -> either x b = b).
  { intros x b [->| ->]; cbn; [reflexivity|]. destruct (Req_EM_T 0 0); [reflexivity|lra]. }
  assert (G : forall x b v, given x v -> either x b = Some v).
  { intros x b w [-> N]. cbn. destruct (Req_EM_T w 0); [contradiction|reflexivity]. }
  unfold event_v0. intros [H|[[H1 H2]|[H1 [H2 H3]]]].
  - now rewrite (G _ _ _ H).
  - now rewrite (M _ _ H1), (G _ _ _ H2).
  - rewrite (M _ _ H1), (M _ _ H2). destruct H3 as [-> _]. reflexivity.
Qed.

Lemma no_velocity v0 r : missing v0 -> missing (er_v0 r) -> er_conf r = None -> event_v0 v0 r = ANone.
Proof.
  assert (M : forall x b, missing x -> either x b = b).
  { intros x b [->| ->]; cbn; [reflexivity|]. destruct (Req_EM_T 0 0); [reflexivity|lra]. }
  intros A B C. unfold event_v0. now rewrite (M _ _ A), (M _ _ B), C.
Qed.

Section Joint.
  Variables (nf : nat) (r : eresult) (e : evalues).
  Hypothesis J : joint nf r e.

  Lemma merged_ok quantities : exists m, merged r quantities = Ok m /\
    (forall k, In k ["g0"; "b"; "error"] -> dget String.eqb (ev_lists m) k = dget String.eqb (er_lists r) k) /\
    (In "W" quantities \/ In "sds" quantities -> ev_pars m = ev_pars e /\ ev_nst m = ev_nst e /\
       forall k, In k ["W"; "sds"] -> dget String.eqb (ev_lists m) k = dget String.eqb (ev_lists e) k).
  Proof.
    destruct J as (_ & J2 & J3 & _ & ND & id & evs & EV). unfold merged.
    destruct (inb String.eqb "W" quantities || inb String.eqb "sds" quantities)%bool eqn:Q.
    - rewrite EV. eexists. split; [reflexivity|]. cbn [ev_lists ev_pars ev_nst]. split.
      + intros k K. specialize (J2 k K). apply (dupdate_get_other String.eqb string_eqb_spec).
        intros I. apply in_map_iff in I. destruct I as ([k' l] & <- & I). cbn [fst] in J2.
        rewrite (dget_nodup String.eqb string_eqb_spec _ _ _ ND I) in J2. discriminate.
      + intros _. split; [reflexivity|]. split; [reflexivity|]. intros k K. destruct (J3 k K) as (l & S & _). unfold stored in S. rewrite S.
        apply (dupdate_get_in String.eqb string_eqb_spec); [exact ND|]. now apply (dget_In _ string_eqb_spec).
    - eexists. split; [reflexivity|]. cbn [ev_lists]. split; [reflexivity|]. intros H. exfalso.
      apply orb_false_iff in Q. destruct Q as [Q1 Q2].
      destruct H as [H|H]; apply (inb_In String.eqb string_eqb_spec) in H; congruence.
  Qed.

  Lemma known_quantity q c : from_list q c -> In q DepSpec.quantities /\ dget String.eqb DEPMAP q = Some c /\ q <> "sds" /\
    (In c ["g0"; "b"; "error"] \/ q = "W" /\ c = "W").
  Proof.
    intros [H|[-> ->]].
    - unfold calculated_from in H. cbn in H. decompose [or] H; try contradiction;
        match goal with E : (_, _) = (_, _) |- _ => injection E as <- <- end;
        (split; [cbn; tauto|split; [reflexivity|split; [discriminate|left; cbn; tauto]]]).
    - split; [cbn; tauto|]. split; [reflexivity|]. split; [discriminate|]. right. split; reflexivity.
  Qed.

  (** the panel of a quantity *)
  Lemma value_shown freq v m q c l method smo : List.length freq = nf -> from_list q c ->
    dget String.eqb (ev_lists m) c = Some l -> List.length l = nf ->
    exists pts, event_panel freq (AScalar v) method smo m q = Ok (EPoints (String.eqb q "error") pts) /\ map fst pts = freq /\
      (forall j x f, nth_error l j = Some (FNum x) -> x <> 0%R -> nth_error freq j = Some f -> f <> 0%R ->
         exists y, nth_error pts j = Some (f, FNum y) /\ derived q x f v y) /\
      (forall j f, nth_error l j = Some FNan -> nth_error freq j = Some f -> nth_error pts j = Some (f, FNan)).
  Proof.
    intros LF Q G LL. destruct (known_quantity q c Q) as (IQ & D & NS & _).
    destruct (calc1_good q l freq v IQ ltac:(congruence)) as (y & C & LY & P1 & P2).
    unfold event_panel. apply String.eqb_neq in NS. rewrite NS. unfold value_panel. rewrite D, G, C. cbn [bind].
    assert (LYF : List.length y = List.length freq) by congruence. rewrite LYF, Nat.eqb_refl.
    eexists. split; [reflexivity|]. split; [|split].
    - clear - LYF. revert y LYF. induction freq as [|f freq IH]; intros [|y0 y] L; try discriminate; [reflexivity|].
      cbn. f_equal. apply IH. now injection L.
    - intros j x f NL X NF F. destruct (P1 j x f NL X NF F) as (y0 & NY & DY). exists y0. split; [|exact DY].
      now apply nth_error_combine.
    - intros j f NL NF. apply nth_error_combine; [exact NF|]. now apply P2.
  Qed.

  (** the panel of the spectrum *)
  Lemma all_nan_forallb l : forallb fisnan l = true <-> forall x, In x l -> x = FNan.
  Proof.
    rewrite forallb_forall. split; intros H x I; specialize (H x I); [destruct x; try discriminate; reflexivity|now rewrite H].
  Qed.

  Lemma spectrum_shown freq v m l method smo : List.length freq = nf -> nf <> 0%nat -> method <> Some "mean" ->
    ev_nst m = ev_nst e -> dget String.eqb (ev_lists m) "sds" = Some l -> List.length l = nf ->
    exists d, event_panel freq v method (Some smo) m "sds" = Ok (ESpectrum d (ev_nst e)) /\
      plot_sds freq l (ev_pars m) method (Some smo) (match ev_nst e with Some _ => true | None => false end) = Ok d.
  Proof.
    destruct J as (_ & _ & _ & JN & _).
    intros LF N0 MM NST G LL. unfold event_panel. change (String.eqb "sds" "sds") with true. cbv iota. unfold spectrum_panel.
    rewrite NST, G. assert (NE : match ev_nst e with Some [] => Err ValueError | _ => Ok tt end = Ok tt).
    { destruct (ev_nst e) as [[|n0 n]|] eqn:EN; [|reflexivity|reflexivity]. specialize (JN _ eq_refl). cbn in JN. congruence. }
    rewrite NE. cbn [bind].
    assert (exists d, plot_sds freq l (ev_pars m) method (Some smo) (match ev_nst e with Some _ => true | None => false end) = Ok d) as (d & D).
    { destruct (forallb fisnan l) eqn:F.
      - unfold plot_sds. rewrite F. eauto.
      - destruct (sds_ok freq l (ev_pars m) method smo (match ev_nst e with Some _ => true | None => false end) MM ltac:(congruence)) as (d & D & _); [|eauto].
        apply Bool.not_true_iff_false in F. rewrite all_nan_forallb in F.
        destruct (existsb (fun x => negb (fisnan x)) l) eqn:X.
        + apply existsb_exists in X. destruct X as (o & I & O). exists o. split; [exact I|]. intros ->. discriminate.
        + exfalso. apply F. intros x I. destruct (fisnan x) eqn:FX; [destruct x; try discriminate; reflexivity|].
          assert (existsb (fun x => negb (fisnan x)) l = true); [|congruence]. apply existsb_exists. exists x. split; [exact I|now rewrite FX]. }
    exists d. rewrite D. cbn [bind]. split; [|reflexivity]. destruct d as [d|]; [|reflexivity].
    destruct (ev_nst e) as [n|] eqn:EN; [|reflexivity]. specialize (JN n eq_refl). now rewrite JN, LF, Nat.eqb_refl.
  Qed.

  Variables (freq : list R) (v0 : option R) (quantities : list string) (method : option string) (smo : pars).
  Hypothesis LF : List.length freq = nf.

  Lemma ends_ok : nf <> 0%nat -> exists a b, ends freq = Ok (a, b) /\ nth_error freq 0 = Some a /\ nth_error freq (nf - 1) = Some b.
  Proof.
    intros N. unfold ends. destruct freq as [|f l] eqn:E; [cbn in LF; congruence|]. exists f, (last (f :: l) f).
    split; [reflexivity|]. split; [reflexivity|]. rewrite <- LF. clear. cbn [List.length]. replace (S (List.length l) - 1)%nat with (List.length l) by lia.
    assert (forall l (a d : R), nth_error (a :: l) (List.length l) = Some (last (a :: l) d)) as H; [|apply H].
    clear. induction l as [|b l IH]; intros a d; [reflexivity|]. cbn [List.length]. change (last (a :: b :: l) d) with (last (b :: l) d). apply IH.
  Qed.

  Lemma single_total v : nf <> 0%nat -> quantities <> [] -> available r quantities -> velocity_of_plot v0 r v -> method <> Some "mean" ->
    exists fig, plot_eventresult freq r v0 quantities method (Some smo) = Ok fig /\
      List.length (ef_panels fig) = List.length quantities /\
      (forall k p c, nth_error (ef_panels fig) k = Some (p, c) -> square_cell (List.length quantities) k c) /\
      nth_error freq 0 = Some (fst (ef_xlim fig)) /\ nth_error freq (nf - 1) = Some (snd (ef_xlim fig)).
  Proof.
    intros N0 NQ AV V MM. unfold plot_eventresult. rewrite (event_velocity _ _ _ V).
    destruct (merged_ok quantities) as (m & -> & M1 & M2). cbn [bind].
    destruct (square_cells (List.length quantities)) as (lay & -> & LL & LC).
    { destruct quantities; [congruence|cbn; lia]. }
    cbn [bind].
    assert (exists ps, mapM (event_panel freq (AScalar v) method (Some smo) m) quantities = Ok ps) as (ps & PS).
    { destruct J as (J1 & _ & J3 & _).
      assert (forall q, In q quantities -> exists p, event_panel freq (AScalar v) method (Some smo) m q = Ok p) as ALL.
      { intros q I. destruct (AV q I) as [->|[->|(c & l & Q & S)]].
        - destruct (M2 (or_introl I)) as (_ & _ & M3). destruct (J3 "W" (or_introl eq_refl)) as (l & S & L).
          destruct (value_shown freq v m "W" "W" l method (Some smo) LF) as (pts & P & _); [now right| |exact L|eauto].
          rewrite M3 by (now left). exact S.
        - destruct (M2 (or_intror I)) as (_ & M4 & M3). destruct (J3 "sds" (or_intror (or_introl eq_refl))) as (l & S & L).
          destruct (spectrum_shown freq (AScalar v) m l method smo LF N0 MM M4) as (d & P & _); [|exact L|eauto].
          rewrite M3 by (right; now left). exact S.
        - assert (FL : from_list q c) by now left. destruct (known_quantity q c FL) as (_ & _ & _ & KC).
          destruct (value_shown freq v m q c l method (Some smo) LF FL) as (pts & P & _); [|exact (J1 c l S)|eauto].
          rewrite M1; [exact S|]. destruct KC as [KC|[-> ->]]; [exact KC|]. exfalso. unfold calculated_from in Q. cbn in Q. intuition discriminate. }
      clear - ALL. induction quantities as [|q l IH]; [cbn; eauto|]. cbn [mapM].
      destruct (ALL q (or_introl eq_refl)) as (p & ->). cbn [bind]. destruct IH as (ps & ->); [intros; apply ALL; now right|]. cbn [bind]. eauto. }
    rewrite PS. cbn [bind]. destruct (ends_ok N0) as (a & b & -> & E1 & E2). cbn [bind].
    assert (LP := mapM_length _ _ _ PS).
    eexists. split; [reflexivity|]. cbn [ef_panels ef_xlim fst snd]. split; [rewrite combine_length; lia|]. split; [|split; assumption].
    intros k p c H. apply LC. apply nth_error_combine_inv in H. tauto.
  Qed.

  Lemma single_parts fig k q : plot_eventresult freq r v0 quantities method (Some smo) = Ok fig -> nth_error quantities k = Some q ->
    exists m p c, merged r quantities = Ok m /\ nth_error (ef_panels fig) k = Some (p, c) /\
      event_panel freq (event_v0 v0 r) method (Some smo) m q = Ok p.
  Proof.
    unfold plot_eventresult. destruct (merged r quantities) as [m|x]; cbn [bind]; [|discriminate].
    intros H Q. destruct (square_cells (List.length quantities)) as (lay & SQ & LL & LC).
    { apply nth_lt in Q. lia. }
    rewrite SQ in H. cbn [bind] in H.
    destruct (mapM (event_panel freq (event_v0 v0 r) method (Some smo) m) quantities) as [ps|x] eqn:PS; cbn [bind] in H; [|discriminate].
    destruct (ends freq) as [lim|x]; cbn [bind] in H; [|discriminate]. injection H as <-. cbn [ef_panels].
    destruct (mapM_at _ _ _ _ _ PS Q) as (p & P & EP).
    destruct (nth_exists (g_cells lay) k) as (c & C); [rewrite LL; eapply nth_lt; exact Q|].
    exists m, p, c. split; [reflexivity|]. split; [|assumption]. now apply nth_error_combine.
  Qed.
End Joint.
