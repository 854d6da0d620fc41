(** The moments of the events for synthetic energies. *)
From Coq Require Import String List Bool Reals Lra Lia ZArith Arith Permutation.
From Verif Require Import Base Pyf PyfOps FreqsModel SortModel SortProof FbModel LsqfbModel LsqfbSpec LsqfbProof5.
From Verif Require Import SourceModel SourceSpec SourceProof SourceProof3 SourceProof4 InvModel InvSpec InvProof InvProof2 InvProof3 ChainModel ChainSpec ChainProof ChainProof2 ChainProof3 DepProof.
Import ListNotations.
Open Scope string_scope.
Open Scope list_scope.
Open Scope R_scope.

Lemma truthy_some x : x <> 0 -> truthy (Some x) = Some x.
Proof. intros H. unfold truthy. destruct (Req_EM_T x 0); [contradiction|reflexivity]. Qed.

Lemma points_in freq spec p : In p (points freq spec) ->
  exists i, nth_error freq i = Some (fst p) /\ nth_error spec i = Some (Some (snd p)).
Proof.
  revert spec. induction freq as [|f freq IH]; intros [|x spec] H; cbn in H; try contradiction.
  apply in_app_or in H. destruct H as [H|H].
  - exists 0%nat. destruct x as [y|]; [|contradiction]. destruct H as [<-|[]]. auto.
  - destruct (IH _ H) as (i & I). exists (Datatypes.S i). exact I.
Qed.

Lemma points_length freq : forall spec, List.length spec = List.length freq ->
  List.length (points freq spec) = number_present spec.
Proof.
  induction freq as [|f freq IH]; intros [|x spec] H; try discriminate; [reflexivity|].
  injection H as H. unfold points. cbn [combine flat_map fst snd]. fold (points freq spec). rewrite app_length, IH by exact H.
  unfold number_present. cbn [filter]. now destruct x.
Qed.

Section M.
  Variables (rlm1 : list R -> R) (lin2 : bool -> list R -> list R -> R * R)
    (min1 : (R -> R) -> option (R * R) -> res R)
    (minN : (list R -> R) -> list R -> list (option (R * R)) -> res (list R)).

  Definition spectrum (v rho : R) (W : list (option R)) (freq : list R) : list (option R) :=
    map (fun p => match truthy (fst p) with Some w => Some (sds w (snd p) v rho) | None => None end) (combine W freq).

  (** the dictionary of an event after a fit of all parameters but M0 *)
  Lemma event_fit rho v o mags freq ev W e Mt : v <> 0 -> rho <> 0 -> List.length W = List.length freq -> W <> [] ->
    fit_sds rlm1 lin2 min1 minN "fit" freq (spectrum v rho W freq) o = Ok (Some [("M0", Some Mt); ("fit_error", Some 0)]) ->
    event_source rlm1 lin2 min1 minN (Some rho) (Some "fit") (Smo o) mags freq ev (event_W W) (Some v) = Ok e ->
    dget String.eqb e "M0" = Some (VNum Mt) /\ dget String.eqb e "fit_error" = Some (VNum 0) /\
    dget String.eqb e "Mw" = Some (VNum (2 / 3 * (ln Mt / ln 10) - 607 / 100)).
  Proof.
    intros V0 R0 L NE FT. unfold event_source, insert_source_properties, insert_source_inplace.
    change (dsetdefault String.eqb (event_W W) "sds" (VList [])) with [("W", VList W); ("sds", VList [])].
    change (dget String.eqb [("W", VList W); ("sds", VList [])] "W") with (Some (VList W)). cbv iota.
    unfold insert_spectra.
    assert (ST : start_spectra W (Some v) (Some rho) [("W", VList W); ("sds", VList [])] = [("W", VList W); ("sds", VList [])]).
    { unfold start_spectra. rewrite !truthy_some by assumption. destruct W; [contradiction|reflexivity]. }
    rewrite ST. cbv zeta. destruct freq as [|f0 fs] eqn:EF; [destruct W; [contradiction|discriminate]|]. rewrite <- EF in *. clear EF.
    rewrite (sds_list W (Some rho) (Some v) rho v freq) by (try apply truthy_some; assumption). fold (spectrum v rho W freq).
    cbn [bind]. change (dget String.eqb [("W", VList W); ("sds", VList [])] "sds") with (Some (VList [])). cbv iota.
    cbn [app].
    change (dset String.eqb [("W", VList W); ("sds", VList [])] "sds" (VList (spectrum v rho W freq)))
      with [("W", VList W); ("sds", VList (spectrum v rho W freq))]. cbn [bind].
    unfold insert_fit. change (method_truthy (Some "fit")) with (Some "fit"). cbv iota.
    change (dget String.eqb [("W", VList W); ("sds", VList (spectrum v rho W freq))] "sds") with (Some (VList (spectrum v rho W freq))).
    cbv iota. cbn [smo_kwargs bind]. rewrite FT. cbn [bind].
    set (e1 := insert_catmag _ _).
    assert (ND : NoDup (map fst e1) /\ dget String.eqb e1 "M0" = Some (VNum Mt) /\ dget String.eqb e1 "fit_error" = Some (VNum 0) /\
      dget String.eqb e1 "Mw" = Some (VNum (2 / 3 * (ln Mt / ln 10) - 607 / 100)) /\
      forall k, In k (map fst e1) -> In k DUMP_ORDER).
    { subst e1. destruct (mags ev) as [c|]; cbn; (split; [repeat constructor; cbn; intuition discriminate|]);
        repeat (split; [reflexivity|]); intros k; intuition (subst; tauto). }
    clearbody e1. destruct ND as (ND & D1 & D2 & D3 & KN).
    destruct (sort_dict_ok DUMP_ORDER e1 KN) as (d' & S' & P & _). rewrite S'. cbn [bind snd]. intros [= <-].
    rewrite !(dget_perm d' e1) by assumption. auto.
  Qed.

  (** the moments of all events *)
  Lemma moments cmd stations events (freq_bands : bands) rlist r l source M fc n g v rho o mags : NoDup stations -> NoDup events ->
    List.length rlist = List.length freq_bands ->
    arrange cmd false chain_W (event_source rlm1 lin2 min1 minN (Some rho) (Some "fit") (Smo o) mags) stations events freq_bands rlist = Ok (Some r) ->
    dget String.eqb r "v0" = Some (RV0 v) -> v <> 0 -> rho <> 0 ->
    o_fc o = Some fc -> o_n o = Some n -> o_gamma o = Some g ->
    model_source (map fst freq_bands) events source M fc n g v rho ->
    forall fb fr, lists_in r fb fr (map fst freq_bands) stations events l ->
    (forall ev i f band x, In ev events -> nth_error freq_bands i = Some (f, band) ->
       nth_error (ls_W l ev) i = Some (Some x) -> x = source f ev /\ 0 < x) ->
    true_moments r events l (o_num_points o) M.
  Proof.
    intros NS NE LEN A V V0 R0 OF ON OG MS fb fr (_ & _ & _ & _ & d & EV & EVW) TR ev I PP NP.
    apply arrange_aligned in A; [|assumption..].
    destruct A as (_ & _ & _ & _ & _ & v' & V' & _ & d' & EV' & _ & EVS). specialize (EVS eq_refl).
    rewrite V in V'. injection V' as <-. rewrite EV in EV'. injection EV' as <-.
    destruct (EVW ev I) as (e & DE & WE & LW). destruct (EVS ev I) as (W & e' & AW & SO & DE').
    rewrite DE in DE'. injection DE' as <-.
    assert (WW : map finite_value W = ls_W l ev).
    { pose proof (proj1 (event_source_W _ _ _ _ _ _ _ _ _ _ _ _ _ SO)) as Q. rewrite WE in Q. congruence. }
    unfold chain_W in SO. rewrite WW in SO. clear AW WW W.
    exists d, e. split; [exact EV|]. split; [exact DE|].
    destruct (MS ev I) as (MP & MQ).
    set (W := ls_W l ev) in *. set (freq := dkeys freq_bands) in *.
    assert (FR : freq = map fst freq_bands) by reflexivity. 
    assert (LW' : List.length W = List.length freq) by (rewrite FR; exact LW).
    assert (SL : List.length (spectrum v rho W freq) = List.length freq).
    { unfold spectrum. rewrite map_length, combine_length. lia. }
    assert (POS : forall i x, nth_error W i = Some (Some x) -> 0 < x /\ exists f band, nth_error freq_bands i = Some (f, band) /\ x = source f ev).
    { intros i x NX. assert (i < List.length freq_bands)%nat.
      { rewrite <- (map_length fst). rewrite <- LW. apply nth_error_Some. fold W. congruence. }
      destruct (nth_error freq_bands i) as [[f band]|] eqn:NF; [|apply nth_error_None in NF; lia].
      destruct (TR ev i f band x I NF NX). split; [assumption|]. eauto. }
    assert (NPR : number_present (spectrum v rho W freq) = number_present W).
    { unfold number_present, spectrum. clearbody W freq. clear -LW' POS.
      assert (P : forall x, In (Some x) W -> 0 < x).
      { intros x IX. apply In_nth_error in IX. destruct IX as (i & IX). apply (POS i x IX). }
      clear POS. revert freq LW' P. induction W as [|w W IH]; intros [|f freq] L P; try discriminate; [reflexivity|].
      injection L as L. cbn [combine map fst snd filter].
      assert (E : truthy w = w). { destruct w as [x|]; [|reflexivity]. apply truthy_some. specialize (P x (or_introl eq_refl)). lra. }
      rewrite E. specialize (IH freq L (fun x J => P x (or_intror J))). destruct w; cbn [List.length]; congruence. }
    apply (event_fit rho v o mags freq ev W e (M ev) V0 R0 LW'); [| |exact SO].
    - intros E. rewrite E in PP. cbn in PP. lia.
    - apply (fit_recovery rlm1 lin2 min1 minN freq _ o fc n g (M ev) OF ON OG).
      + intros E. pose proof (points_length _ _ SL) as Q. rewrite E, NPR in Q. cbn in Q. lia.
      + intros np Q. rewrite (points_length _ _ SL), NPR. exact (NP np Q).
      + exact MP.
      + intros p IP. destruct (points_in _ _ _ IP) as (i & NF & NSP). unfold spectrum in NSP.
        rewrite nth_error_map in NSP. destruct (nth_error (combine W freq) i) as [[w f]|] eqn:NC; [|discriminate].
        cbn [option_map fst snd] in NSP. apply nth_error_combine_inv in NC. cbn [fst snd] in NC. destruct NC as (NW & NF'). rewrite NF in NF'. injection NF' as <-.
        destruct w as [x|]; [|discriminate]. destruct (POS i x NW) as (PX & f & band & NB & ->).
        rewrite truthy_some in NSP by lra. injection NSP as <-.
        assert (f = fst p) as ->. { pose proof (map_nth_error fst _ _ NB) as Q. rewrite <- FR, NF in Q. cbn in Q. congruence. }
        apply MQ. exact (nth_error_In _ _ NF).
  Qed.
End M.

Section C.
  Context {W S : Type}.
  Variable env : cenv W S.
  Variable streams : list (stream S).
  Hypothesis OWN : own_objects env streams.
  Hypothesis PR : proper env.
  Variables (site source : R -> string -> R) (b : R -> R) (g0 : R -> pyf).
  Variables (stations events : list string) (freq_bands : bands).
  Variable after : fixkw pyf -> R * R -> list (stream S) -> list (stream S).
  Variables (rlm1 : list R -> R) (lin2 : bool -> list R -> list R -> R * R)
    (min1 : (R -> R) -> option (R * R) -> res R)
    (minN : (list R -> R) -> list R -> list (option (R * R)) -> res (list R)).

  Lemma entries_true fb fr (U : R -> R * R -> wstate -> R -> Prop) l : (forall f band st v, In (f, band) freq_bands -> U f band st v -> positive_on (map fst (pairs st)) (source f)) ->
    true_results fb fr site source b stations events freq_bands U l ->
    forall ev i f band x, In ev events -> nth_error freq_bands i = Some (f, band) ->
       nth_error (ls_W l ev) i = Some (Some x) -> x = source f ev /\ 0 < x.
  Proof.
    intros PO TR ev i f band x I NF NX. destruct (TR i f band NF) as [(_ & _ & _ & N)|(st & v & HU & _ & _ & _ & T)].
    - rewrite (N ev I) in NX. discriminate.
    - destruct (T ev I) as [(IN & E)|(_ & E)]; rewrite E in NX; [|discriminate]. injection NX as <-.
      split; [reflexivity|]. exact (PO f band st v (nth_error_In _ _ NF) HU ev IN).
  Qed.

  Lemma no_band f1 f2 (flt : stream S -> bandfilter -> res S) wd fs bh ob ss es : stream_energies f1 f2 (Some None) flt wd fs bh ob ss = Ok es ->
    stream_energies f1 f2 (Some (Some [])) flt wd fs bh ob ss = Ok es.
  Proof.
    revert es. induction ss as [|s ss IH]; intros es; cbn [stream_energies]; [auto|].
    unfold stream_energy. destruct (rltb (s_sr s) (f1 + f2)); cbn [bind]; [|discriminate].
    destruct (stream_energies f1 f2 (Some None) flt wd fs bh ob ss) as [es'|] eqn:E; [|discriminate]. now rewrite (IH es' eq_refl).
  Qed.

  Lemma velocity rho0 method so mags cmd input r : NoDup stations -> NoDup events ->
    invert_streams env after rlm1 lin2 min1 minN rho0 method so mags cmd input stations events freq_bands streams = Ok (Some r) ->
    exists v, last_velocity env r freq_bands streams v.
  Proof.
    intros NS NE H. destruct (streams_parts env streams PR _ _ _ _ _ _ _ _ _ _ _ _ _ _ _ H) as (kw & rlist & KW & F & A).
    assert (LEN : List.length rlist = List.length freq_bands) by (clear -F; induction F; cbn; congruence).
    pose proof (arrange_aligned _ _ _ _ _ _ _ _ _ NS NE LEN A) as AA.
    destruct AA as (_ & _ & (err & DE & AE) & _ & _ & v & DV & (l1 & br & l2 & RL & BV & NN) & _).
    exists v. split; [exact DV|].
    assert (NX : nth_error rlist (List.length l1) = Some (Some br)).
    { rewrite RL, nth_error_app2 by lia. now rewrite Nat.sub_diag. }
    destruct (nth_error freq_bands (List.length l1)) as [[f band]|] eqn:NF.
    2:{ apply nth_error_None in NF. assert (List.length l1 < List.length rlist)%nat by (apply nth_error_Some; congruence). lia. }
    destruct (nth_Forall2 _ _ _ _ _ F NF) as (x' & NX' & FB). rewrite NX in NX'. injection NX' as <-. cbn [fst snd] in FB.
    assert (US : exists s st, used env s band streams st v /\ forall x, ce_v0 env = Some x -> v = x).
    { unfold invert_fb in FB. destruct streams as [|s0 ss] eqn:SS; [discriminate|]. rewrite <- SS in *.
      unfold band_energies in FB.
      match type of FB with bind ?x _ = _ => destruct x as [es|] eqn:ES; [|discriminate] end. cbn [bind] in FB.
      destruct (select_data (ce_select env) (ce_v0 env) es) as [[[st v1]|]|] eqn:SD; cbn [bind] in FB; try discriminate.
      destruct (invert_band (band_opts env kw band v1) st v1) as [[[fr|] s]|] eqn:IB; cbn [bind fst option_map] in FB; try discriminate.
      injection FB as <-.
      destruct (result_of _ _ (fun _ => 1) (fun _ => 1) (fun _ _ => Rlt_0_1) (fun _ _ => Rlt_0_1) _ _ _ IB) as (a & bs & rs & fi & s1 & _ & -> & _).
      cbn in BV. subst v1.
      assert (Q : exists sites, used env sites band streams st v).
      { destruct (band_sites kw band) as [[p|]|].
        - exists (Some p), es. auto.
        - exists (Some []), es. split; [exact (no_band _ _ _ _ _ _ _ _ _ ES)|exact SD].
        - exists None, es. auto. }
      destruct Q as (sites & Q). exists sites, st. split; [exact Q|].
      destruct (used_loop env streams OWN _ _ _ _ Q) as (_ & _ & _ & _ & V). exact V. }
    destruct US as (s & st & US & V). split; [exact V|].
    exists (List.length l1), f, band, s, st, err, (br_error br). split; [exact NF|]. split; [exact US|]. split; [exact DE|].
    split; [rewrite (proj2 AE _ _ NX); reflexivity|].
    intros j x LT NJ. assert (JL : (j < List.length rlist)%nat) by (rewrite <- (proj1 AE); apply nth_error_Some; congruence).
    destruct (nth_error rlist j) as [y|] eqn:NY; [|apply nth_error_None in NY; lia].
    rewrite (proj2 AE _ _ NY) in NJ. injection NJ as <-. rewrite RL, nth_error_app2 in NY by lia.
    destruct (j - List.length l1)%nat as [|k] eqn:K; [lia|]. cbn in NY. apply nth_error_In in NY. rewrite (NN _ NY). reflexivity.
  Qed.

  Section Fit.
    Variables (M : string -> R) (fc n g v rho : R) (o : fopts) (mags : string -> option R).
    Hypothesis V0 : v <> 0.
    Hypothesis R0 : rho <> 0.
    Hypothesis OF : o_fc o = Some fc.
    Hypothesis ON : o_n o = Some n.
    Hypothesis OG : o_gamma o = Some g.
    Hypothesis MS : model_source (map fst freq_bands) events source M fc n g v rho.
    Hypothesis NS : NoDup stations.
    Hypothesis NE : NoDup events.

    Lemma fitted cmd input r fb fr l (U : R -> R * R -> wstate -> R -> Prop) :
      (forall f band st v, In (f, band) freq_bands -> U f band st v -> positive_on (map fst (pairs st)) (source f)) ->
      invert_streams env after rlm1 lin2 min1 minN (Some rho) (Some "fit") (Smo o) mags cmd input stations events freq_bands streams = Ok (Some r) ->
      dget String.eqb r "v0" = Some (RV0 v) ->
      lists_in r fb fr (map fst freq_bands) stations events l ->
      true_results fb fr site source b stations events freq_bands U l ->
      true_moments r events l (o_num_points o) M.
    Proof.
      intros PO H DV LI TR. destruct (streams_parts env streams PR _ _ _ _ _ _ _ _ _ _ _ _ _ _ _ H) as (kw & rlist & KW & F & A).
      assert (LEN : List.length rlist = List.length freq_bands) by (clear -F; induction F; cbn; congruence).
      exact (moments rlm1 lin2 min1 minN cmd stations events freq_bands rlist r l source M fc n g v rho o mags NS NE LEN A DV V0 R0 OF ON OG MS fb fr LI
        (entries_true fb fr U l PO TR)).
    Qed.

    Lemma go_moments input r :
      synthetic_streams env no_sites freq_bands streams g0 site source b ->
      one_scale env freq_bands streams site ->
      (forall f band st v, In (f, band) freq_bands -> used env None band streams st v -> two_times st) ->
      invert_streams env after rlm1 lin2 min1 minN (Some rho) (Some "fit") (Smo o) mags Go input stations events freq_bands streams = Ok (Some r) ->
      found_g0 r freq_bands g0 -> dget String.eqb r "v0" = Some (RV0 v) ->
      exists l, lists_in r true true (map fst freq_bands) stations events l /\
        true_results true true site source b stations events freq_bands (fun _ band => used env None band streams) l /\
        true_moments r events l (o_num_points o) M.
    Proof.
      intros SY SC TT H FG DV.
      destruct (go_all env streams OWN PR site source b g0 stations events freq_bands after rlm1 lin2 min1 minN _ _ _ _ input r NS NE SY SC TT H FG) as (l & LI & TR).
      exists l. split; [exact LI|]. split; [exact TR|]. apply (fitted Go input r true true l (fun _ band => used env None band streams)); auto.
      intros f band st v' IN US. destruct (SY f band None st v' IN eq_refl US) as (_ & PO & _). exact PO.
    Qed.

    Lemma source_moments fp r : no_duplicates freq_bands fp -> true_input fp g0 b -> true_sites fp site ->
      synthetic_streams env (input_sites fp) freq_bands streams g0 site source b ->
      invert_streams env after rlm1 lin2 min1 minN (Some rho) (Some "fit") (Smo o) mags Source (Some fp) stations events freq_bands streams = Ok (Some r) ->
      dget String.eqb r "v0" = Some (RV0 v) ->
      exists l, lists_in r false false (map fst freq_bands) stations events l /\
        true_results false false site source b stations events freq_bands
          (fun f band st v => exists p, sites_at fp f p /\ used env (Some p) band streams st v) l /\
        true_moments r events l (o_num_points o) M.
    Proof.
      intros ND TI TS SY H DV.
      destruct (source_all env streams OWN PR site source b g0 stations events freq_bands after rlm1 lin2 min1 minN _ _ _ _ fp r NS NE ND TI TS SY H) as (l & LI & TR).
      exists l. split; [exact LI|]. split; [exact TR|].
      apply (fitted Source (Some fp) r false false l (fun f band st v => exists p, sites_at fp f p /\ used env (Some p) band streams st v)); auto.
      intros f band st v' IN (p & SA & US). destruct (SY f band (Some p) st v' IN ltac:(exists p; auto) US) as (_ & PO & _). exact PO.
    Qed.
  End Fit.
End C.
