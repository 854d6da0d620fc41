(** The results of invert for synthetic energies. *)
From Coq Require Import String List Bool Reals Lra Lia ZArith Arith.
From Verif Require Import Base Pyf PyfOps FreqsModel FreqsProof FbModel LsqfbModel LsqfbSpec LsqfbProof LsqfbProof2 LsqfbProof4 LsqfbProof5.
From Verif Require Import SourceModel InvModel InvSpec InvProof InvProof2 InvProof3 ChainModel ChainSpec ChainProof ChainProof2.
Import ListNotations.
Open Scope string_scope.
Open Scope list_scope.
Open Scope R_scope.

Section C.
  Context {W S : Type}.
  Variable env : cenv W S.
  Variable streams : list (stream S).
  Hypothesis OWN : own_objects env streams.
  Hypothesis PR : proper env.
  Variables (site source : R -> string -> R) (b : R -> R) (g0 : R -> pyf).
  Variables (stations events : list string) (freq_bands : bands).
  Variable after : fixkw pyf -> R * R -> list (stream S) -> list (stream S).
  Variables (rlm1 : list R -> R) (lin2 : bool -> list R -> list R -> R * R)
    (min1 : (R -> R) -> option (R * R) -> res R)
    (minN : (list R -> R) -> list R -> list (option (R * R)) -> res (list R))
    (rho0 : option R) (method : option string) (so : smo) (mags : string -> option R).

  Lemma streams_parts cmd input r :
    invert_streams env after rlm1 lin2 min1 minN rho0 method so mags cmd input stations events freq_bands streams = Ok (Some r) ->
    exists kw rlist, fix_kw cmd freq_bands input = Ok kw /\
      Forall2 (fun fb x => invert_fb env kw (snd fb) streams = Ok x) freq_bands rlist /\
      arrange cmd false chain_W (event_source rlm1 lin2 min1 minN rho0 method so mags) stations events freq_bands rlist = Ok (Some r).
  Proof.
    intros H. unfold invert_streams, invert_rest, station_names in H. cbn [bind] in H.
    destruct (fix_kw cmd freq_bands input) as [kw|]; [|discriminate]. cbn [bind] in H.
    match type of H with bind ?x _ = _ => destruct x as [rlist|] eqn:RS; [|discriminate] end. cbn [bind] in H.
    apply serial_alone in RS. exists kw, rlist. split; [reflexivity|]. split.
    - unfold each_alone in RS. cbn [snd] in RS. clear -RS. revert rlist RS.
      induction freq_bands as [|fb l IH]; intros rlist RS; cbn [map] in RS; inversion RS; subst; constructor; auto.
    - destruct PR as (_ & _ & CN & _). now rewrite <- CN at 1.
  Qed.

  Lemma band_synthetic kw band st v f : synthetic_data env st v (g0 f) (site f) (source f) (b f) ->
    synthetic_band (band_opts env kw band v) st (g0 f) (site f) (source f) (b f).
  Proof. intros H. exact H. Qed.

  Lemma go_all input r : NoDup stations -> NoDup events ->
    synthetic_streams env no_sites freq_bands streams g0 site source b ->
    one_scale env freq_bands streams site ->
    (forall f band st v, In (f, band) freq_bands -> used env None band streams st v -> two_times st) ->
    invert_streams env after rlm1 lin2 min1 minN rho0 method so mags Go input stations events freq_bands streams = Ok (Some r) ->
    found_g0 r freq_bands g0 ->
    exists l, lists_in r true true (map fst freq_bands) stations events l /\
      true_results true true site source b stations events freq_bands (fun _ band => used env None band streams) l.
  Proof.
    intros NS NE SY SC TT H FG. destruct (streams_parts _ _ _ H) as (kw & rlist & KW & F & A).
    cbn in KW. injection KW as <-.
    assert (LEN : List.length rlist = List.length freq_bands) by (clear -F; induction F; cbn; congruence).
    pose proof (arrange_aligned _ _ _ _ _ _ _ _ _ NS NE LEN A) as AA.
    destruct AA as (_ & GO & _). destruct (GO eq_refl) as (lg & _ & DG & AG & _).
    eapply (assemble Go site source b stations events freq_bands (fun _ band => used env None band streams)); [assumption|assumption| |exact A].
    apply Forall2_nth_intro; [auto|]. intros i [f band] x NF NX.
    destruct (nth_Forall2 _ _ _ _ _ F NF) as (x' & NX' & FB). rewrite NX in NX'. injection NX' as <-.
    destruct x as [br|]; [|exact I]. cbn [fst snd] in *.
    destruct (fb_result env streams OWN {| kw_fix := None; kw_fix_sites := None |} band None br eq_refl FB) as (st & v & fr & s & US & IB & ->).
    exists st, v. split; [exact US|].
    pose proof (nth_error_In _ _ NF) as INF.
    pose proof (used_aligned env streams OWN _ _ _ _ US) as AL.
    pose proof (run_nonempty _ _ _ _ _ AL IB) as NEC.
    destruct PR as (LS & PW & CN & R0 & PB & PG).
    pose proof (used_weights env streams OWN {| kw_fix := None; kw_fix_sites := None |} _ _ _ _ US PW NEC) as GW.
    destruct (SY f band None st v INF eq_refl US) as (PS & PO & SD).
    destruct (SC f band st v INF US) as (ON & MS).
    assert (G : exists g, fb_g0 fr = Some g).
    { destruct (fb_g0 fr) eqn:E; [eauto|]. exfalso.
      destruct (result_of _ _ _ _ PS PO _ _ _ IB) as (a & bs & rs & fi & s0 & _ & -> & _). discriminate. }
    destruct G as (g & G).
    assert (g = g0 f) as ->.
    { eapply FG; [exact DG|exact NF|]. rewrite (proj2 AG _ _ NX). cbn. now rewrite G. }
    destruct (result_go (band_opts env {| kw_fix := None; kw_fix_sites := None |} band v) st (site f) (source f) (b f) AL LS GW CN PS PO v fr s (g0 f)
      eq_refl eq_refl R0 MS ON (TT f band st v INF US) IB G SD) as (RB & RW & RR & RE).
    split; [exact (RE PB PG)|]. split; [intros _; exact RB|]. split; [intros _; exact RR|exact RW].
  Qed.

  (** the parameters of a band from the input *)
  Lemma fixed_params cmd fp kw i f band : cmd <> Go -> no_duplicates freq_bands fp -> true_input fp g0 b ->
    fix_kw cmd freq_bands (Some fp) = Ok kw -> nth_error freq_bands i = Some (f, band) ->
    exists p j, kw_fix kw = Some p /\ nth_error (fi_freq fp) j = Some f /\ dget reqb freq_bands f = Some band /\
      (forall x y, dget band_eqb p band = Some (Some x, Some y) -> x = g0 f /\ y = FNum (b f)).
  Proof.
    intros NG (N1 & N2 & N3 & N4) (L1 & L2 & TI) KW NF.
    assert (DF : dget reqb freq_bands f = Some band).
    { apply (dget_nodup reqb reqb_spec); [exact N1|]. exact (nth_error_In _ _ NF). }
    assert (IF : In f (fi_freq fp)).
    { destruct (in_dec Req_EM_T f (fi_freq fp)) as [I|NI]; [exact I|]. exfalso.
      rewrite (fix_kw_wrong cmd freq_bands fp f NG) in KW; [discriminate|]. intros Q. apply NI, Q.
      unfold dkeys. apply nth_error_In in NF. apply (in_map fst) in NF. exact NF. }
    apply In_nth_error in IF. destruct IF as (j & J).
    destruct (fix_kw_spec cmd freq_bands fp kw N2 N3 N4 KW j f band J DF) as (P & _).
    destruct (P NG) as (p & KP & DP). exists p, j. split; [exact KP|]. split; [exact J|]. split; [exact DF|].
    assert (JL : (j < List.length (fi_freq fp))%nat) by (apply nth_error_Some; congruence).
    destruct (nth_error (fi_g0 fp) j) as [gg|] eqn:EG; [|apply nth_error_None in EG; lia].
    destruct (nth_error (fi_b fp) j) as [bb|] eqn:EB; [|apply nth_error_None in EB; lia].
    specialize (DP gg bb eq_refl eq_refl). intros x y Q. rewrite DP in Q. injection Q as -> ->.
    destruct (TI j f J) as [T1 T2]. split; auto.
  Qed.

  Lemma fixed_all fp r : NoDup stations -> NoDup events -> no_duplicates freq_bands fp -> true_input fp g0 b ->
    synthetic_streams env no_sites freq_bands streams g0 site source b ->
    one_scale env freq_bands streams site ->
    invert_streams env after rlm1 lin2 min1 minN rho0 method so mags Fixed (Some fp) stations events freq_bands streams = Ok (Some r) ->
    exists l, lists_in r false true (map fst freq_bands) stations events l /\
      true_results false true site source b stations events freq_bands (fun _ band => used env None band streams) l.
  Proof.
    intros NS NE ND TI SY SC H. destruct (streams_parts _ _ _ H) as (kw & rlist & KW & F & A).
    assert (LEN : List.length rlist = List.length freq_bands) by (clear -F; induction F; cbn; congruence).
    eapply (assemble Fixed site source b stations events freq_bands (fun _ band => used env None band streams)); [assumption|assumption| |exact A].
    apply Forall2_nth_intro; [auto|]. intros i [f band] x NF NX.
    destruct (nth_Forall2 _ _ _ _ _ F NF) as (x' & NX' & FB). rewrite NX in NX'. injection NX' as <-.
    destruct x as [br|]; [|exact I]. cbn [fst snd] in *.
    destruct (fixed_params Fixed fp kw i f band ltac:(discriminate) ND TI KW NF) as (p & j & KP & J & DF & PAR).
    assert (KS : kw_fix_sites kw = None).
    { cbn in KW. destruct (fix_params freq_bands fp); [|discriminate]. cbn in KW. now injection KW as <-. }
    destruct (fb_result env streams OWN kw band None br ltac:(unfold band_sites; now rewrite KS) FB) as (st & v & fr & s & US & IB & ->).
    exists st, v. split; [exact US|].
    pose proof (nth_error_In _ _ NF) as INF.
    pose proof (used_aligned env streams OWN _ _ _ _ US) as AL.
    pose proof (run_nonempty _ _ _ _ _ AL IB) as NEC.
    destruct PR as (LS & PW & CN & R0 & PB & PG).
    pose proof (used_weights env streams OWN kw _ _ _ _ US PW NEC) as GW.
    destruct (SY f band None st v INF eq_refl US) as (PS & PO & SD).
    destruct (SC f band st v INF US) as (ON & MS).
    destruct (result_of _ _ _ _ PS PO _ _ _ IB) as (a & bs & rs & fi & s0 & _ & _ & K).
    assert (FP : l_fix_params (band_opts env kw band v) = Some (Some (g0 f), Some (FNum (b f)))).
    { destruct K as [(_ & g & bb & FPP & _)|(Q & _)]; [|cbn in Q; rewrite KP in Q; discriminate].
      rewrite FPP. cbn in FPP. rewrite KP in FPP. destruct (PAR _ _ FPP) as [-> ->]. reflexivity. }
    destruct (result_fixed (band_opts env kw band v) st (site f) (source f) (b f) AL LS GW CN PS PO v fr s (g0 f)
      ltac:(cbn; unfold band_sites; now rewrite KS) ltac:(cbn; now rewrite KP) R0 MS ON FP SD IB) as (RW & RR & RE).
    split; [exact RE|]. split; [discriminate|]. split; [intros _; exact RR|exact RW].
  Qed.

  (** the stations used have an entry among the fixed site responses *)
  Lemma source_sites o st v r s p : LsqfbSpec.aligned st -> l_fix_sites o = Some p -> invert_band o st v = Ok (Some r, s) ->
    forall x, In x (map snd (pairs st)) -> exists y, dget String.eqb p x = Some y.
  Proof.
    intros AL FS IB x I.
    destruct (result_of o st (fun _ => 1) (fun _ => 1) (fun _ _ => Rlt_0_1) (fun _ _ => Rlt_0_1) v r s IB) as (a & bs & rs & f & s0 & B & _ & _).
    unfold build in B. rewrite FS in B.
    destruct (mapM (row_fix_sites st p) _) as [rows|] eqn:M; [|now destruct (l_coda_norm o)]. clear B.
    apply (mapM_blocks st AL _ (row_sites st p)) in M; [|exact (row_fix_sites_of st p)].
    apply in_map_iff in I. destruct I as ((ev & sta) & E & I). cbn in E. subst sta.
    assert (IB2 : exists te, In ((ev, x), te) (blocks st)).
    { unfold blocks. destruct AL as (_ & LE & FT & _). apply In_nth_error in I. destruct I as (i & I).
      assert (LL : List.length (w_tcoda st) = List.length (w_ecoda st)) by (clear -FT; induction FT; cbn; congruence).
      set (l := map _ (combine (w_tcoda st) (w_ecoda st))).
      assert (L : List.length l = List.length (pairs st)) by (unfold l; rewrite map_length, combine_length; lia).
      assert (LT : (i < List.length (pairs st))%nat) by (apply nth_error_Some; congruence).
      destruct (nth_error l i) as [te|] eqn:T; [|apply nth_error_None in T; lia]. exists te.
      apply in_or_app. left. clearbody l. clear -I T. revert l i I T. generalize (pairs st) as ps.
      induction ps as [|q ps IH]; intros [|y l] [|i] I T; cbn in *; try discriminate.
      - injection I as ->. injection T as ->. now left.
      - right. eauto. }
    destruct IB2 as (te & IN). apply In_nth_error in IN. destruct IN as (k & IN).
    destruct (nth_Forall2 _ _ _ _ _ M IN) as (row & _ & RS). cbn [fst] in RS. unfold row_sites in RS.
    destruct (dget String.eqb p x) as [y|]; [eauto|discriminate].
  Qed.

  Lemma source_all fp r : NoDup stations -> NoDup events -> no_duplicates freq_bands fp -> true_input fp g0 b -> true_sites fp site ->
    synthetic_streams env (input_sites fp) freq_bands streams g0 site source b ->
    invert_streams env after rlm1 lin2 min1 minN rho0 method so mags Source (Some fp) stations events freq_bands streams = Ok (Some r) ->
    exists l, lists_in r false false (map fst freq_bands) stations events l /\
      true_results false false site source b stations events freq_bands
        (fun f band st v => exists p, sites_at fp f p /\ used env (Some p) band streams st v) l.
  Proof.
    intros NS NE ND TI TS SY H. destruct (streams_parts _ _ _ H) as (kw & rlist & KW & F & A).
    assert (LEN : List.length rlist = List.length freq_bands) by (clear -F; induction F; cbn; congruence).
    eapply (assemble Source site source b stations events freq_bands
      (fun f band st v => exists p, sites_at fp f p /\ used env (Some p) band streams st v)); [assumption|assumption| |exact A].
    apply Forall2_nth_intro; [auto|]. intros i [f band] x NF NX.
    destruct (nth_Forall2 _ _ _ _ _ F NF) as (x' & NX' & FB). rewrite NX in NX'. injection NX' as <-.
    destruct x as [br|]; [|exact I]. cbn [fst snd] in *.
    destruct (fixed_params Source fp kw i f band ltac:(discriminate) ND TI KW NF) as (p & j & KP & J & DF & PAR).
    destruct ND as (N1 & N2 & N3 & N4).
    destruct (fix_kw_spec Source freq_bands fp kw N2 N3 N4 KW j f band J DF) as (_ & Q & _).
    destruct (Q eq_refl) as (ps & sp & KS & DS & SP). clear Q.
    assert (SA : sites_at fp f sp) by (exists j; split; [exact J|exact SP]).
    assert (BS : band_sites kw band = Some (Some sp)) by (unfold band_sites; rewrite KS, DS; reflexivity).
    destruct (fb_result env streams OWN kw band (Some sp) br BS FB) as (st & v & fr & s & US & IB & ->).
    exists st, v. split; [exists sp; auto|].
    pose proof (nth_error_In _ _ NF) as INF.
    pose proof (used_aligned env streams OWN _ _ _ _ US) as AL.
    pose proof (run_nonempty _ _ _ _ _ AL IB) as NEC.
    destruct PR as (LS & PW & CN & R0 & PB & PG).
    pose proof (used_weights env streams OWN kw _ _ _ _ US PW NEC) as GW.
    destruct (SY f band (Some sp) st v INF ltac:(exists sp; auto) US) as (PS & PO & SD).
    destruct (result_of _ _ _ _ PS PO _ _ _ IB) as (a & bs & rs & fi & s0 & _ & _ & K).
    assert (FP : l_fix_params (band_opts env kw band v) = Some (Some (g0 f), Some (FNum (b f)))).
    { destruct K as [(_ & g & bb & FPP & _)|(Q & _)]; [|cbn in Q; rewrite KP in Q; discriminate].
      rewrite FPP. cbn in FPP. rewrite KP in FPP. destruct (PAR _ _ FPP) as [-> ->]. reflexivity. }
    assert (FS : l_fix_sites (band_opts env kw band v) = Some sp) by (cbn; now rewrite BS).
    assert (FX : l_fix (band_opts env kw band v) = true) by (cbn; now rewrite KP).
    destruct (result_source (band_opts env kw band v) st (site f) (source f) (b f) AL LS GW CN PS PO v fr s (g0 f) sp FS FX
      ltac:(intros x IX; destruct (source_sites _ _ _ _ _ _ AL FS IB x IX) as (y & Y); rewrite Y;
            apply SP in Y; destruct Y as (l & DL & NL); f_equal; exact (TS j f x l y J DL NL)) FP SD IB) as (RW & RE).
    split; [exact RE|]. split; [discriminate|]. split; [discriminate|exact RW].
  Qed.
End C.
