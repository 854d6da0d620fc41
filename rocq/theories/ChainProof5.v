From Coq Require Import String List Bool Reals Lra Lia ZArith Arith.
From Verif Require Import Base Pyf PyfOps FbModel FbSpec FbProof FbProof2 FbProof3 LsqfbModel LsqfbSpec LsqfbProof3 SourceModel InvModel ChainModel ChainSpec ChainProof ChainProof3 ChainSpec2.
From Verif Require DepProof.
Import ListNotations.
Open Scope string_scope.
Open Scope list_scope.
Open Scope R_scope.

Lemma mean_const x l : l <> [] -> (forall y, In y l -> y = FNum x) -> fmean l = FNum x.
Proof.
  intros N H. unfold fmean.
  assert (E : fsum l = FNum (INR (List.length l) * x)).
  { clear N. induction l as [|y l IH]; [cbn; f_equal; ring|]. cbn [fsum fold_right]. change (fold_right fadd (FNum 0) l) with (fsum l).
    rewrite IH by (intros; apply H; now right). rewrite (H y) by now left. cbn [fadd List.length]. rewrite S_INR. f_equal. ring. }
  rewrite E. cbn. assert (INR (List.length l) <> 0) by (apply not_0_INR; destruct l; [contradiction|discriminate]).
  destruct (Req_EM_T _ _); [contradiction|]. f_equal. field. assumption.
Qed.

Lemma levels_const {W} (o : fbopts W) e n nws ls : levels o e nws ls ->
  (forall nw w s x, In nw nws -> o_tw2utc o nw e = Ok w -> o_slice o e w = Ok s -> In x (edata s) -> x = FNum n) ->
  forall x, In x ls -> x = FNum n.
Proof.
  induction 1 as [|nw w s nws ls T SL NE _ _ IH|nw w s nws ls _ _ _ _ IH|nw w nws ls _ _ _ IH]; intros H x; [intros []| | |].
  - intros [<-|I]; [|eapply IH; eauto; intros; eapply H; eauto; now right].
    apply mean_const; [exact NE|]. intros y Y. apply (H nw w s y); auto. now left.
  - intros I. eapply IH; eauto. intros; eapply H; eauto; now right.
  - intros I. eapply IH; eauto. intros; eapply H; eauto; now right.
Qed.

Lemma treated_denoised {W} (o : fbopts W) es es' : o_adjust_maximum o = false ->
  noise_treated o es es' -> forall e', In e' es' -> exists e, In e es /\ denoised o e e'.
Proof.
  intros A. induction 1 as [|e e1 e2 es es' D O _ IH|e es es' N _ IH]; intros x.
  - intros [].
  - unfold onset_adjusted in O. rewrite A in O. subst e2. intros [<-|I]; [eauto using in_eq|].
    destruct (IH x I) as (y & Y & Q). eauto using in_cons.
  - intros I. destruct (IH x I) as (y & Y & Q). eauto using in_cons.
Qed.

Lemma denoised_header {W} (o : fbopts W) e e' : denoised o e e' -> same_header e e'.
Proof.
  intros (nws & ls & _ & _ & D). destruct ls as [|l ls].
  - destruct D as [_ ->]. repeat split.
  - destruct D as (n & _ & _ & D). unfold same_header. tauto.
Qed.

Lemma treated_nodup {W B} (f : etrace -> B) (o : fbopts W) es es' : o_adjust_maximum o = false ->
  (forall e e', same_header e e' -> f e' = f e) ->
  noise_treated o es es' -> NoDup (map f es) -> NoDup (map f es').
Proof.
  intros A F. induction 1 as [|e e1 e2 es es' D O T IH|e es es' N _ IH]; intros ND; cbn [map] in *.
  - constructor.
  - inversion ND as [|? ? NI ND']; subst. unfold onset_adjusted in O. rewrite A in O. subst e2.
    constructor; [|auto]. rewrite (F e e1 (denoised_header _ _ _ D)). intros I. apply NI.
    apply in_map_iff in I. destruct I as (x & E & I). destruct (treated_denoised o es es' A T x I) as (y & Y & Q).
    apply in_map_iff. exists y. split; [|exact Y]. rewrite <- E. symmetry. apply F. exact (denoised_header _ _ _ Q).
  - inversion ND; subst. auto.
Qed.

(** the treated trace is free of noise *)
Lemma denoised_synthetic {W} (o : fbopts W) G site source b v n e e' :
  0 < site (sta e) -> 0 < source (evid e) ->
  synthetic_trace G site source b v n e -> noise_handled o n e -> denoised o e e' ->
  synthetic_trace G site source b v 0 e'.
Proof.
  intros SP WP (SR & DP & SX) NH D. assert (Q := denoised_header _ _ _ D).
  destruct Q as (_ & Q1 & Q2 & Q3 & Q4 & Q5 & _ & Q6 & Q7).
  split; [now rewrite Q4, Q5|]. split; [now rewrite Q5|]. intros k x X K. rewrite Q3, Q5, Q6 in K.
  assert (L : lapse e' v k = lapse e v k) by (unfold lapse; now rewrite Q3, Q5, Q6, Q7). rewrite L, Q1, Q2, Q7.
  destruct D as (nws & ls & NW & LV & D). unfold noise_handled in NH.
  assert (XK : exists x0, nth_error (edata e) k = Some x0 /\
    forall y, n / 100 <= y -> x0 = FNum (y + n) -> x = FNum (y + 0)).
  { destruct (o_remove_noise o) eqn:RN.
    - destruct NH as [NO NF]. destruct ls as [|l ls]; [destruct D; discriminate|].
      destruct D as (nn & FN & _ & _ & _ & _ & _ & _ & _ & _ & _ & _ & _ & D). destruct (D eq_refl) as (LE & RE & _).
      assert (FC : forall z, In z (l :: ls) -> z = FNum n) by (apply (levels_const o e n nws _ LV); intros; eapply NO; eauto).
      rewrite (NF (l :: ls) ltac:(discriminate) FC) in FN. injection FN as <-.
      destruct (nth_error (edata e) k) as [x0|] eqn:X0.
      2:{ apply nth_error_None in X0. assert (nth_error (edata e') k = None) by (apply nth_error_None; lia). congruence. }
      exists x0. split; [reflexivity|]. intros y HY ->. destruct (RE n k _ eq_refl X0) as (z & Z & RD & _).
      rewrite X in Z. injection Z as ->. f_equal. rewrite RD by lra. ring.
    - subst n. assert (E : edata e' = edata e).
      { destruct ls as [|l ls]; [now destruct D as [_ ->]|]. destruct D as (nn & _ & _ & _ & _ & _ & _ & _ & _ & _ & _ & _ & D & _). now apply D. }
      exists x. rewrite <- E. split; [exact X|]. intros y _ ->. reflexivity. }
  destruct XK as (x0 & X0 & XK). destruct (SX k x0 X0 K) as (y & Y & GP & EX & HY).
  exists y. split; [exact Y|]. split; [exact GP|]. split; [exact (XK y HY EX)|].
  assert (0 < y); [|lra]. rewrite Y. repeat apply Rmult_lt_0_compat; auto. apply exp_pos.
Qed.

Section P.
  Context {W S : Type}.
  Variable env : cenv W S.
  Variable streams : list (stream S).
  Hypothesis OWN : own_objects env streams.
  Hypothesis PAIRS : own_pairs env streams.

  Lemma energies_observed f1 f2 fx ss es :
    energies_of f1 f2 fx (ce_filtered env) (ce_width env) (ce_free_surface env) (ce_borehole env) (ce_observed env) ss es ->
    (forall s, In s ss -> In s streams) -> NoDup (map (fun s => (s_evid s, s_sta s)) ss) ->
    (NoDup (map get_pair es) /\ forall p, In p (map get_pair es) -> In p (map (fun s => (s_evid s, s_sta s)) ss)) /\
    forall e, In e es -> observed_in env streams (f1, f2) e.
  Proof.
    destruct PAIRS as [_ OB]. induction 1 as [|s e ss es IB EO E IH|s ss es IB E IH|s x ss es IB EO _ _ E IH]; intros SUB ND; cbn [map] in *.
    - split; [split; [constructor|auto]|intros e []].
    - inversion ND as [|? ? NI ND']; subst. destruct IH as [[N U] O]; [intros; apply SUB; now right|assumption|].
      pose proof EO as EO'. destruct EO' as (fu & d & df & fs & _ & _ & _ & _ & Q).
      destruct (OB s d df fs e ltac:(apply SUB; now left) Q) as [Q1 Q2].
      assert (G : get_pair e = (s_evid s, s_sta s)) by (unfold get_pair; now rewrite Q1, Q2). rewrite G. split.
      + split; [constructor; auto|]. intros p [<-|I]; [now left|right; auto].
      + intros e' [<-|I]; [|auto]. exists s. split; [apply SUB; now left|]. split; [exact (proj1 IB)|exact EO].
    - inversion ND; subst. destruct IH as [[N U] O]; [intros; apply SUB; now right|assumption|]. split; [split; [exact N|]|exact O]. intros p I. right. auto.
    - inversion ND; subst. destruct IH as [[N U] O]; [intros; apply SUB; now right|assumption|]. split; [split; [exact N|]|exact O]. intros p I. right. auto.
  Qed.

  Variables (G : R -> R -> R) (site source : string -> R) (b v : R) (n : string * string -> R) (g0 : pyf) (band : R * R).
  Hypothesis PL : plain (ce_select env) (observed_in env streams band).
  Hypothesis V0 : ce_v0 env = Some v.
  Hypothesis SYN : forall e, observed_in env streams band e ->
    0 < site (sta e) /\ 0 < source (evid e) /\ synthetic_trace G site source b v (n (evid e, sta e)) e /\
    noise_handled (ce_select env) (n (evid e, sta e)) e.
  Hypothesis PW : pointwise env v g0 G.

  (** a coda window starts at a sample behind the onset *)
  Lemma coda_start e e' cw : observed_in env streams band e -> same_header e e' -> coda_window_is (ce_select env) e' cw ->
    exists k, fst cw = (estart e + Z.of_nat k * edelta e)%Z /\ (esonset e < fst cw)%Z.
  Proof.
    intros O A (cw0 & T & L0 & C). destruct PL as (_ & _ & _ & SK & _ & ST).
    assert (K := ST e e' cw0 O A T).
    destruct (o_cut_coda (ce_select env)); [|now subst cw].
    destruct C as (wide & s & tmin & _ & _ & _ & E & L). destruct tmin as [t|]; [|now subst cw].
    subst cw. unfold long_enough in L. cbn [fst snd] in *.
    assert (LT : (Z.min (fst cw0) t < t)%Z).
    { apply lt_IZR. rewrite minus_IZR in L. lra. }
    replace (Z.min (fst cw0) t) with (fst cw0) by lia. exact K.
  Qed.

  Lemma used_synthetic sites st v' : used env sites band streams st v' ->
    positive_on (map snd (pairs st)) site /\ positive_on (map fst (pairs st)) source /\
    synthetic_data env st v' g0 site source b.
  Proof.
    intros (es & ES & SD). apply stream_energies_spec in ES.
    destruct (energies_uids env streams OWN _ _ _ _ _ ES (fun s I => I) (proj1 OWN)) as [NDU _].
    destruct (energies_observed _ _ _ _ _ ES (fun s I => I) (proj1 PAIRS)) as [[NDP _] OBS].
    replace (fst band, snd band) with band in OBS by now destruct band.
    destruct (select_result _ _ _ _ NDU SD) as (es' & NT & VI & WL & _). rewrite V0 in VI. cbn in VI. subst v'.
    pose proof PL as (NB & NS & NA & _ & SL & _).
    assert (AI := treated_denoised _ _ _ NA NT).
    assert (NDU' := treated_nodup uid _ _ _ NA (fun e e' H => proj1 H) NT NDU).
    assert (HP : forall e e', same_header e e' -> get_pair e' = get_pair e).
    { intros e e' (_ & E1 & E2 & _). unfold get_pair. now rewrite E1, E2. }
    assert (NDP' := treated_nodup get_pair _ _ _ NA HP NT NDP).
    destruct (window_alignment _ _ _ _ NDU' WL) as (_ & _ & _ & AL).
    assert (DI := window_distances _ _ _ _ NDU' NDP' WL).
    (* the trace behind an entry *)
    assert (TR : forall i p, nth_error (pairs st) i = Some p -> exists e ob, observed_in env streams band e /\
      denoised (ce_select env) e (ob_from ob) /\ observation (ce_select env) v ob /\ ob_trace ob = ob_from ob /\ p = get_pair e /\
      dget pair_eqb (w_distances st) p = Some (edist e) /\
      nth_error (w_ecoda st) i = Some (ob_coda ob) /\ nth_error (w_tcoda st) i = Some (ob_times ob)).
    { intros i p P. unfold pairs in P. rewrite nth_error_map in P. destruct (nth_error (w_energies st) i) as [x|] eqn:X; [|discriminate].
      cbn in P. injection P as <-. destruct (AL i x X) as (ob & IN & OB & TX & EC & TC & _).
      assert (SM : ob_trace ob = ob_from ob) by (destruct OB as (SM & _); unfold smoothed in SM; now rewrite NS in SM).
      destruct (AI _ IN) as (e & IE & AE). exists e, ob. assert (HE := denoised_header _ _ _ AE).
      assert (GX : get_pair x = get_pair e) by (rewrite <- TX, SM; exact (HP _ _ HE)).
      assert (DX : edist x = edist e) by (rewrite <- TX, SM; destruct HE as (_ & _ & _ & _ & _ & _ & _ & _ & Q); exact Q).
      split; [apply OBS, IE|]. split; [exact AE|]. split; [exact OB|]. split; [exact SM|]. split; [exact GX|].
      split; [|split; [exact EC|exact TC]]. rewrite <- DX. apply (DI x (nth_error_In _ _ X)). }
    split; [|split; [|split]].
    - intros y Y. apply in_map_iff in Y. destruct Y as (p & <- & Y). apply In_nth_error in Y. destruct Y as (i & Y).
      destruct (TR i p Y) as (e & ob & OE & _ & _ & _ & -> & _). apply (SYN e OE).
    - intros y Y. apply in_map_iff in Y. destruct Y as (p & <- & Y). apply In_nth_error in Y. destruct Y as (i & Y).
      destruct (TR i p Y) as (e & ob & OE & _ & _ & _ & -> & _). apply (SYN e OE).
    - intros i p r t en gs P D T E GC. destruct (TR i p P) as (e & ob & OE & AE & OB & SM & -> & DE & EC & TC).
      rewrite D in DE. rewrite E in EC. rewrite T in TC. injection DE as ->. injection EC as ->. injection TC as ->.
      destruct OB as (_ & _ & (cw & s & CW & US & CD & TO) & _). rewrite SM in CW, US, TO.
      assert (HE := denoised_header _ _ _ AE). destruct (coda_start e _ cw OE HE CW) as (k & K & ON).
      destruct HE as (_ & Q6 & Q7 & Q1 & Q2 & Q3 & _ & Q4 & Q5).
      destruct (SYN e OE) as (SP & WP & ST & NH).
      destruct (denoised_synthetic _ _ _ _ _ _ _ _ _ SP WP ST NH AE) as (SR & DP & SX). clear ST NH.
      destruct US as (US & _). destruct TO as [LT TO]. rewrite CD. rewrite <- Q1, <- Q3 in K. rewrite <- Q4 in ON.
      set (e' := ob_from ob) in *. rewrite <- Q5 in GC.
      assert (TI : forall j, (j < List.length (edata s))%nat -> nth j (ob_times ob) 0 = lapse e' v (k + j)).
      { intros j J. rewrite (TO j J). unfold lapse. rewrite K.
        rewrite Nat2Z.inj_add, !minus_IZR, !plus_IZR, !mult_IZR, plus_IZR, <- !INR_IZR_INZ.
        assert (NZ : IZR (edelta e') <> 0) by (apply not_0_IZR; lia).
        assert (ES1 : esr e' = 1000000000 / IZR (edelta e')) by (apply (Rmult_eq_reg_r (IZR (edelta e') / 1000000000)); [|lra];
          rewrite SR; field; lra).
        rewrite ES1. generalize (edist e' / v) as z. intros z. field. lra. }
      assert (BE : forall j, (j < List.length (edata s))%nat -> (esonset e' < estart e' + Z.of_nat (k + j) * edelta e')%Z) by (intros; nia).
      assert (GS : gs = map (fun x => FNum (G (edist e') x)) (ob_times ob)).
      { apply (PW (edist e') (ob_times ob) gs); [|exact GC]. intros x X. destruct (In_nth _ _ 0 X) as (j & J & <-). rewrite LT in J.
        rewrite (TI j J). unfold lapse. assert (B := BE j J). apply IZR_lt in B.
        assert (0 < IZR (estart e' + Z.of_nat (k + j) * edelta e' - esonset e') / 1000000000); [|lra].
        rewrite minus_IZR. apply Rdiv_lt_0_compat; lra. }
      subst gs. apply Forall2_nth_intro.
      { rewrite combine_length, !map_length, LT. lia. }
      intros j te g TE GE. apply DepProof.nth_error_combine_inv in TE. destruct te as [tt ee]. cbn [fst snd] in TE. destruct TE as [TE EE].
      rewrite nth_error_map in TE, GE. destruct (nth_error (ob_times ob) j) as [x|] eqn:X; [|discriminate].
      cbn [option_map] in TE, GE. injection TE as <-. injection GE as <-.
      assert (J : (j < List.length (edata s))%nat) by (apply nth_error_Some; congruence).
      assert (XL : x = lapse e' v (k + j)) by (rewrite <- (TI j J); symmetry; now apply nth_error_nth).
      assert (SJ := SL e' cw s k DP US K j J). rewrite EE in SJ. symmetry in SJ.
      destruct (SX _ _ SJ (BE j J)) as (y & Y & GP & -> & _). exists x. eexists. exists (G (edist e') x).
      split; [reflexivity|]. split; [reflexivity|]. rewrite XL. split; [exact GP|]. rewrite Y, Q6, Q7. cbn [get_pair fst snd]. ring.
    - intros i p r w t en g P D TB T EB GB. exfalso.
      assert (E := no_bulk_loop _ _ _ _ _ NB WL eq_refl eq_refl). destruct E as [E1 E2]. rewrite E2 in T. destruct i; discriminate.
  Qed.
End P.

Lemma synthetic_from_energies {W S} (env : cenv W S) streams freq_bands v G g0 site source b n sites :
  own_objects env streams -> own_pairs env streams -> ce_v0 env = Some v ->
  (forall f band, In (f, band) freq_bands -> plain (ce_select env) (observed_in env streams band)) ->
  synthetic_energies env freq_bands streams v G site source b n ->
  (forall f band, In (f, band) freq_bands -> pointwise env v (g0 f) (G f)) ->
  synthetic_streams env sites freq_bands streams g0 site source b.
Proof.
  intros OWN PA V PL SY PW f band s st v' I _ U.
  exact (used_synthetic env streams OWN PA (G f) (site f) (source f) (b f) v (n f) (g0 f) band (PL f band I) V
    (fun e OE => SY f band e I OE) (PW f band I) s st v' U).
Qed.

Section C.
  Context {W S : Type}.
  Variables (env : cenv W S) (streams : list (stream S)).
  Variables (site source : R -> string -> R) (b : R -> R) (g0 : R -> pyf) (G : R -> R -> R -> R) (v : R) (n : R -> string * string -> R).
  Variables (stations events : list string) (freq_bands : list (R * (R * R))).
  Hypothesis OWN : own_objects env streams.
  Hypothesis PA : own_pairs env streams.
  Hypothesis PR : proper env.
  Hypothesis V : ce_v0 env = Some v.
  Hypothesis PL : forall f band, In (f, band) freq_bands -> plain (ce_select env) (observed_in env streams band).
  Hypothesis SY : synthetic_energies env freq_bands streams v G site source b n.
  Hypothesis PW : forall f band, In (f, band) freq_bands -> pointwise env v (g0 f) (G f).
  Hypothesis NS : NoDup stations.
  Hypothesis NE : NoDup events.

  Lemma energies_go after rlm1 lin2 min1 minN rho0 method so mags input r :
    one_scale env freq_bands streams site ->
    (forall f band st v, In (f, band) freq_bands -> used env None band streams st v -> two_times st) ->
    invert_streams env after rlm1 lin2 min1 minN rho0 method so mags Go input stations events freq_bands streams = Ok (Some r) ->
    found_g0 r freq_bands g0 ->
    exists l, lists_in r true true (map fst freq_bands) stations events l /\
      true_results true true site source b stations events freq_bands (fun _ band => used env None band streams) l.
  Proof.
    intros OS TT IV FG. eapply go_all; eauto. eapply synthetic_from_energies; eauto.
  Qed.

  Lemma energies_fixed after rlm1 lin2 min1 minN rho0 method so mags fp r :
    no_duplicates freq_bands fp -> true_input fp g0 b ->
    one_scale env freq_bands streams site ->
    invert_streams env after rlm1 lin2 min1 minN rho0 method so mags Fixed (Some fp) stations events freq_bands streams = Ok (Some r) ->
    exists l, lists_in r false true (map fst freq_bands) stations events l /\
      true_results false true site source b stations events freq_bands (fun _ band => used env None band streams) l.
  Proof.
    intros ND TI OS IV. eapply fixed_all; eauto. eapply synthetic_from_energies; eauto.
  Qed.

  Lemma energies_source after rlm1 lin2 min1 minN rho0 method so mags fp r :
    no_duplicates freq_bands fp -> true_input fp g0 b -> true_sites fp site ->
    invert_streams env after rlm1 lin2 min1 minN rho0 method so mags Source (Some fp) stations events freq_bands streams = Ok (Some r) ->
    exists l, lists_in r false false (map fst freq_bands) stations events l /\
      true_results false false site source b stations events freq_bands
        (fun f band st v => exists p, sites_at fp f p /\ used env (Some p) band streams st v) l.
  Proof.
    intros ND TI TS IV. eapply source_all; eauto. eapply synthetic_from_energies; eauto.
  Qed.
End C.
