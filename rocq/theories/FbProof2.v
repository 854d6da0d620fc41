(** Proofs about noise, energies and dictionaries in a frequency band. *)
From Coq Require Import String List Bool Reals Lra Lia ZArith Arith.
From Verif Require Import Base Pyf PyfOps SmoothModel FbModel FbSpec FbProof.
Import ListNotations.
Open Scope string_scope.
Open Scope list_scope.
Open Scope R_scope.

Lemma hundredth nr : fdiv (FNum nr) (FNum 100) = FNum (nr / 100).
Proof. apply fdiv_num. lra. Qed.

Lemma subtract_num nr d k x : nth_error d k = Some (FNum x) ->
  exists y, nth_error (subtract_noise (FNum nr) d) k = Some (FNum y) /\ reduced nr x y.
Proof.
  intros H. unfold subtract_noise. rewrite map_map, nth_error_map, H. cbn [option_map].
  rewrite hundredth. cbn [fsub fneg fadd fltb]. unfold reduced.
  destruct (rltb_dec (x + - nr) (nr / 100)) as [[-> L]|[-> L]].
  - eexists. split; [reflexivity|]. split; intros; lra.
  - eexists. split; [reflexivity|]. split; intros; lra.
Qed.

Lemma subtract_all nr d y : In y (subtract_noise (FNum nr) d) ->
  y = FNan \/ y = FPInf \/ exists r, y = FNum r /\ nr / 100 <= r.
Proof.
  unfold subtract_noise. rewrite map_map. intros I. apply in_map_iff in I. destruct I as (x & E & _).
  rewrite hundredth in E. destruct x as [| | |x]; cbn [fsub fneg fadd fltb] in E; auto.
  - right. right. exists (nr / 100). split; [auto|lra].
  - right. right. destruct (rltb_dec (x + - nr) (nr / 100)) as [[Q L]|[Q L]]; rewrite Q in E;
      subst y; eexists; (split; [reflexivity|]); lra.
Qed.

Section P.
  Context {W : Type}.
  Variable o : fbopts W.

  Lemma noise_levels_spec e nws : forall ls, noise_levels o e nws = Ok ls -> levels o e nws ls.
  Proof.
    induction nws as [|nw nws IH]; cbn [noise_levels]; intros ls H.
    - injection H as <-. constructor.
    - destruct (o_tw2utc o nw e) as [w|] eqn:T; [|discriminate]. cbn [bind] in H.
      destruct (o_slice o e w) as [s|x] eqn:S.
      + destruct (noise_levels o e nws) as [ls'|] eqn:N; [|discriminate]. cbn [bind] in H.
        injection H as <-.
        destruct (negb (Nat.eqb (List.length (edata s)) 0) && forallb fisfinite (edata s)) eqn:C.
        * apply andb_true_iff in C. destruct C as [C1 C2]. eapply lev_use; eauto.
          -- intros D. rewrite D in C1. discriminate.
          -- rewrite forallb_forall in C2. intros x I. specialize (C2 x I).
             destruct x; try discriminate. eauto.
        * eapply lev_bad; eauto. apply andb_false_iff in C. destruct C as [C|C].
          -- left. apply negb_false_iff, Nat.eqb_eq in C. now destruct (edata s).
          -- right. assert (X : exists x, In x (edata s) /\ fisfinite x = false).
             { clear - C. induction (edata s) as [|x d IH]; [discriminate|]. cbn in C.
               apply andb_false_iff in C. destruct C as [C|C].
               - exists x. split; [now left|exact C].
               - destruct (IH C) as (y & I & Y). exists y. split; [now right|exact Y]. }
             destruct X as (x & I & X). exists x. split; [exact I|]. intros r ->. discriminate.
      + destruct x; try discriminate. eapply lev_outside; eauto.
  Qed.

  Lemma adjust_spec e e' : adjust_onset o e = Ok e' ->
    onset_adjusted o e e' /\ uid e' = uid e /\ edata e' = edata e.
  Proof.
    unfold adjust_onset, onset_adjusted. destruct (o_adjust_maximum o); [|now intros [= <-]].
    destruct (match o_adjust_window o with Some w => Some w | None => o_bulk_window o end)
      as [w|]; [|discriminate].
    destruct (o_tw2utc o w e) as [mw|] eqn:T; [|discriminate]. cbn [bind].
    destruct (o_slice o e mw) as [s|] eqn:S; [|discriminate]. cbn [bind].
    destruct (fargmax (edata s)) as [i|] eqn:A; [|discriminate]. cbn [bind]. intros [= <-].
    split; [|split; reflexivity]. exists w, mw, s, i. repeat split; auto.
  Qed.

  Lemma noise_step_spec P e post es' :
    NoDup (map uid (P ++ e :: post)) -> noise_step o (P ++ e :: post) e = Ok es' ->
    (exists e1 e2, denoised o e e1 /\ onset_adjusted o e1 e2 /\ uid e2 = uid e /\
       es' = P ++ e2 :: post) \/
    (no_level o e /\ es' = P ++ post).
  Proof.
    intros ND H. destruct (nodup_middle _ _ _ ND) as (N1 & N2 & N3). unfold noise_step in H.
    destruct (o_noise_windows o) as [nws|] eqn:NW; [|discriminate].
    destruct (noise_levels o e nws) as [ls|] eqn:NL; [|discriminate]. cbn [bind] in H.
    apply noise_levels_spec in NL. destruct ls as [|l0 ls].
    - destruct (o_remove_noise o) eqn:RN.
      + injection H as <-. right. rewrite remove_middle by auto.
        split; [|reflexivity]. split; [exact RN|]. eauto.
      + destruct (adjust_onset o e) as [e2|] eqn:A; [|discriminate]. cbn [bind] in H.
        injection H as <-. apply adjust_spec in A. destruct A as (A & U & D).
        left. exists e, e2. split.
        * exists nws, []. auto.
        * split; [exact A|]. split; [exact U|]. apply update_middle; rewrite ?U; auto.
    - destruct (o_noise_func o (l0 :: ls)) as [n|] eqn:F; [|discriminate]. cbn [bind] in H.
      destruct (edata e) as [|d0 d] eqn:D; [discriminate|].
      set (e1 := if o_remove_noise o then _ else _) in H.
      destruct (adjust_onset o e1) as [e2|] eqn:A; [|discriminate]. cbn [bind] in H.
      injection H as <-. apply adjust_spec in A. destruct A as (A & U & _).
      assert (U1 : uid e1 = uid e) by (unfold e1; destruct (o_remove_noise o); reflexivity).
      left. exists e1, e2. split.
      + exists nws, (l0 :: ls). split; [exact NW|]. split; [exact NL|].
        exists n. split; [exact F|]. unfold e1.
        destruct (o_remove_noise o); cbn; (repeat (split; [reflexivity|])).
        * split; [discriminate|]. intros _. rewrite D.
          split; [unfold subtract_noise; now rewrite !map_length|].
          split; intros nr; intros; subst n; [now apply subtract_num|now apply (subtract_all nr (d0 :: d))].
        * discriminate.
      + split; [exact A|]. split; [congruence|]. apply update_middle; rewrite ?U, ?U1; auto.
  Qed.

  Lemma noise_loop_from post : forall P es',
    NoDup (map uid (P ++ post)) -> loop (noise_step o) (P ++ post) post = Ok es' ->
    exists Q, es' = P ++ Q /\ noise_treated o post Q /\ NoDup (map uid es').
  Proof.
    induction post as [|e post IH]; intros P es' ND H; cbn [loop] in H.
    - injection H as <-. exists []. rewrite app_nil_r in *. split; [reflexivity|]. split; [constructor|auto].
    - destruct (noise_step o (P ++ e :: post) e) as [es1|] eqn:S; [|discriminate]. cbn [bind] in H.
      destruct (nodup_middle _ _ _ ND) as (N1 & N2 & N3).
      destruct (noise_step_spec _ _ _ _ ND S) as [(e1 & e2 & D & A & U & ->)|(NL & ->)].
      + destruct (IH (P ++ [e2]) es') as (Q & -> & T & ND').
        * rewrite <- app_assoc. cbn. now apply N3.
        * rewrite <- app_assoc. exact H.
        * exists (e2 :: Q). rewrite <- app_assoc in *. split; [reflexivity|].
          split; [econstructor; eauto|exact ND'].
      + destruct (IH P es') as (Q & -> & T & ND').
        * rewrite map_app in ND. cbn [map] in ND. apply NoDup_remove in ND.
          rewrite map_app. tauto.
        * exact H.
        * exists Q. split; [reflexivity|]. split; [now constructor|exact ND'].
  Qed.

  (** C52 *)
  Lemma noise_loop_spec es es' :
    NoDup (map uid es) -> noise_loop o es = Ok es' ->
    noise_treated o es es' /\ NoDup (map uid es').
  Proof.
    intros ND H. destruct (noise_loop_from es [] es' ND H) as (Q & -> & T & N). auto.
  Qed.

  Lemma onset_adjusted_data e e' : onset_adjusted o e e' ->
    edata e' = edata e /\ enoise e' = enoise e.
  Proof.
    unfold onset_adjusted. destruct (o_adjust_maximum o); [|intros ->; auto].
    intros (w & mw & s & i & _ & _ & _ & _ & ->). auto.
  Qed.

  (** C52: energies stay positive *)
  Lemma noise_positive es es' e n :
    NoDup (map uid es) -> noise_loop o es = Ok es' -> o_remove_noise o = true ->
    In e es' -> enoise e = Some (FNum n) -> 0 < n ->
    forall y, In y (edata e) -> y = FNan \/ y = FPInf \/ exists r, y = FNum r /\ n / 100 <= r /\ 0 < r.
  Proof.
    intros ND H RN I EN N y Y. destruct (noise_loop_spec _ _ ND H) as [T _]. clear H ND.
    induction T as [|e0 e1 e2 es es' D A T IH|e0 es es' NL T IH]; [destruct I| |auto].
    destruct I as [<-|I]; [|auto].
    apply onset_adjusted_data in A. destruct A as [A1 A2]. rewrite A1 in Y. rewrite A2 in EN.
    destruct D as (nws & ls & NW & L & D). destruct ls as [|l0 ls]; [destruct D; congruence|].
    destruct D as (n' & F & EN' & _ & _ & _ & _ & _ & _ & _ & _ & _ & _ & D).
    destruct (D RN) as (_ & _ & D2). rewrite EN in EN'. injection EN' as <-.
    destruct (D2 n y eq_refl Y) as [?|[?|(r & -> & L')]]; auto.
    right. right. exists r. split; [reflexivity|]. split; [exact L'|]. lra.
  Qed.
End P.

(** ** Energies of streams *)
Section E.
  Context {S : Type}.
  Variables (freqmin freqmax : R) (fix_sites : option (option (list (string * pyf))))
    (filtered : stream S -> bandfilter -> res S) (width : R -> bandfilter -> res R)
    (free_surface : fsopt) (borehole : list string)
    (observed : stream S -> S -> R -> R -> res etrace).

  Lemma stream_energy_spec s r :
    stream_energy freqmin freqmax fix_sites filtered width free_surface borehole observed s = Ok r ->
    match r with
    | Some e => in_band freqmin freqmax fix_sites s /\
        energy_of freqmin freqmax filtered width free_surface borehole observed s (Ok e)
    | None => ~ in_band freqmin freqmax fix_sites s \/
        in_band freqmin freqmax fix_sites s /\ exists x,
        energy_of freqmin freqmax filtered width free_surface borehole observed s (Err x) /\
        x <> KeyboardInterrupt /\ x <> SystemExit
    end.
  Proof.
    unfold stream_energy. intros H.
    destruct (rltb_dec (s_sr s) (freqmin + freqmax)) as [[E L]|[E L]]; rewrite E in H.
    { injection H as <-. left. intros [B _]. lra. }
    assert (L2 : (freqmin + freqmax) / 2 <= s_sr s / 2) by lra.
    set (ns := match fix_sites with None => Ok false | Some None => Err KeyError | Some (Some p) => _ end) in H.
    destruct ns as [b|] eqn:NS; [|discriminate]. cbn [bind] in H.
    assert (B : if b then ~ in_band freqmin freqmax fix_sites s
                else in_band freqmin freqmax fix_sites s).
    { unfold ns in NS. unfold in_band. destruct fix_sites as [[p|]|]; [|discriminate|].
      - injection NS as <-. destruct (dget String.eqb p (s_sta s)) as [v|].
        + destruct v; cbn; try (split; [exact L2|]; eexists; split; [reflexivity|discriminate]).
          intros (_ & v & [= <-] & N). congruence.
        + cbn. intros (_ & v & [=] & _).
      - injection NS as <-. auto. }
    destruct b; [injection H as <-; now left|].
    set (fu := if rltb _ _ then _ else _) in H.
    destruct (filtered s fu) as [d|] eqn:F; [|discriminate]. cbn [bind] in H.
    destruct (width (s_sr s) fu) as [df|] eqn:WI; [|discriminate]. cbn [bind] in H.
    set (fs := match free_surface with FsOne x => x | FsTwo a b => _ end) in H.
    assert (EO : energy_of freqmin freqmax filtered width free_surface borehole observed s (observed s d df fs)).
    { exists fu, d, df, fs. split.
      - unfold fu. destruct (rltb_dec (0.495 * s_sr s) freqmax) as [[-> Q]|[-> Q]]; auto.
      - split; [exact F|]. split; [exact WI|]. split; [|reflexivity].
        unfold fs. destruct free_surface as [x|a b]; [reflexivity|].
        destruct (inb String.eqb (s_sta s) borehole) eqn:I.
        + left. split; [|reflexivity]. now apply (inb_In String.eqb string_eqb_spec).
        + right. split; [|reflexivity]. intros J.
          apply (inb_In String.eqb string_eqb_spec) in J. congruence. }
    destruct (observed s d df fs) as [e|x].
    - injection H as <-. auto.
    - destruct x; try discriminate; injection H as <-; right;
        (split; [exact B|eexists; split; [exact EO|split; discriminate]]).
  Qed.

  (** C51: energies *)
  Lemma stream_energies_spec ss : forall es,
    stream_energies freqmin freqmax fix_sites filtered width free_surface borehole observed ss = Ok es ->
    energies_of freqmin freqmax fix_sites filtered width free_surface borehole observed ss es.
  Proof.
    induction ss as [|s ss IH]; cbn [stream_energies]; intros es H.
    - injection H as <-. constructor.
    - destruct (stream_energy _ _ _ _ _ _ _ _ s) as [r|] eqn:E; [|discriminate]. cbn [bind] in H.
      destruct (stream_energies _ _ _ _ _ _ _ _ ss) as [es'|]; [|discriminate]. cbn [bind] in H.
      injection H as <-. apply stream_energy_spec in E. destruct r as [e|].
      + destruct E. constructor; auto.
      + destruct E as [N|(B & x & X & K1 & K2)]; [apply en_out; auto|apply (en_fail _ _ _ _ _ _ _ _ s x); auto].
  Qed.
End E.
