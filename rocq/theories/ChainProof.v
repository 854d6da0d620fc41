(** From the streams to the results of the bands. *)
From Coq Require Import String List Bool Reals Lra Lia ZArith Arith.
From Verif Require Import Base Pyf PyfOps FbModel FbSpec FbProof FbProof2 FbProof3 LsqfbModel LsqfbSpec LsqfbProof LsqfbProof2 LsqfbProof3 LsqfbProof4 LsqfbProof5.
From Verif Require Import SourceModel InvModel InvSpec InvProof ChainModel ChainSpec.
Import ListNotations.
Open Scope string_scope.
Open Scope list_scope.
Open Scope R_scope.

Lemma Forall2_nth_intro {A B} (P : A -> B -> Prop) (l : list A) : forall m, List.length l = List.length m ->
  (forall i x y, nth_error l i = Some x -> nth_error m i = Some y -> P x y) -> Forall2 P l m.
Proof.
  induction l as [|a l IH]; intros [|b m] L H; try discriminate; constructor.
  - exact (H 0%nat a b eq_refl eq_refl).
  - apply IH; [now injection L|]. intros i x y X Y. exact (H (S i) x y X Y).
Qed.

Section P.
  Context {W S : Type}.
  Variable env : cenv W S.
  Variable streams : list (stream S).
  Hypothesis OWN : own_objects env streams.

  Lemma energies_uids f1 f2 fx ss es :
    energies_of f1 f2 fx (ce_filtered env) (ce_width env) (ce_free_surface env) (ce_borehole env) (ce_observed env) ss es ->
    (forall s, In s ss -> In s streams) -> NoDup (map s_uid ss) ->
    NoDup (map uid es) /\ forall u, In u (map uid es) -> In u (map s_uid ss).
  Proof.
    destruct OWN as [_ OB]. induction 1 as [|s e ss es IB EO E IH|s ss es IB E IH|s x ss es IB EO _ _ E IH]; intros SUB ND; cbn [map] in *.
    - split; [constructor|auto].
    - inversion ND as [|? ? NI ND']; subst. destruct IH as [N U]; [intros; apply SUB; now right|assumption|].
      destruct EO as (fu & d & df & fs & _ & _ & _ & _ & O). rewrite (OB s d df fs e ltac:(apply SUB; now left) O).
      split; [constructor; auto|]. intros u [<-|I]; [now left|right; auto].
    - inversion ND; subst. destruct IH as [N U]; [intros; apply SUB; now right|assumption|]. split; [exact N|]. intros u I. right. auto.
    - inversion ND; subst. destruct IH as [N U]; [intros; apply SUB; now right|assumption|]. split; [exact N|]. intros u I. right. auto.
  Qed.

  Lemma select_loop v0 es st v : NoDup (map uid es) -> select_data (ce_select env) v0 es = Ok (Some (st, v)) ->
    exists es', NoDup (map uid es') /\ window_loop (ce_select env) v es' = Ok st /\ (0 < List.length (w_energies st))%nat /\
      (forall x, v0 = Some x -> v = x).
  Proof.
    intros ND SD. unfold select_data in SD. destruct (noise_loop (ce_select env) es) as [es2|] eqn:NL; [|discriminate]. cbn [bind] in SD.
    destruct (mean_velocity v0 es2) as [v2|] eqn:MV; [|discriminate].
    destruct (window_loop (ce_select env) v2 es2) as [st2|] eqn:W2; [|discriminate]. cbn [bind] in SD.
    destruct (FbModel.too_few (ce_select env) st2) eqn:TF; [discriminate|]. injection SD as <- <-.
    destruct (noise_loop_spec _ _ _ ND NL) as [_ ND']. exists es2. split; [exact ND'|]. split; [exact W2|]. split.
    - destruct (window_alignment _ _ _ _ ND' W2) as (L1 & _). unfold FbModel.too_few in TF. rewrite L1 in TF.
      destruct (List.length (w_energies st2)); [discriminate|lia].
    - intros x ->. cbn in MV. congruence.
  Qed.

  Lemma no_bulk_step o v st e st' : @o_bulk_window W o = None -> window_step o v st e = Ok st' ->
    w_ebulk st = [] -> w_tbulk st = [] -> w_ebulk st' = [] /\ w_tbulk st' = [].
  Proof.
    intros NB H E T. unfold window_step, bulk_part in H. rewrite NB in H. cbn [bind] in H.
    unfold smooth_stage in H. destruct (smooth_part o e) as [e1|]; [|discriminate]. cbn [bind] in H.
    unfold cut_stage in H. destruct (o_tw2utc o _ e1) as [cw|]; [|discriminate]. cbn [bind] in H.
    destruct (too_short o cw); [injection H as <-; cbn; auto|].
    destruct (cut_part o e1 cw _) as [[[cw'|] l]|]; cbn [bind] in H; [|injection H as <-; cbn; auto|discriminate].
    unfold maximum_stage in H. destruct (maximum_outside o e1) as [[|]|]; cbn [bind] in H; [injection H as <-; cbn; auto| |discriminate].
    unfold coda_stage in H. destruct (get_slice o e1 cw' _) as [[[s|] l']|]; cbn [bind] in H; [|injection H as <-; cbn; auto|discriminate].
    injection H as <-. cbn. auto.
  Qed.

  Lemma no_bulk_loop o v es : forall st st', @o_bulk_window W o = None -> loop (window_step o v) st es = Ok st' ->
    w_ebulk st = [] -> w_tbulk st = [] -> w_ebulk st' = [] /\ w_tbulk st' = [].
  Proof.
    induction es as [|e es IH]; intros st st' NB H E T; cbn [loop] in H; [injection H as <-; auto|].
    destruct (window_step o v st e) as [st1|] eqn:WS; [|discriminate]. cbn [bind] in H.
    destruct (no_bulk_step _ _ _ _ _ NB WS E T). eauto.
  Qed.

  Lemma used_loop sites band st v : used env sites band streams st v ->
    exists es', NoDup (map uid es') /\ window_loop (ce_select env) v es' = Ok st /\ (0 < List.length (w_energies st))%nat /\
      (forall x, ce_v0 env = Some x -> v = x).
  Proof.
    intros (es & ES & SD). apply stream_energies_spec in ES.
    destruct (energies_uids _ _ _ _ _ ES (fun s I => I) (proj1 OWN)) as [ND _].
    exact (select_loop _ _ _ _ ND SD).
  Qed.

  (** the lists of observations belong together *)
  Lemma used_aligned sites band st v : used env sites band streams st v -> LsqfbSpec.aligned st.
  Proof.
    intros U. destruct (used_loop _ _ _ _ U) as (es & ND & WL & LP & _).
    destruct (window_alignment _ _ _ _ ND WL) as (L1 & L2 & L3 & AL).
    assert (LP' : List.length (pairs st) = List.length (w_energies st)) by apply map_length.
    split; [intros E; rewrite E in LP'; cbn in LP'; lia|]. rewrite LP'. split; [exact L1|]. split; [|split].
    - apply Forall2_nth_intro; [lia|]. intros i t e T E.
      destruct (nth_error (w_energies st) i) as [x|] eqn:X.
      2:{ apply nth_error_None in X. assert (nth_error (w_tcoda st) i = None) by (apply nth_error_None; lia). congruence. }
      destruct (AL i x X) as (ob & _ & (_ & _ & (cw & s & _ & _ & OC & TO) & _) & _ & C & D & _).
      rewrite T in D. rewrite E in C. injection D as ->. injection C as ->. rewrite OC. apply TO.
    - destruct (o_bulk_window (ce_select env)) eqn:B; [destruct L3 as (? & ? & ?); [discriminate|lia]|].
      destruct (no_bulk_loop _ _ _ _ _ B WL eq_refl eq_refl) as [-> ->]. reflexivity.
    - destruct (o_bulk_window (ce_select env)) eqn:B; [right; now destruct L3 as (? & ? & ?)|].
      left. exact (proj1 (no_bulk_loop _ _ _ _ _ B WL eq_refl eq_refl)).
  Qed.

  (** the weights are positive *)
  Lemma used_weights kw sites band st v : used env sites band streams st v -> positive_weight (ce_select env) ->
    Forall (fun e => e <> []) (w_ecoda st) -> good_weights (band_opts env kw band v) st.
  Proof.
    intros U PW NE B. cbn in B. destruct (used_loop _ _ _ _ U) as (es & ND & WL & LP & _).
    destruct (window_alignment _ _ _ _ ND WL) as (L1 & L2 & L3 & AL).
    destruct (o_bulk_window (ce_select env)) as [bw|] eqn:BW; [|discriminate].
    destruct L3 as (LB & LT & LW); [discriminate|]. split; [|lia].
    apply Forall_forall. intros w I. apply In_nth_error in I. destruct I as (i & I).
    destruct (nth_error (w_energies st) i) as [x|] eqn:X.
    2:{ apply nth_error_None in X. assert (nth_error (w_weights st) i = None) by (apply nth_error_None; lia). congruence. }
    destruct (AL i x X) as (ob & _ & (_ & _ & _ & BK) & _ & C & D & E).
    destruct (ob_bulk ob) as [[[m t] w']|]; [|discriminate]. destruct E as (_ & _ & E). rewrite I in E. injection E as <-.
    unfold bulk_ok in BK. rewrite BW in BK. destruct BK as (w0 & s & t0 & c & _ & _ & NS & _ & _ & _ & K).
    assert (NC : ob_coda ob <> []).
    { rewrite Forall_forall in NE. apply NE. exact (nth_error_In _ _ C). }
    destruct K as [(OW & ->)|[(OW & ->)|(OW & ->)]]; pose proof (PW _ _ OW) as P; [| |exact P].
    - apply Rmult_lt_0_compat; [exact P|]. apply lt_0_INR. destruct (ob_coda ob); [contradiction|cbn; lia].
    - apply Rmult_lt_0_compat; [exact P|]. apply lt_0_INR. destruct (edata s); [contradiction|cbn; lia].
  Qed.

  Lemma run_nonempty o st v r s : LsqfbSpec.aligned st -> invert_band o st v = Ok (Some r, s) -> Forall (fun e => e <> []) (w_ecoda st).
  Proof.
    intros AL H.
    destruct (result_of o st (fun _ => 1) (fun _ => 1) (fun _ _ => Rlt_0_1) (fun _ _ => Rlt_0_1) v r s H) as (a & bs & rs & f & s0 & _ & _ & K).
    assert (Q : exists g bf fs, solve_at o st a bs rs g bf fs = Ok f).
    { destruct K as [(_ & g & b & _ & L)|(_ & g & L)]; apply lstsq_fit in L; eauto. }
    destruct Q as (g & bf & fs & Q). destruct (solve_at_rhs _ _ _ _ _ _ _ _ _ Q) as (z & RH).
    unfold rhs in RH. destruct (greens o st g _ _ _) as [gs|] eqn:G; [|discriminate].
    apply (greens_nonempty _ _ _ _ _ _ _ G). apply AL.
  Qed.

  (** a band with a result *)
  Lemma fb_result kw band sites br : band_sites kw band = option_map Some sites ->
    invert_fb env kw band streams = Ok (Some br) ->
    exists st v r s, used env sites band streams st v /\ invert_band (band_opts env kw band v) st v = Ok (Some r, s) /\ br = bandres_of r.
  Proof.
    intros BS H. unfold invert_fb in H. destruct streams as [|s0 ss] eqn:SS; [discriminate|]. rewrite <- SS in *.
    unfold band_energies in H. rewrite BS in H.
    match type of H with bind ?x _ = _ => destruct x as [es|] eqn:ES; [|discriminate] end. cbn [bind] in H.
    destruct (select_data (ce_select env) (ce_v0 env) es) as [[[st v]|]|] eqn:SD; cbn [bind] in H; try discriminate.
    destruct (invert_band (band_opts env kw band v) st v) as [[[r|] s]|] eqn:IB; cbn [bind fst option_map] in H; try discriminate.
    injection H as <-. exists st, v, r, s. split; [exists es; auto|]. auto.
  Qed.
End P.
