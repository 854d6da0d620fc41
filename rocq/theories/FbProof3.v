(** Proofs about the dictionaries of a frequency band, sample times and the
    adjusted onset. *)
From Coq Require Import String List Bool Reals Lra Lia ZArith Arith.
From Verif Require Import Base Pyf PyfOps SmoothModel FbModel FbSpec FbProof FbProof2.
Import ListNotations.
Open Scope string_scope.
Open Scope list_scope.
Open Scope R_scope.

Lemma pair_eqb_spec p q : pair_eqb p q = true <-> p = q.
Proof.
  destruct p as [a b], q as [c d]. unfold pair_eqb. cbn. rewrite andb_true_iff.
  rewrite !String.eqb_eq. split; [intros [-> ->]; reflexivity|now intros [= -> ->]].
Qed.

Section P.
  Context {W : Type}.
  Variable o : fbopts W.

  (** the trace has data in the bulk window *)
  Definition bulk_usable (e : etrace) : Prop :=
    exists bw w s, o_bulk_window o = Some bw /\ o_tw2utc o bw e = Ok w /\ usable o e w s.

  Lemma window_step_dicts v0 st e st' :
    window_step o v0 st e = Ok st' ->
    w_distances st' = dset pair_eqb (w_distances st) (get_pair e) (edist e) /\
    (w_tbulk_window st' = w_tbulk_window st /\ ~ bulk_usable e \/
     exists b, w_tbulk_window st' = dset pair_eqb (w_tbulk_window st) (get_pair e) b /\
       bulk_window_is o e v0 b).
  Proof.
    unfold window_step. intros H.
    destruct (bulk_part o e v0 (w_energies st)) as [[[bulk|] l]|] eqn:BP; [| |discriminate]; cbn [bind] in H;
      apply bulk_part_spec in BP.
    2:{ injection H as <-. cbn. split; [reflexivity|]. left. split; [reflexivity|].
        destruct BP as [(_ & [=] & _)|(bw & w & B1 & B2 & [(_ & _ & N)|(? & ? & ? & [=] & _)])].
        intros (bw' & w' & s & U1 & U2 & U3). rewrite B1 in U1. injection U1 as <-.
        rewrite B2 in U2. injection U2 as <-. now apply (N s). }
    unfold smooth_stage in H. destruct (smooth_part o e) as [e'|]; [|discriminate]. cbn [bind] in H.
    match type of H with cut_stage _ _ _ _ ?s = _ => set (st1 := s) in H end.
    assert (G : w_distances st1 = dset pair_eqb (w_distances st) (get_pair e) (edist e) /\
      (w_tbulk_window st1 = w_tbulk_window st /\ ~ bulk_usable e \/
       exists b, w_tbulk_window st1 = dset pair_eqb (w_tbulk_window st) (get_pair e) b /\
         bulk_window_is o e v0 b)).
    { subst st1. destruct BP as [(BN & [= ->] & _)|(bw & w & B1 & B2 & [([=] & _)|BP])]; cbn.
      - split; [reflexivity|]. left. split; [reflexivity|].
        intros (bw' & w' & s & U1 & _). congruence.
      - destruct BP as (b & s & t & [= ->] & _ & U & NE & T & _ & _ & _ & BW). cbn.
        split; [reflexivity|]. right. exists (b_window b). split; [reflexivity|].
        exists bw, w, s, t. split; [exact B1|]. split; [exact B2|]. split; [exact U|]. auto. }
    assert (K : w_distances st' = w_distances st1 /\ w_tbulk_window st' = w_tbulk_window st1).
    2:{ destruct K as [-> ->]. exact G. }
    clearbody st1. clear G BP st. unfold cut_stage in H.
    destruct (o_tw2utc o (o_coda_window o) e') as [cw|]; [|discriminate]. cbn [bind] in H.
    destruct (too_short o cw); [injection H as <-; auto|].
    destruct (cut_part o e' cw _) as [[[cw'|] l2]|]; [| |discriminate]; cbn [bind] in H.
    2:{ injection H as <-. auto. }
    unfold maximum_stage in H.
    destruct (maximum_outside o e') as [[|]|]; [| |discriminate]; cbn [bind] in H.
    { injection H as <-. auto. }
    unfold coda_stage in H.
    destruct (get_slice o e' cw' _) as [[[s|] l3]|]; [| |discriminate]; cbn [bind] in H.
    2:{ injection H as <-. auto. }
    destruct bulk as [b|].
    - destruct (bulk_weight o b _) as [wt|]; [|discriminate]. cbn [bind] in H.
      injection H as <-. auto.
    - injection H as <-. auto.
  Qed.

  Lemma window_loop_dists v0 es : forall st st',
    NoDup (map get_pair es) -> loop (window_step o v0) st es = Ok st' ->
    (forall p, ~ In p (map get_pair es) -> dget pair_eqb (w_distances st') p = dget pair_eqb (w_distances st) p) /\
    (forall e, In e es -> dget pair_eqb (w_distances st') (get_pair e) = Some (edist e)).
  Proof.
    induction es as [|e es IH]; intros st st' ND H; cbn [loop] in H.
    - injection H as <-. split; [auto|intros e []].
    - destruct (window_step o v0 st e) as [st1|] eqn:S; [|discriminate]. cbn [bind] in H.
      cbn [map] in ND. inversion ND as [|? ? NI ND']; subst.
      destruct (IH _ _ ND' H) as [I1 I2]. destruct (window_step_dicts _ _ _ _ S) as [D _].
      split.
      + intros p N. cbn [map] in N. rewrite I1 by (intros Q; apply N; now right).
        rewrite D. apply (dget_dset_neq pair_eqb pair_eqb_spec). intros ->. apply N. now left.
      + intros x [<-|I]; [|auto]. rewrite I1 by auto. rewrite D.
        apply (dget_dset_eq pair_eqb pair_eqb_spec).
  Qed.

  Lemma observation_same v0 ob : observation o v0 ob ->
    get_pair (ob_trace ob) = get_pair (ob_from ob) /\ edist (ob_trace ob) = edist (ob_from ob).
  Proof.
    intros (S & _). unfold smoothed in S. destruct (o_smooth o).
    - destruct S as (k & d & _ & _ & ->). auto.
    - now rewrite S.
  Qed.

  (** C51: distances *)
  Lemma window_distances v0 es st :
    NoDup (map uid es) -> NoDup (map (fun e => (evid e, sta e)) es) -> window_loop o v0 es = Ok st ->
    forall e, In e (w_energies st) -> dget pair_eqb (w_distances st) (evid e, sta e) = Some (edist e).
  Proof.
    change (fun e => (evid e, sta e)) with get_pair.
    intros N1 N2 H e I. destruct (window_loop_spec _ _ _ _ N1 H) as (obs & O & E & _).
    rewrite E in I. apply in_map_iff in I. destruct I as (ob & <- & I).
    destruct (observations_in _ _ _ _ O ob I) as [I1 I2].
    destruct (observation_same _ _ I2) as [G ->]. change (evid (ob_trace ob), sta (ob_trace ob))
      with (get_pair (ob_trace ob)). rewrite G.
    exact (proj2 (window_loop_dists _ _ _ _ N2 H) _ I1).
  Qed.

  Lemma window_loop_bulks v0 es : forall st st',
    NoDup (map get_pair es) -> loop (window_step o v0) st es = Ok st' ->
    (forall p, ~ In p (map get_pair es) ->
       dget pair_eqb (w_tbulk_window st') p = dget pair_eqb (w_tbulk_window st) p) /\
    (forall e, In e es -> bulk_usable e -> exists b,
       dget pair_eqb (w_tbulk_window st') (get_pair e) = Some b /\ bulk_window_is o e v0 b).
  Proof.
    induction es as [|e es IH]; intros st st' ND H; cbn [loop] in H.
    - injection H as <-. split; [auto|intros e []].
    - destruct (window_step o v0 st e) as [st1|] eqn:S; [|discriminate]. cbn [bind] in H.
      cbn [map] in ND. inversion ND as [|? ? NI ND']; subst.
      destruct (IH _ _ ND' H) as [I1 I2]. destruct (window_step_dicts _ _ _ _ S) as [_ D].
      split.
      + intros p N. cbn [map] in N. rewrite I1 by (intros Q; apply N; now right).
        destruct D as [[-> _]|(b & -> & _)]; [reflexivity|].
        apply (dget_dset_neq pair_eqb pair_eqb_spec). intros ->. apply N. now left.
      + intros x [<-|I] U; [|auto]. rewrite I1 by auto.
        destruct D as [[_ N]|(b & -> & B)]; [contradiction|].
        exists b. split; [apply (dget_dset_eq pair_eqb pair_eqb_spec)|exact B].
  Qed.

  (** C51: bulk windows *)
  Lemma window_bulks v0 es st :
    NoDup (map uid es) -> NoDup (map (fun e => (evid e, sta e)) es) ->
    o_bulk_window o <> None -> window_loop o v0 es = Ok st ->
    forall e, In e (w_energies st) -> exists e0 b,
      In e0 es /\ uid e0 = uid e /\
      dget pair_eqb (w_tbulk_window st) (evid e, sta e) = Some b /\ bulk_window_is o e0 v0 b.
  Proof.
    change (fun e => (evid e, sta e)) with get_pair.
    intros N1 N2 BN H e I. destruct (window_loop_spec _ _ _ _ N1 H) as (obs & O & E & _).
    rewrite E in I. apply in_map_iff in I. destruct I as (ob & <- & I).
    destruct (observations_in _ _ _ _ O ob I) as [I1 I2].
    destruct (observation_same _ _ I2) as [G _]. change (evid (ob_trace ob), sta (ob_trace ob))
      with (get_pair (ob_trace ob)). rewrite G.
    assert (U : bulk_usable (ob_from ob)).
    { destruct I2 as (_ & _ & _ & B). unfold bulk_ok in B.
      destruct (o_bulk_window o) as [bw|] eqn:BW; [|congruence].
      destruct (ob_bulk ob) as [[[m t] w]|]; [|contradiction].
      destruct B as (w' & s & t' & c & B1 & B2 & _). exists bw, w', s. auto. }
    destruct (proj2 (window_loop_bulks _ _ _ _ N2 H) _ I1 U) as (b & D & B).
    exists (ob_from ob), b. split; [exact I1|]. split; [|auto].
    symmetry. exact (observation_uid _ _ _ I2).
  Qed.

  (** C51: the result of the selection *)
  Lemma select_result v0 es r :
    NoDup (map uid es) -> select_data o v0 es = Ok r ->
    exists es', noise_treated o es es' /\
    match r with
    | Some (st, v) => velocity_is v0 es' v /\ window_loop o v es' = Ok st /\
        (0 < List.length (w_energies st))%nat /\
        (o_num_pairs o <= Z.of_nat (List.length (w_energies st)))%Z
    | None => v0 = None /\ es' = [] \/
        exists v st, velocity_is v0 es' v /\ window_loop o v es' = Ok st /\
          (w_energies st = [] \/ (Z.of_nat (List.length (w_energies st)) < o_num_pairs o)%Z)
    end.
  Proof.
    intros ND H. unfold select_data in H.
    destruct (noise_loop o es) as [es'|] eqn:NL; [|discriminate]. cbn [bind] in H.
    destruct (noise_loop_spec _ _ _ ND NL) as [NT ND']. exists es'. split; [exact NT|].
    assert (MV : match mean_velocity v0 es' with
                 | Some v => velocity_is v0 es' v
                 | None => v0 = None /\ es' = []
                 end).
    { unfold mean_velocity, velocity_is. destruct v0 as [x|]; [reflexivity|].
      destruct es' as [|e es']; [auto|]. split; [discriminate|reflexivity]. }
    destruct (mean_velocity v0 es') as [v|].
    2:{ injection H as <-. now left. }
    destruct (window_loop o v es') as [st|] eqn:WL; [|discriminate]. cbn [bind] in H.
    destruct (window_alignment _ _ _ _ ND' WL) as [L _].
    unfold too_few in H. rewrite L in H.
    destruct (Nat.eqb_spec (List.length (w_energies st)) 0) as [Z|NZ]; cbn [orb] in H.
    - injection H as <-. right. exists v, st. split; [exact MV|]. split; [exact WL|].
      left. now apply length_zero_iff_nil.
    - destruct (Z.ltb_spec (Z.of_nat (List.length (w_energies st))) (o_num_pairs o)) as [LT|GE];
        injection H as <-.
      + right. exists v, st. split; [exact MV|]. split; [exact WL|]. now right.
      + split; [exact MV|]. split; [exact WL|]. split; [lia|exact GE].
  Qed.

  (** C79: sample times *)
  Lemma times_error e v0 w s t k :
    usable o e w s -> times_ok e v0 w (List.length (edata s)) t ->
    edelta s = edelta e -> esr e * (IZR (edelta e) / 1000000000) = 1 ->
    (2 * (fst w - estart s) <= edelta e)%Z -> (k < List.length (edata s))%nat ->
    - (1 / 2) <
      nth k t 0 - (IZR (estart s + Z.of_nat k * edelta s - esonset e) / 1000000000 + edist e / v0)
      <= IZR (edelta e) / 2 / 1000000000.
  Proof.
    intros (_ & U1 & _) [_ T] D SR SL K. rewrite (T k K), D.
    set (dt := IZR (edelta e)) in *.
    assert (NZ : dt <> 0) by (intros Z0; rewrite Z0 in SR; lra).
    assert (E : esr e = 1000000000 / dt) by (apply (Rmult_eq_reg_r (dt / 1000000000)); [rewrite SR; field; auto|]; intros Q; apply NZ; lra).
    rewrite E. rewrite !minus_IZR, plus_IZR, mult_IZR, <- INR_IZR_INZ. fold dt.
    apply IZR_lt in U1. rewrite plus_IZR in U1.
    apply IZR_le in SL. rewrite mult_IZR, minus_IZR in SL. fold dt in SL.
    replace (INR k / (1000000000 / dt)) with (INR k * dt / 1000000000) by (field; auto).
    set (a := IZR (fst w)) in *. set (b := IZR (estart s)) in *. set (c := IZR (esonset e)).
    set (q := edist e / v0). set (kk := INR k * dt).
    split; lra.
  Qed.

  (** C78: adjusted onset *)
  Lemma onset_at_maximum e e' :
    onset_adjusted o e e' -> o_adjust_maximum o = true ->
    (forall w s, o_slice o e w = Ok s -> estart s = fst w /\ edelta s = edelta e) ->
    exists mw s i, o_slice o e mw = Ok s /\ fargmax (edata s) = Ok i /\
      esonset e' = (estart s + Z.of_nat i * edelta s)%Z.
  Proof.
    intros A M H. unfold onset_adjusted in A. rewrite M in A.
    destruct A as (w & mw & s & i & _ & T & S & F & ->). exists mw, s, i.
    split; [exact S|]. split; [exact F|]. destruct (H mw s S) as [-> ->]. reflexivity.
  Qed.
End P.

(** [np.argmax] gives the first largest value of data without nan *)
Lemma argmax_from_spec l : forall pre best bi,
  nth_error pre bi = Some best -> (forall x, In x (pre ++ l) -> x <> FNan) ->
  (forall j x, nth_error pre j = Some x -> fltb best x = false) ->
  exists m, nth_error (pre ++ l) (argmax_from best bi (List.length pre) l) = Some m /\
    forall x, In x (pre ++ l) -> fltb m x = false.
Proof.
  assert (TR : forall x y z, x <> FNan -> y <> FNan -> z <> FNan ->
               fltb x y = true -> fltb x z = false -> fltb y z = false).
  { intros x y z NX NY NZ. destruct x, y, z; cbn; try congruence; try discriminate; auto.
    unfold rltb. destruct (Rlt_dec x x0), (Rlt_dec x x1), (Rlt_dec x0 x1); try discriminate; auto.
    lra. }
  induction l as [|y l IH]; intros pre best bi B N M.
  - cbn. rewrite app_nil_r in *. exists best. split; [exact B|].
    intros x I. apply In_nth_error in I. destruct I as (j & J). eauto.
  - cbn [argmax_from]. assert (NB : best <> FNan).
    { apply N. apply in_or_app. left. now apply nth_error_In in B. }
    assert (NY : y <> FNan) by (apply N, in_or_app; right; now left).
    assert (fisnan best = false) as -> by now destruct best.
    assert (fisnan y = false) as -> by now destruct y.
    assert (A : pre ++ y :: l = (pre ++ [y]) ++ l) by now rewrite <- app_assoc.
    assert (LN : S (List.length pre) = List.length (pre ++ [y])) by (rewrite app_length; cbn; lia).
    cbn [orb]. destruct (fltb best y) eqn:C.
    + rewrite A, LN. apply IH.
      * rewrite nth_error_app2, Nat.sub_diag by lia. reflexivity.
      * now rewrite <- A.
      * intros j x J. assert (NX : x <> FNan).
        { apply N. rewrite A. apply in_or_app. left. now apply nth_error_In in J. }
        destruct (Nat.lt_ge_cases j (List.length pre)) as [L|L].
        -- rewrite nth_error_app1 in J by auto. exact (TR best y x NB NY NX C (M j x J)).
        -- rewrite nth_error_app2 in J by auto. destruct (j - List.length pre)%nat as [|[|q]]; try discriminate.
           injection J as <-. destruct y; cbn; auto. apply rltb_false. lra.
    + rewrite A, LN. apply IH.
      * rewrite nth_error_app1; auto. apply nth_error_Some. congruence.
      * now rewrite <- A.
      * intros j x J. destruct (Nat.lt_ge_cases j (List.length pre)) as [L|L].
        -- rewrite nth_error_app1 in J by auto. eauto.
        -- rewrite nth_error_app2 in J by auto. destruct (j - List.length pre)%nat as [|[|q]]; try discriminate.
           injection J as <-. exact C.
Qed.

Lemma fargmax_spec d i : fargmax d = Ok i -> (forall x, In x d -> x <> FNan) ->
  exists m, nth_error d i = Some m /\ forall x, In x d -> fltb m x = false.
Proof.
  destruct d as [|x d]; [discriminate|]. cbn [fargmax]. intros [= <-] N.
  apply (argmax_from_spec d [x] x 0); auto.
  intros [|[|j]] y; cbn; try discriminate. intros [= <-]. destruct x; cbn; auto.
  apply rltb_false. lra.
Qed.

Lemma onset_is_maximum {W} (o : fbopts W) e e' :
  onset_adjusted o e e' -> o_adjust_maximum o = true ->
  (forall w s, o_slice o e w = Ok s -> estart s = fst w /\ edelta s = edelta e) ->
  (forall w s x, o_slice o e w = Ok s -> In x (edata s) -> x <> FNan) ->
  exists mw s i m, o_slice o e mw = Ok s /\ nth_error (edata s) i = Some m /\
    (forall x, In x (edata s) -> fltb m x = false) /\
    esonset e' = (estart s + Z.of_nat i * edelta s)%Z.
Proof.
  intros A M H N. destruct (onset_at_maximum o e e' A M H) as (mw & s & i & S & F & E).
  destruct (fargmax_spec _ _ F (fun x => N mw s x S)) as (m & I & L).
  exists mw, s, i, m. auto.
Qed.
