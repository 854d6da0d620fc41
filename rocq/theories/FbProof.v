(** Proofs about the data selection in a frequency band. *)
From Coq Require Import String List Bool Reals Lra Lia ZArith Arith.
From Verif Require Import Base Pyf PyfOps SmoothModel FbModel FbSpec.
From Verif Require SmoothSpec SmoothProof.
Import ListNotations.
Open Scope string_scope.
Open Scope list_scope.
Open Scope R_scope.

(** ** Lists of objects *)

Lemma remove_middle P x e post :
  uid x = uid e -> ~ In (uid e) (map uid P) -> remove_energy (P ++ x :: post) e = P ++ post.
Proof.
  intros E. induction P as [|p P IH]; cbn; intros N.
  - apply Nat.eqb_eq in E. now rewrite E.
  - destruct (Nat.eqb (uid p) (uid e)) eqn:Q.
    + apply Nat.eqb_eq in Q. exfalso. apply N. now left.
    + f_equal. apply IH. tauto.
Qed.

Lemma update_none l e : ~ In (uid e) (map uid l) -> update_energy l e = l.
Proof.
  induction l as [|x l IH]; cbn; intros N; auto. destruct (Nat.eqb (uid x) (uid e)) eqn:Q.
  - apply Nat.eqb_eq in Q. exfalso. apply N. now left.
  - f_equal. apply IH. tauto.
Qed.

Lemma update_middle P x e post :
  uid x = uid e -> ~ In (uid e) (map uid P) -> ~ In (uid e) (map uid post) ->
  update_energy (P ++ x :: post) e = P ++ e :: post.
Proof.
  intros E N1 N2. unfold update_energy. rewrite map_app. cbn [map].
  fold (update_energy P e) (update_energy post e). rewrite !update_none by auto.
  apply Nat.eqb_eq in E. now rewrite E.
Qed.

Lemma nodup_middle P (e : etrace) post :
  NoDup (map uid (P ++ e :: post)) ->
  ~ In (uid e) (map uid P) /\ ~ In (uid e) (map uid post) /\
  forall e', uid e' = uid e -> NoDup (map uid (P ++ e' :: post)).
Proof.
  rewrite map_app. cbn [map]. intros ND. apply NoDup_remove in ND as H. destruct H as [_ NI].
  rewrite in_app_iff in NI. split; [tauto|]. split; [tauto|].
  intros e' E. rewrite map_app. cbn [map]. now rewrite E.
Qed.

Lemma last_nth {A} (d : A) l : last l d = nth (List.length l - 1) l d.
Proof.
  induction l as [|x [|y l] IH]; [reflexivity|reflexivity|].
  change (last (x :: y :: l) d) with (last (y :: l) d). rewrite IH.
  cbn [List.length]. replace (S (S (List.length l)) - 1)%nat with (S (S (List.length l) - 1)) by lia.
  reflexivity.
Qed.

Lemma rltb_dec x y : rltb x y = true /\ x < y \/ rltb x y = false /\ y <= x.
Proof. unfold rltb. destruct (Rlt_dec x y); [left|right]; split; auto. lra. Qed.

Lemma py_round_near x : SmoothSpec.nearest_int x (py_round x).
Proof. destruct (SmoothProof.nearest_ex x) as [k H]. now rewrite (SmoothProof.py_round_nearest _ _ H). Qed.

Lemma nearest_unique x k1 k2 : SmoothSpec.nearest_int x k1 -> SmoothSpec.nearest_int x k2 -> k1 = k2.
Proof. intros A B. now rewrite <- (SmoothProof.py_round_nearest _ _ A), <- (SmoothProof.py_round_nearest _ _ B). Qed.

Section P.
  Context {W : Type}.
  Variable o : fbopts W.

  Lemma usable_det e w s s' : usable o e w s -> usable o e w s' -> s = s'.
  Proof. intros [A _] [B _]. congruence. Qed.

  Lemma get_slice_spec e tw l r l' :
    get_slice o e tw l = Ok (r, l') ->
    (exists s, r = Some s /\ l' = l /\ usable o e tw s) \/
    (r = None /\ l' = remove_energy l e /\ forall s, ~ usable o e tw s).
  Proof.
    unfold get_slice, eend. intros H. destruct (o_slice o e tw) as [s|x] eqn:E.
    - set (c := (_ && _)%bool) in H. destruct c eqn:C; unfold c in C.
      + injection H as <- <-. left. exists s. split; [reflexivity|]. split; [reflexivity|].
        apply andb_true_iff in C. destruct C as [C1 C2]. apply Z.ltb_lt in C1, C2.
        split; [exact E|]. split; lia.
      + injection H as <- <-. right. split; [reflexivity|]. split; [reflexivity|].
        intros s' (E' & C1 & C2). rewrite E in E'. injection E' as <-.
        apply andb_false_iff in C. destruct C as [C|C]; apply Z.ltb_ge in C; lia.
    - destruct x; try discriminate. injection H as <- <-. right.
      split; [reflexivity|]. split; [reflexivity|]. intros s (E' & _). congruence.
  Qed.

  Lemma sample_times_ok e v0 w n : times_ok e v0 w n (sample_times n e v0 (fst w - esonset e)).
  Proof.
    unfold times_ok, sample_times. rewrite map_length, seq_length. split; [reflexivity|].
    intros k K. set (f := fun k => _).
    rewrite (nth_indep _ 0 (f 0%nat)) by (rewrite map_length, seq_length; exact K).
    rewrite map_nth, seq_nth by exact K. reflexivity.
  Qed.

  Definition bulk_triple (b : bulkvals) (wt : R) : pyf * pyf * R := (b_mean b, b_time b, wt).

  Lemma bulk_part_spec e v0 l r l' :
    bulk_part o e v0 l = Ok (r, l') ->
    (o_bulk_window o = None /\ r = Some None /\ l' = l) \/
    (exists bw w, o_bulk_window o = Some bw /\ o_tw2utc o bw e = Ok w /\
       ((r = None /\ l' = remove_energy l e /\ forall s, ~ usable o e w s) \/
        exists b s t, r = Some (Some b) /\ l' = l /\ usable o e w s /\ edata s <> [] /\
          times_ok e v0 w (List.length (edata s)) t /\ b_mean b = fmean (edata s) /\
          b_time b = balanced_time (edata s) t /\ b_n b = List.length (edata s) /\
          b_window b = (nth 0 t 0, nth (List.length (edata s) - 1) t 0))).
  Proof.
    unfold bulk_part. destruct (o_bulk_window o) as [bw|]; [|intros [= <- <-]; auto].
    destruct (o_tw2utc o bw e) as [w|] eqn:Ew; [|discriminate]. cbn [bind].
    destruct (get_slice o e w l) as [[x l1]|] eqn:G; [|discriminate]. cbn [bind].
    intros H. right. exists bw, w. split; [reflexivity|]. split; [exact Ew|].
    apply get_slice_spec in G. destruct G as [(s & -> & -> & U)|(-> & -> & N)].
    - right. pose proof (sample_times_ok e v0 w (List.length (edata s))) as T.
      destruct (sample_times (List.length (edata s)) e v0 (fst w - esonset e)) as [|t0 t] eqn:ST;
        [discriminate|]. injection H as <- <-.
      eexists _, s, _. split; [reflexivity|]. split; [reflexivity|]. split; [exact U|].
      split; [|split; [exact T|split; [reflexivity|split; [reflexivity|split; [reflexivity|]]]]].
      + intros D. rewrite D in T. destruct T as [T _]. discriminate.
      + change ((t0, last (t0 :: t) 0) = (nth 0 (t0 :: t) 0, nth (List.length (edata s) - 1) (t0 :: t) 0)).
        rewrite last_nth. now rewrite <- (proj1 T).
    - left. injection H as <- <-. auto.
  Qed.

  Lemma smooth_part_spec e e' : smooth_part o e = Ok e' -> smoothed o e e' /\ uid e' = uid e.
  Proof.
    unfold smooth_part, smoothed. destruct (o_smooth o) as [s|]; [|now intros [= <-]].
    destruct (o_smoother o (edata e) _) as [d|] eqn:SM; [|discriminate]. cbn [bind]. intros [= <-].
    split; [|reflexivity]. exists (py_round (esr e * s)), d. split; [apply py_round_near|]. split; [eassumption|reflexivity].
  Qed.

  Lemma smoothed_det e e1 e2 : smoothed o e e1 -> smoothed o e e2 -> e1 = e2.
  Proof.
    unfold smoothed. destruct (o_smooth o); [|congruence].
    intros (k1 & d1 & N1 & A & ->) (k2 & d2 & N2 & B & ->).
    rewrite (nearest_unique _ _ _ N1 N2) in A. congruence.
  Qed.

  Lemma widened_ex smooth cw : widened smooth cw (match smooth with
    | None => cw | Some x => ((fst cw - nanos (0.5 * x))%Z, (snd cw + nanos (0.5 * x))%Z) end).
  Proof.
    unfold widened. destruct smooth as [x|]; [|reflexivity]. exists (nanos (0.5 * x)). split; [|reflexivity].
    unfold nanos. replace (x / 2 * 1000000000) with (0.5 * x * 1000000000) by lra. apply py_round_near.
  Qed.

  Lemma widened_det smooth cw w1 w2 : widened smooth cw w1 -> widened smooth cw w2 -> w1 = w2.
  Proof.
    unfold widened. destruct smooth as [x|]; [|congruence]. intros (k1 & N1 & ->) (k2 & N2 & ->).
    now rewrite (nearest_unique _ _ _ N1 N2).
  Qed.

  Lemma too_short_spec cw : too_short o cw = true /\ ~ long_enough o cw \/
    too_short o cw = false /\ long_enough o cw.
  Proof.
    unfold too_short, long_enough, secs.
    destruct (rltb_dec (IZR (snd cw - fst cw) / 1000000000) (o_skip_coda o)) as [[-> H]|[-> H]].
    - left. split; [reflexivity|]. lra.
    - right. auto.
  Qed.

  Lemma cut_part_spec e cw0 l r l' :
    o_tw2utc o (o_coda_window o) e = Ok cw0 -> long_enough o cw0 ->
    cut_part o e cw0 l = Ok (r, l') ->
    (exists cw, r = Some cw /\ l' = l /\ coda_window_is o e cw) \/
    (r = None /\ l' = remove_energy l e /\ forall cw, ~ coda_window_is o e cw).
  Proof.
    intros T L. unfold cut_part. unfold coda_window_is. destruct (o_cut_coda o) eqn:CC.
    - set (wide := match o_cut_smooth o with None => _ | Some _ => _ end).
      destruct (get_slice o e wide l) as [[x l1]|] eqn:G; [|discriminate]. cbn [bind].
      apply get_slice_spec in G. destruct G as [(s & -> & -> & U)|(-> & -> & N)].
      + destruct (o_local_minimum o s) as [tm|] eqn:M; [|discriminate]. cbn [bind].
        set (cw := match tm with Some t => _ | None => cw0 end).
        destruct (too_short_spec cw) as [[-> S]|[-> S]]; intros [= <- <-].
        * right. split; [reflexivity|]. split; [reflexivity|].
          intros cw1 (cw2 & T2 & _ & w2 & s2 & tm2 & W2 & U2 & M2 & C2 & S2).
          rewrite T in T2. injection T2 as <-. rewrite (widened_det _ _ _ _ W2 (widened_ex _ _)) in U2. fold wide in U2.
          rewrite (usable_det _ _ _ _ U2 U) in M2. rewrite M in M2. injection M2 as <-.
          fold cw in C2. subst cw1. contradiction.
        * left. exists cw. split; [reflexivity|]. split; [reflexivity|].
          exists cw0. split; [exact T|]. split; [exact L|]. exists wide, s, tm.
          split; [apply widened_ex|]. split; [exact U|]. split; [exact M|]. split; [|exact S].
          unfold cw. now destruct tm.
      + intros [= <- <-]. right. split; [reflexivity|]. split; [reflexivity|].
        intros cw1 (cw2 & T2 & _ & w2 & s2 & tm2 & W2 & U2 & _).
        rewrite T in T2. injection T2 as <-. rewrite (widened_det _ _ _ _ W2 (widened_ex _ _)) in U2. now apply (N s2).
    - intros [= <- <-]. left. exists cw0. split; [reflexivity|]. split; [reflexivity|].
      exists cw0. auto.
  Qed.

  Lemma coda_window_det e cw1 cw2 : coda_window_is o e cw1 -> coda_window_is o e cw2 -> cw1 = cw2.
  Proof.
    unfold coda_window_is. intros (a & A1 & _ & A2) (b & B1 & _ & B2).
    rewrite A1 in B1. injection B1 as <-. destruct (o_cut_coda o); [|congruence].
    destruct A2 as (w & s & tm & Wi & U & M & -> & _). destruct B2 as (w' & s' & tm' & Wi' & U' & M' & -> & _).
    rewrite (widened_det _ _ _ _ Wi' Wi) in U'.
    rewrite (usable_det _ _ _ _ U' U) in M'. rewrite M in M'. injection M' as <-. reflexivity.
  Qed.

  Lemma maximum_spec e out : maximum_outside o e = Ok out ->
    out = true /\ ~ maximum_ok o e \/ out = false /\ maximum_ok o e.
  Proof.
    unfold maximum_outside, maximum_ok. destruct (o_skip_maximum o) as [w|]; [|intros [= <-]; auto].
    destruct (o_tw2utc o w e) as [mw|] eqn:T; [|discriminate]. cbn [bind].
    destruct (fargmax (edata e)) as [i|] eqn:A; [|discriminate]. cbn [bind]. intros [= <-].
    set (c := (_ && _)%bool). destruct c eqn:C; unfold c in C; cbn [negb].
    - right. split; [reflexivity|]. apply andb_true_iff in C. destruct C as [C1 C2].
      apply Z.ltb_lt in C1, C2. exists mw, i. repeat split; auto.
    - left. split; [reflexivity|]. intros (mw' & i' & T' & A' & H).
      assert (mw' = mw) by congruence. assert (i' = i) by congruence. subst.
      apply andb_false_iff in C. destruct C as [C|C]; apply Z.ltb_ge in C; lia.
  Qed.

  Lemma bulk_weight_spec b nc wt : bulk_weight o b nc = Ok wt ->
    exists c, o_weight o = Some (c, "codawindow") /\ wt = c * INR nc \/
      o_weight o = Some (c, "bulkwindow") /\ wt = c * INR (b_n b) \/
      o_weight o = Some (c, "samples") /\ wt = c.
  Proof.
    unfold bulk_weight. destruct (o_weight o) as [[c u]|]; [|discriminate].
    destruct (String.eqb u "codawindow") eqn:E1.
    { apply String.eqb_eq in E1. subst u. intros [= <-]. eauto. }
    destruct (String.eqb u "bulkwindow") eqn:E2.
    { apply String.eqb_eq in E2. subst u. intros [= <-]. eauto. }
    destruct (String.eqb u "samples") eqn:E3; [|discriminate].
    apply String.eqb_eq in E3. subst u. intros E. exists c. right. right.
    split; [reflexivity|].
    apply (f_equal (fun r => match r with Ok r => r | Err _ => 0 end)) in E.
    cbv beta iota in E. lra.
  Qed.

  (** the columns of bulk values *)
  Definition ob_ebulk (ob : obs) : list pyf :=
    match ob_bulk ob with Some (m, _, _) => [m] | None => [] end.
  Definition ob_tbulk (ob : obs) : list pyf :=
    match ob_bulk ob with Some (_, t, _) => [t] | None => [] end.
  Definition ob_weight (ob : obs) : list R :=
    match ob_bulk ob with Some (_, _, w) => [w] | None => [] end.

  Lemma window_step_spec v0 st e st' P post :
    w_energies st = P ++ e :: post -> NoDup (map uid (P ++ e :: post)) ->
    window_step o v0 st e = Ok st' ->
    (exists ob, ob_from ob = e /\ observation o v0 ob /\ uid (ob_trace ob) = uid e /\
       w_energies st' = P ++ ob_trace ob :: post /\
       w_ecoda st' = w_ecoda st ++ [ob_coda ob] /\
       w_tcoda st' = w_tcoda st ++ [ob_times ob] /\
       w_ebulk st' = w_ebulk st ++ ob_ebulk ob /\
       w_tbulk st' = w_tbulk st ++ ob_tbulk ob /\
       w_weights st' = w_weights st ++ ob_weight ob) \/
    (~ accepted o e /\ w_energies st' = P ++ post /\
       w_ecoda st' = w_ecoda st /\ w_tcoda st' = w_tcoda st /\ w_ebulk st' = w_ebulk st /\
       w_tbulk st' = w_tbulk st /\ w_weights st' = w_weights st).
  Proof.
    intros EN ND H. destruct (nodup_middle _ _ _ ND) as (N1 & N2 & N3).
    unfold window_step in H. rewrite EN in H.
    destruct (bulk_part o e v0 (P ++ e :: post)) as [[bulk l]|] eqn:B; [|discriminate].
    cbn [bind] in H.
    assert (BS := bulk_part_spec _ _ _ _ _ B). clear B.
    destruct bulk as [bulk|].
    2:{ right. injection H as <-. cbn.
        destruct BS as [(_ & [=] & _)|(bw & w & Bw & Tw & [(_ & -> & N)|(? & ? & ? & [=] & _)])].
        split; [|rewrite remove_middle by auto; repeat split; auto].
        intros (A & _). destruct (A bw Bw) as (w' & s & T' & U).
        rewrite Tw in T'. injection T' as <-. now apply (N s). }
    assert (L : l = P ++ e :: post).
    { destruct BS as [(_ & _ & ->)|(? & ? & _ & _ & [([=] & _)|(? & ? & ? & _ & -> & _)])]; reflexivity. }
    subst l. unfold smooth_stage in H. cbn [w_energies set_energies] in H.
    destruct (smooth_part o e) as [e'|] eqn:SM; [|discriminate]. cbn [bind] in H.
    apply smooth_part_spec in SM. destruct SM as [SM UE].
    rewrite update_middle in H by (rewrite ?UE; auto).
    unfold cut_stage in H. cbn [w_energies set_energies] in H.
    destruct (o_tw2utc o (o_coda_window o) e') as [cw0|] eqn:TC; [|discriminate]. cbn [bind] in H.
    assert (RM : remove_energy (P ++ e' :: post) e' = P ++ post)
      by (apply remove_middle; rewrite ?UE; auto).
    destruct (too_short_spec cw0) as [[TS NL]|[TS LE]]; rewrite TS in H.
    { right. injection H as <-. cbn. rewrite RM. repeat split; auto.
      intros (_ & e2 & S2 & _ & cw & s & (cw2 & T2 & L2 & _) & _).
      rewrite (smoothed_det _ _ _ S2 SM) in T2. rewrite TC in T2. injection T2 as <-. contradiction. }
    destruct (cut_part o e' cw0 (P ++ e' :: post)) as [[c l]|] eqn:CP; [|discriminate].
    cbn [bind] in H. destruct (cut_part_spec _ _ _ _ _ TC LE CP) as [(cw & -> & -> & CW)|(-> & -> & NC)].
    2:{ right. injection H as <-. cbn. rewrite RM. repeat split; auto.
        intros (_ & e2 & S2 & _ & cw & s & C2 & _). rewrite (smoothed_det _ _ _ S2 SM) in C2.
        now apply (NC cw). }
    unfold maximum_stage in H. cbn [w_energies set_energies] in H.
    destruct (maximum_outside o e') as [out|] eqn:MX; [|discriminate]. cbn [bind] in H.
    destruct (maximum_spec _ _ MX) as [[-> NM]|[-> MO]].
    { right. injection H as <-. cbn. rewrite RM. repeat split; auto.
      intros (_ & e2 & S2 & M2 & _). rewrite (smoothed_det _ _ _ S2 SM) in M2. contradiction. }
    unfold coda_stage in H. cbn [w_energies set_energies] in H.
    destruct (get_slice o e' cw (P ++ e' :: post)) as [[x l]|] eqn:G; [|discriminate].
    cbn [bind] in H. apply get_slice_spec in G. destruct G as [(s & -> & -> & U)|(-> & -> & N)].
    2:{ right. injection H as <-. cbn. rewrite RM. repeat split; auto.
        intros (_ & e2 & S2 & _ & cw2 & s & C2 & U2).
        rewrite (smoothed_det _ _ _ S2 SM) in C2, U2.
        rewrite (coda_window_det _ _ _ C2 CW) in U2. now apply (N s). }
    left.
    pose proof (sample_times_ok e' v0 cw (List.length (edata s))) as TO.
    set (tc := sample_times _ _ _ _) in H, TO.
    destruct BS as [(BN & [= ->] & _)|(bw & w & Bw & Tw & [([=] & _)|(b & s2 & t & [= ->] & _ & U2 & NE & T2 & B1 & B2 & B3 & _)])].
    - injection H as <-. cbn.
      exists {| ob_from := e; ob_trace := e'; ob_coda := edata s; ob_times := tc; ob_bulk := None |}.
      cbn. split; [reflexivity|]. split; [|split; [exact UE|]].
      + split; [exact SM|]. split; [exact MO|]. cbn. split; [exists cw, s; auto|].
        unfold bulk_ok. now rewrite BN.
      + unfold ob_ebulk, ob_tbulk, ob_weight. cbn. rewrite !app_nil_r. repeat split; reflexivity.
    - destruct (bulk_weight o b (List.length (edata s))) as [wt|] eqn:BW; [|discriminate].
      cbn [bind] in H. injection H as <-. cbn.
      exists {| ob_from := e; ob_trace := e'; ob_coda := edata s; ob_times := tc;
                ob_bulk := Some (bulk_triple b wt) |}.
      cbn. split; [reflexivity|]. split; [|split; [exact UE|repeat split; reflexivity]].
      split; [exact SM|]. split; [exact MO|]. cbn. split; [exists cw, s; auto|].
      unfold bulk_ok. rewrite Bw. unfold bulk_triple.
      destruct (bulk_weight_spec _ _ _ BW) as (c & WS). rewrite B3 in WS.
      exists w, s2, t, c. repeat split; try (exact (proj1 U2)) || exact (proj1 (proj2 U2))
        || exact (proj2 (proj2 U2)) || exact NE || exact (proj1 T2) || exact (proj2 T2) || auto.
  Qed.

  Lemma window_loop_from v0 post : forall P st st',
    w_energies st = P ++ post -> NoDup (map uid (P ++ post)) ->
    loop (window_step o v0) st post = Ok st' ->
    exists obs, observations o v0 post obs /\
      w_energies st' = P ++ map ob_trace obs /\
      w_ecoda st' = w_ecoda st ++ map ob_coda obs /\
      w_tcoda st' = w_tcoda st ++ map ob_times obs /\
      w_ebulk st' = w_ebulk st ++ flat_map ob_ebulk obs /\
      w_tbulk st' = w_tbulk st ++ flat_map ob_tbulk obs /\
      w_weights st' = w_weights st ++ flat_map ob_weight obs.
  Proof.
    induction post as [|e post IH]; intros P st st' EN ND H; cbn [loop] in H.
    - injection H as <-. exists []. split; [constructor|]. cbn. rewrite !app_nil_r in *. auto 8.
    - destruct (window_step o v0 st e) as [st1|] eqn:S; [|discriminate]. cbn [bind] in H.
      destruct (nodup_middle _ _ _ ND) as (N1 & N2 & N3).
      destruct (window_step_spec _ _ _ _ _ _ EN ND S)
        as [(ob & F & OB & UE & E1 & E2 & E3 & E4 & E5 & E6)|(NA & E1 & E2 & E3 & E4 & E5 & E6)].
      + destruct (IH (P ++ [ob_trace ob]) st1 st') as (obs & I0 & I1 & I2 & I3 & I4 & I5 & I6); auto.
        * rewrite E1, <- app_assoc. reflexivity.
        * rewrite <- app_assoc. cbn. now apply N3.
        * exists (ob :: obs). split; [rewrite <- F; now constructor|].
          cbn [map flat_map]. rewrite I1, I2, I3, I4, I5, I6, E2, E3, E4, E5, E6.
          rewrite <- !app_assoc. cbn. auto 8.
      + destruct (IH P st1 st') as (obs & I0 & I1 & I2 & I3 & I4 & I5 & I6); auto.
        * rewrite map_app in ND. cbn [map] in ND. apply NoDup_remove in ND.
          rewrite map_app. tauto.
        * exists obs. split; [now constructor|].
          rewrite I1, I2, I3, I4, I5, I6, E2, E3, E4, E5, E6. auto 8.
  Qed.

  (** C51 *)
  Lemma window_loop_spec v0 es st :
    NoDup (map uid es) -> window_loop o v0 es = Ok st ->
    exists obs, observations o v0 es obs /\
      w_energies st = map ob_trace obs /\
      w_ecoda st = map ob_coda obs /\
      w_tcoda st = map ob_times obs /\
      w_ebulk st = flat_map ob_ebulk obs /\
      w_tbulk st = flat_map ob_tbulk obs /\
      w_weights st = flat_map ob_weight obs.
  Proof.
    intros ND H. apply (window_loop_from v0 es []) in H; auto.
  Qed.

  Lemma observations_in v0 es obs : observations o v0 es obs ->
    forall ob, In ob obs -> In (ob_from ob) es /\ observation o v0 ob.
  Proof.
    induction 1 as [|ob es obs H HS IH|e es obs H HS IH]; intros x I.
    - destruct I.
    - destruct I as [<-|I]; [split; [now left|exact H]|]. destruct (IH x I). split; [now right|auto].
    - destruct (IH x I). split; [now right|auto].
  Qed.

  (** columns with exactly one entry per observation *)
  Lemma flat_single {A} (f : obs -> list A) obs :
    (forall ob, In ob obs -> exists x, f ob = [x]) ->
    List.length (flat_map f obs) = List.length obs /\
    forall i ob x, nth_error obs i = Some ob -> f ob = [x] -> nth_error (flat_map f obs) i = Some x.
  Proof.
    induction obs as [|b obs IH]; intros H.
    - split; [reflexivity|]. intros [|i]; discriminate.
    - destruct (H b (or_introl eq_refl)) as (y & Y).
      destruct IH as [L V]; [intros; apply H; now right|].
      cbn [flat_map]. rewrite Y. split; [cbn; now rewrite L|].
      intros [|i] ob x; cbn.
      + intros [= <-]. rewrite Y. now intros [= <-].
      + apply V.
  Qed.

  (** C51: the columns belong to the same pairs *)
  Lemma window_alignment v0 es st :
    NoDup (map uid es) -> window_loop o v0 es = Ok st ->
    List.length (w_ecoda st) = List.length (w_energies st) /\
    List.length (w_tcoda st) = List.length (w_energies st) /\
    (o_bulk_window o <> None ->
       List.length (w_ebulk st) = List.length (w_energies st) /\
       List.length (w_tbulk st) = List.length (w_energies st) /\
       List.length (w_weights st) = List.length (w_energies st)) /\
    forall i e, nth_error (w_energies st) i = Some e ->
      exists ob, In (ob_from ob) es /\ observation o v0 ob /\ ob_trace ob = e /\
        nth_error (w_ecoda st) i = Some (ob_coda ob) /\
        nth_error (w_tcoda st) i = Some (ob_times ob) /\
        match ob_bulk ob with
        | None => o_bulk_window o = None
        | Some (m, t, w) => nth_error (w_ebulk st) i = Some m /\
            nth_error (w_tbulk st) i = Some t /\ nth_error (w_weights st) i = Some w
        end.
  Proof.
    intros ND H. destruct (window_loop_spec _ _ _ ND H) as (obs & O & E1 & E2 & E3 & E4 & E5 & E6).
    pose proof (observations_in _ _ _ O) as OI.
    rewrite E1, E2, E3, E4, E5, E6, !map_length. split; [reflexivity|]. split; [reflexivity|].
    assert (B : forall ob, In ob obs ->
              match ob_bulk ob with None => o_bulk_window o = None | Some _ => o_bulk_window o <> None end).
    { intros ob I. destruct (OI ob I) as (_ & _ & _ & _ & BO). unfold bulk_ok in BO.
      destruct (o_bulk_window o), (ob_bulk ob) as [[[? ?] ?]|]; try contradiction; congruence. }
    assert (SE : o_bulk_window o <> None -> forall ob, In ob obs -> exists x, ob_ebulk ob = [x]).
    { intros N ob I. specialize (B ob I). unfold ob_ebulk.
      destruct (ob_bulk ob) as [[[? ?] ?]|]; [eauto|congruence]. }
    assert (ST : o_bulk_window o <> None -> forall ob, In ob obs -> exists x, ob_tbulk ob = [x]).
    { intros N ob I. specialize (B ob I). unfold ob_tbulk.
      destruct (ob_bulk ob) as [[[? ?] ?]|]; [eauto|congruence]. }
    assert (SW : o_bulk_window o <> None -> forall ob, In ob obs -> exists x, ob_weight ob = [x]).
    { intros N ob I. specialize (B ob I). unfold ob_weight.
      destruct (ob_bulk ob) as [[[? ?] ?]|]; [eauto|congruence]. }
    split.
    - intros N. split; [exact (proj1 (flat_single _ _ (SE N)))|].
      split; [exact (proj1 (flat_single _ _ (ST N)))|exact (proj1 (flat_single _ _ (SW N)))].
    - intros i e I. rewrite nth_error_map in I.
      destruct (nth_error obs i) as [ob|] eqn:NO; [|discriminate]. cbn in I. injection I as <-.
      assert (IO := nth_error_In _ _ NO). destruct (OI ob IO) as [I1 I2].
      exists ob. split; [exact I1|]. split; [exact I2|]. split; [reflexivity|].
      rewrite !nth_error_map, NO. cbn. split; [reflexivity|]. split; [reflexivity|].
      specialize (B ob IO). destruct (ob_bulk ob) as [[[m t] w]|] eqn:OB; [|exact B].
      split; [|split].
      + apply (proj2 (flat_single _ _ (SE B)) i ob m NO). unfold ob_ebulk. now rewrite OB.
      + apply (proj2 (flat_single _ _ (ST B)) i ob t NO). unfold ob_tbulk. now rewrite OB.
      + apply (proj2 (flat_single _ _ (SW B)) i ob w NO). unfold ob_weight. now rewrite OB.
  Qed.

  Lemma observation_accepted v0 ob : observation o v0 ob -> accepted o (ob_from ob).
  Proof.
    intros (S & M & (cw & s & C & U & _) & B). split.
    - intros bw Bw. unfold bulk_ok in B. rewrite Bw in B.
      destruct (ob_bulk ob) as [[[m t] w]|]; [|contradiction].
      destruct B as (w' & s' & t' & c & T & U' & _). eauto.
    - exists (ob_trace ob). split; [exact S|]. split; [exact M|]. eauto.
  Qed.

  Lemma observation_uid v0 ob : observation o v0 ob -> uid (ob_trace ob) = uid (ob_from ob).
  Proof.
    intros (S & _). unfold smoothed in S. destruct (o_smooth o).
    - destruct S as (k & d & _ & _ & ->). reflexivity.
    - now rewrite S.
  Qed.

  (** C51: exactly the accepted pairs remain, in order *)
  Lemma window_selection v0 es st :
    NoDup (map uid es) -> window_loop o v0 es = Ok st ->
    exists keep : etrace -> bool,
      (forall e, In e es -> (keep e = true <-> accepted o e)) /\
      map uid (w_energies st) = map uid (filter keep es).
  Proof.
    intros ND H. destruct (window_loop_spec _ _ _ ND H) as (obs & O & -> & _). clear H.
    exists (fun e => existsb (fun ob => Nat.eqb (uid (ob_trace ob)) (uid e)) obs).
    rewrite map_map.
    induction O as [|ob es obs B HS IH|e es obs B HS IH].
    - split; [intros e []|reflexivity].
    - cbn [map] in ND. inversion ND as [|? ? NI ND']; subst.
      destruct (IH ND') as [I1 I2]. pose proof (observation_uid _ _ B) as U.
      assert (K : forall e, In e es -> Nat.eqb (uid (ob_trace ob)) (uid e) = false).
      { intros e I. apply Nat.eqb_neq. rewrite U. intros Q. apply NI. rewrite Q. now apply in_map. }
      split.
      + intros e [<-|I].
        * cbn [existsb]. rewrite U, Nat.eqb_refl. cbn. split; [|reflexivity].
          intros _. exact (observation_accepted _ _ B).
        * cbn [existsb]. rewrite (K e I). cbn [orb]. now apply I1.
      + cbn [map filter existsb]. rewrite U, Nat.eqb_refl. cbn [orb map]. f_equal.
        rewrite I2. f_equal. apply filter_ext_in. intros e I. now rewrite <- U, (K e I).
    - cbn [map] in ND. inversion ND as [|? ? NI ND']; subst.
      destruct (IH ND') as [I1 I2].
      assert (K : existsb (fun ob => Nat.eqb (uid (ob_trace ob)) (uid e)) obs = false).
      { destruct (existsb _ obs) eqn:X; [|reflexivity]. exfalso. apply existsb_exists in X.
        destruct X as (ob & I & Q). apply Nat.eqb_eq in Q.
        destruct (observations_in _ _ _ HS ob I) as [J1 J2].
        apply NI. rewrite <- Q, (observation_uid _ _ J2). now apply in_map. }
      split.
      + intros e' [<-|I]; [|now apply I1]. rewrite K. split; [discriminate|contradiction].
      + cbn [filter]. rewrite K. exact I2.
  Qed.
End P.
