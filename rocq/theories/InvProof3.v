(** Further proofs about the distribution of bands (C61), fixed parameters (C62)
    and the arrangement of the results (C58). *)
From Coq Require Import String List Bool Reals Lra Lia ZArith Arith Permutation.
From Verif Require Import Base Pyf FreqsModel SortModel EventModel EventSpec EventProof InvModel InvSpec InvProof InvProof2.
Import ListNotations.
Open Scope string_scope.
Open Scope list_scope.
Open Scope R_scope.

(** ** C61: any number of bands *)
Section Jobs.
  Context {B S A : Type}.
  Variable work : B -> S -> S * res A.

  Lemma chunks_from_concat c : forall (bs : list B) k cur, concat (chunks_from c k cur bs) = rev cur ++ bs.
  Proof.
    induction bs as [|b bs IH]; intros k cur; cbn [chunks_from].
    - destruct cur as [|x cur]; [reflexivity|]. cbn [concat]. now rewrite !app_nil_r.
    - destruct k as [|k].
      + cbn [concat]. rewrite IH. reflexivity.
      + rewrite IH. cbn [rev]. now rewrite <- app_assoc.
  Qed.

  Lemma chunks_concat c (bs : list B) : concat (chunks c bs) = bs.
  Proof. unfold chunks. rewrite chunks_from_concat. reflexivity. Qed.

  Hypothesis indep : forall b b' s, snd (work b' (fst (work b s))) = snd (work b' s).

  Lemma shared_same : forall bs s s', (forall b, snd (work b s) = snd (work b s')) ->
    run_shared work bs s = mapM (fun b => snd (work b s')) bs.
  Proof.
    induction bs as [|b bs IH]; intros s s' H; [reflexivity|]. cbn [run_shared mapM].
    pose proof (H b) as Hb. pose proof (indep b) as Ib. specialize (IH (fst (work b s)) s').
    destruct (work b s) as [s2 r] eqn:W. cbn [fst snd] in *. rewrite <- Hb.
    destruct r as [x|e]; cbn [bind]; [|reflexivity]. rewrite IH; [reflexivity|].
    intros b'. specialize (Ib b' s). rewrite W in Ib. cbn [fst] in Ib. rewrite Ib. apply H.
  Qed.

  Lemma shared_alone bs s l : run_shared work bs s = Ok l <-> each_alone work s bs l.
  Proof. rewrite (shared_same bs s s) by reflexivity. apply mapM_alone. Qed.

  Lemma alone_concat s : forall cs l,
    (exists ls, Forall2 (fun c x => run_shared work c s = Ok x) cs ls /\ l = concat ls) <-> each_alone work s (concat cs) l.
  Proof.
    unfold each_alone. induction cs as [|c cs IH]; intros l; split.
    - intros (ls & F & ->). inversion F. constructor.
    - intros F. inversion F. exists []. split; [constructor|reflexivity].
    - intros (ls & F & ->). inversion F as [|? x ? ls' E F']; subst. cbn [concat]. apply Forall2_app.
      + now apply shared_alone.
      + apply IH. eauto.
    - cbn [concat]. intros F. apply Forall2_app_inv_l in F. destruct F as (l1 & l2 & F1 & F2 & ->).
      apply IH in F2. destruct F2 as (ls & F2 & ->). exists (l1 :: ls). split; [|reflexivity].
      constructor; [now apply shared_alone|exact F2].
  Qed.

  Lemma pool_independent w order bs s l :
    Permutation order (seq 0 (List.length (chunks (chunksize (List.length bs) w) bs))) ->
    (run_pool work w order bs s = Ok l <-> run_serial work bs s = Ok l).
  Proof.
    intros P. rewrite run_pool_spec by exact P. rewrite alone_concat, chunks_concat. symmetry. apply serial_alone.
  Qed.
End Jobs.

Lemma rest_independent {V E St} cmd coda_norm ignore (invert_fb : fixkw V -> R * R -> St -> St * res (option (bandres V)))
    (with_W : list (option V) -> E) source input stations events (freq_bands : bands) streams w order r :
  (forall kw b b' s, snd (invert_fb kw b' (fst (invert_fb kw b s))) = snd (invert_fb kw b' s)) ->
  Permutation order (seq 0 (List.length (chunks (chunksize (List.length freq_bands) w) freq_bands))) ->
  (invert_rest cmd coda_norm ignore (fun f => run_pool f w order) invert_fb with_W source input stations events freq_bands streams = Ok r <->
   invert_rest cmd coda_norm ignore (fun f => run_serial f) invert_fb with_W source input stations events freq_bands streams = Ok r).
Proof.
  intros I P. unfold invert_rest. destruct (station_names ignore stations) as [sts|]; cbn [bind]; [|reflexivity].
  destruct (fix_kw cmd freq_bands input) as [kw|]; cbn [bind]; [|reflexivity].
  assert (L : List.length (chunks (chunksize (List.length (map snd freq_bands)) w) (map snd freq_bands)) =
              List.length (chunks (chunksize (List.length freq_bands) w) freq_bands)).
  { rewrite map_length. generalize (chunksize (List.length freq_bands) w). intros c. unfold chunks.
    assert (G : forall (l : bands) k cur, List.length (chunks_from c k (map snd cur) (map snd l)) = List.length (chunks_from c k cur l)).
    { clear. induction l as [|b l IH]; intros k cur; cbn [map chunks_from].
      - destruct cur; reflexivity.
      - destruct k as [|k]; cbn [List.length].
        + f_equal. apply (IH _ [b]).
        + apply (IH _ (b :: cur)). }
    apply (G freq_bands c []). }
  rewrite <- L in P.
  pose proof (fun a => pool_independent (invert_fb kw) (I kw) w order (map snd freq_bands) streams a P) as J.
  destruct (run_pool (invert_fb kw) w order (map snd freq_bands) streams) as [a|e] eqn:A0,
    (run_serial (invert_fb kw) (map snd freq_bands) streams) as [b|e'] eqn:B0; cbn [bind].
  - pose proof (proj1 (J a) eq_refl). replace b with a by congruence. reflexivity.
  - pose proof (proj1 (J a) eq_refl). discriminate.
  - pose proof (proj2 (J b) eq_refl). discriminate.
  - split; discriminate.
Qed.

(** ** C62 *)
Lemma no_input {V E St} cmd coda_norm ignore jobs (invert_fb : fixkw V -> R * R -> St -> St * res (option (bandres V)))
    (with_W : list (option V) -> E) source stations sts events (freq_bands : bands) streams :
  cmd <> Go -> station_names ignore stations = Ok sts ->
  invert_rest cmd coda_norm ignore jobs invert_fb with_W source None stations events freq_bands streams = Err TypeError.
Proof. intros C N. unfold invert_rest. rewrite N. destruct cmd; [congruence|reflexivity|reflexivity]. Qed.

Lemma no_input_needed {V} (freq_bands : bands) (input : option (finput V)) :
  exists kw, fix_kw Go freq_bands input = Ok kw /\ kw_fix kw = None /\ kw_fix_sites kw = None.
Proof. eexists. split; [reflexivity|]. split; reflexivity. Qed.

(** ** C58 *)
Section Arrange.
  Context {V E : Type}.
  Variables (cmd : command) (coda_norm : bool).
  Variable with_W : list (option V) -> E.
  Variable source : list R -> string -> E -> option R -> res E.

  Lemma all_none {X} (l : list (option X)) :
    forallb (fun g => match g with None => true | Some _ => false end) l = true <-> forall x, In x l -> x = None.
  Proof.
    rewrite forallb_forall. split; intros H x I; specialize (H x I); [now destruct x|now subst].
  Qed.

  Lemma arrange_none stations events (freq_bands : bands) rlist o :
    NoDup stations -> NoDup events -> List.length rlist = List.length freq_bands ->
    InvModel.arrange cmd coda_norm with_W source stations events freq_bands rlist = Ok o ->
    (o = None <-> (forall r, In r rlist -> r = None) \/ (cmd = Go /\ forall r, In r rlist -> of_band br_g0 r = None)).
  Proof.
    intros NS NE L H. unfold InvModel.arrange in H.
    destruct (forallb _ rlist) eqn:FA.
    { injection H as <-. split; [|reflexivity]. intros _. left. now apply all_none. }
    destruct (InvModel.add_bands cmd coda_norm stations events rs_init _) as [st|] eqn:A; [|discriminate]. cbn [bind] in H.
    destruct (if w_ok coda_norm then _ else _) as [evs|] eqn:S; [|discriminate]. cbn [bind] in H.
    destruct (add_bands_spec cmd coda_norm stations events _ NS NE _ _ A) as (A1 & A2 & _).
    cbn [rs_init rs_freq rs_g0 rs_b app] in A1, A2.
    assert (L2 : List.length rlist = List.length (dkeys freq_bands)) by (unfold dkeys; now rewrite map_length).
    assert (CF : map fst (combine (dkeys freq_bands) rlist) = dkeys freq_bands /\ map snd (combine (dkeys freq_bands) rlist) = rlist).
    { clear - L2. revert L2. generalize (dkeys freq_bands). induction rlist as [|x l IH]; intros [|y m] Q; try discriminate; [split; reflexivity|].
      cbn. injection Q as Q. destruct (IH _ Q) as [-> ->]. split; reflexivity. }
    destruct CF as [CF CS]. rewrite CF in A1.
    assert (NEMP : rs_freq st <> []).
    { rewrite A1. intros Q. rewrite Q in L2. destruct rlist; [discriminate FA|discriminate L2]. }
    destruct (rs_freq st) as [|f fs] eqn:F; [congruence|]. cbn [orb] in H.
    assert (N1 : ~ (forall r, In r rlist -> r = None)) by (rewrite <- all_none; congruence).
    assert (GG : is_fix cmd = false -> rs_g0 st = map (of_band br_g0) rlist).
    { intros FX. destruct (A2 FX) as [G _]. rewrite G. rewrite <- CS at 2. now rewrite map_map. }
    destruct (negb (is_fix cmd) && _)%bool eqn:Q.
    - injection H as <-. split; [|reflexivity]. intros _. right. apply andb_true_iff in Q. destruct Q as [Q1 Q2].
      apply negb_true_iff in Q1. split; [now destruct cmd|]. rewrite (GG Q1) in Q2.
      intros r I. apply (proj1 (all_none _) Q2), in_map, I.
    - destruct (sort_dict DUMP_ORDER _) as [r'|]; [|discriminate]. cbn [bind] in H. injection H as <-.
      split; [discriminate|]. intros [N|[C N]]; [contradiction|]. exfalso. subst cmd. rewrite (GG eq_refl) in Q.
      cbn in Q. apply not_true_iff_false in Q. apply Q, all_none. intros x I. apply in_map_iff in I.
      destruct I as (r & <- & I). now apply N.
  Qed.
End Arrange.

Lemma alone_length {B S A} (work : B -> S -> S * res A) s bs l : each_alone work s bs l -> List.length l = List.length bs.
Proof. unfold each_alone. induction 1; cbn; congruence. Qed.

Lemma sites_kept {V E St} cmd (invert_fb : fixkw V -> R * R -> St -> St * res (option (bandres V)))
    (with_W : list (option V) -> E) source input stations events (freq_bands : bands) streams r :
  cmd <> Source -> NoDup stations -> NoDup events ->
  invert_rest cmd false false (fun f => run_serial f) invert_fb with_W source input stations events freq_bands streams = Ok (Some r) ->
  exists d, dget String.eqb r "R" = Some (RSites d) /\ forall x, In x (map fst d) <-> In x stations.
Proof.
  intros C NS NE H. unfold invert_rest in H. cbn [station_names bind] in H.
  destruct (fix_kw cmd freq_bands input) as [kw|]; [|discriminate]. cbn [bind] in H.
  destruct (run_serial (invert_fb kw) (map snd freq_bands) streams) as [l|] eqn:RS; [|discriminate]. cbn [bind] in H.
  apply serial_alone, alone_length in RS. rewrite map_length in RS.
  apply arrange_aligned in H; try assumption. destruct H as (_ & _ & _ & _ & H & _).
  destruct (H C eq_refl) as (d & D & K & _). eauto.
Qed.

Lemma sites_ignored {V E St} cmd (invert_fb : fixkw V -> R * R -> St -> St * res (option (bandres V)))
    (with_W : list (option V) -> E) source input ids events (freq_bands : bands) streams r :
  (forall n s l c, In (n, s, l, c) ids ->
     n <> "" /\ dot_free n /\ dot_free s /\ dot_free l /\ dot_free c) ->
  cmd <> Source -> NoDup events ->
  invert_rest cmd false true (fun f => run_serial f) invert_fb with_W source input
    (map (fun i => let '(n, s, l, c) := i in get_station (seed n s l c)) ids) events freq_bands streams = Ok (Some r) ->
  exists d, dget String.eqb r "R" = Some (RSites d) /\
    forall x, In x (map fst d) <-> exists n s l c, In (n, s, l, c) ids /\ x = get_station (seed "" s l c).
Proof.
  intros I C NE H. destruct (ignored_names_ok ids I) as (names & N & ND & K).
  assert (H2 : invert_rest cmd false false (fun f => run_serial f) invert_fb with_W source input names events freq_bands streams = Ok (Some r)).
  { unfold invert_rest in *. cbn [station_names] in *. rewrite N in H. exact H. }
  destruct (sites_kept _ _ _ _ _ _ _ _ _ _ C ND NE H2) as (d & D & M). exists d. split; [exact D|].
  intros x. now rewrite M.
Qed.
