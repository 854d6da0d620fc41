(** Proofs about the arrangement of results (C58, C35). *)
From Coq Require Import String List Bool Reals Lra Lia ZArith Arith Permutation.
From Verif Require Import Base Pyf FreqsModel FreqsProof SortModel SortProof EventModel
  SourceModel SourceProof3 SourceProof4 LsqfbModel InvModel InvSpec InvProof.
Import ListNotations.
Open Scope string_scope.
Open Scope list_scope.
Open Scope R_scope.

Lemma aligned_map {A B} (f : A -> B) xs : aligned f xs (map f xs).
Proof. split; [apply map_length|]. intros i x N. rewrite nth_error_map, N. reflexivity. Qed.

Lemma dget_perm {V} (a b : list (string * V)) k : NoDup (map fst b) -> Permutation a b ->
  dget String.eqb a k = dget String.eqb b k.
Proof.
  intros ND P. assert (NA : NoDup (map fst a)) by (apply (Permutation_NoDup (Permutation_map fst (Permutation_sym P))), ND).
  destruct (dget String.eqb b k) as [v|] eqn:E.
  - apply (dget_In _ string_eqb_spec) in E. apply (dget_nodup _ string_eqb_spec); [exact NA|].
    now apply (Permutation_in _ (Permutation_sym P)).
  - apply (dget_None _ string_eqb_spec) in E. apply (dget_None _ string_eqb_spec). intros Q. apply E.
    now apply (Permutation_in _ (Permutation_map fst P)).
Qed.

(** ** appending to lists of a dictionary *)
Lemma append_at_get {A} (d : list (string * list A)) k x k' :
  dget String.eqb (append_at d k x) k' =
  if String.eqb k' k then Some ((match dget String.eqb d k with Some l => l | None => [] end) ++ [x])
  else dget String.eqb d k'.
Proof.
  unfold append_at. destruct (String.eqb k' k) eqn:E.
  - apply String.eqb_eq in E. subst. apply (dget_dset_eq _ string_eqb_spec).
  - apply (dget_dset_neq _ string_eqb_spec). now apply String.eqb_neq.
Qed.

Definition lst {A} (d : list (string * list A)) (k : string) : list A :=
  match dget String.eqb d k with Some l => l | None => [] end.

Lemma append_fold {A} (f : string -> A) keys : forall d, NoDup keys ->
  let d' := fold_left (fun d k => append_at d k (f k)) keys d in
  (forall k, In k keys -> dget String.eqb d' k = Some (lst d k ++ [f k])) /\
  (forall k, ~ In k keys -> dget String.eqb d' k = dget String.eqb d k) /\
  (NoDup (map fst d) -> NoDup (map fst d')) /\
  (forall k, In k (map fst d') <-> In k (map fst d) \/ In k keys).
Proof.
  induction keys as [|k0 keys IH]; intros d ND; cbn [fold_left].
  - cbn. split; [tauto|]. split; [auto|]. split; [auto|]. intros k. tauto.
  - inversion ND as [|? ? NI ND']; subst. destruct (IH (append_at d k0 (f k0)) ND') as (I1 & I2 & I3 & I4).
    split; [|split; [|split]].
    + intros k [->|I].
      * rewrite I2 by exact NI. rewrite append_at_get, String.eqb_refl. reflexivity.
      * rewrite I1 by exact I. f_equal. f_equal. unfold lst. rewrite append_at_get.
        assert (E : String.eqb k k0 = false) by (apply String.eqb_neq; intros ->; contradiction).
        now rewrite E.
    + intros k N. rewrite I2 by (intros Q; apply N; now right). rewrite append_at_get.
      assert (E : String.eqb k k0 = false) by (apply String.eqb_neq; intros ->; apply N; now left).
      now rewrite E.
    + intros H. apply I3. unfold append_at. apply dset_nodup; [exact string_eqb_spec|exact H].
    + intros k. rewrite I4. unfold append_at. rewrite (dset_in_keys _ string_eqb_spec). cbn. intuition congruence.
Qed.

Section Arrange.
  Context {V E : Type}.
  Variables (cmd : command) (coda_norm : bool).
  Variable with_W : list (option V) -> E.
  Variable source : list R -> string -> E -> option R -> res E.
  Notation add_band := (add_band (V := V) cmd coda_norm).
  Notation add_bands := (add_bands (V := V) cmd coda_norm).
  Notation r_ok := (r_ok cmd coda_norm).
  Notation w_ok := (w_ok coda_norm).

  Notation wanted := (expected cmd coda_norm).

  Lemma add_band_ok stations events st x : (exists st', add_band stations events st x = Ok st') <-> wanted (snd x).
  Proof.
    destruct x as [c r]. cbn [snd]. unfold InvModel.add_band.
    destruct r as [r|]; cbn [expected].
    - destruct cmd, coda_norm, (br_g0 r) eqn:G, (br_b r) eqn:B, (br_R r) eqn:RR, (br_W r) eqn:WW; cbn;
        (split; [intros (st' & H); try discriminate; intuition congruence
                |intros (H1 & H2 & H3); first [eexists; reflexivity | exfalso; intuition congruence]]).
    - rewrite !andb_false_r. split; [auto|eauto].
  Qed.

  Lemma add_band_spec stations events st x st' : add_band stations events st x = Ok st' ->
    rs_freq st' = rs_freq st ++ [fst x] /\
    (is_fix cmd = false -> rs_g0 st' = rs_g0 st ++ [of_band br_g0 (snd x)] /\ rs_b st' = rs_b st ++ [of_band br_b (snd x)]) /\
    rs_v0 st' = match snd x with Some r => Some (br_v0 r) | None => rs_v0 st end /\
    rs_error st' = rs_error st ++ [of_band (fun r => Some (br_error r)) (snd x)] /\
    rs_n st' = rs_n st ++ [count_of (snd x)] /\
    (r_ok = true -> rs_R st' = fold_left (fun d k => append_at d k (of_dict br_R k (snd x))) stations (rs_R st)) /\
    (w_ok = true -> rs_W st' = fold_left (fun d k => append_at d k (of_dict br_W k (snd x))) events (rs_W st)).
  Proof.
    destruct x as [c r]. cbn [fst snd]. unfold InvModel.add_band.
    do 4 (match goal with |- (if ?c then _ else _) = _ -> _ => destruct c; [discriminate|] end).
    intros [= <-]. cbn [rs_freq rs_g0 rs_b rs_v0 rs_error rs_n rs_R rs_W].
    split; [reflexivity|]. split; [intros ->; destruct r; auto|]. split; [destruct r; reflexivity|].
    split; [destruct r; reflexivity|]. split; [destruct r; reflexivity|].
    split; intros ->; destruct r; reflexivity.
  Qed.

  Lemma add_bands_ok stations events l : forall st,
    (exists st', add_bands stations events st l = Ok st') <-> (forall x, In x l -> wanted (snd x)).
  Proof.
    induction l as [|x l IH]; intros st; cbn [InvModel.add_bands].
    - split; [intros _ x []|eauto].
    - split.
      + intros (st' & H). destruct (add_band stations events st x) as [s|] eqn:A; [|discriminate]. cbn [bind] in H.
        intros y [<-|I]; [apply (add_band_ok stations events st); eauto|]. apply (proj1 (IH s)); eauto.
      + intros H. destruct (proj2 (add_band_ok stations events st x)) as (s & A); [apply H; now left|].
        rewrite A. cbn [bind]. apply IH. intros y I. apply H. now right.
  Qed.

  Lemma add_bands_spec stations events l : NoDup stations -> NoDup events -> forall st st',
    add_bands stations events st l = Ok st' ->
    rs_freq st' = rs_freq st ++ map fst l /\
    (is_fix cmd = false -> rs_g0 st' = rs_g0 st ++ map (fun x => of_band br_g0 (snd x)) l /\
                           rs_b st' = rs_b st ++ map (fun x => of_band br_b (snd x)) l) /\
    rs_error st' = rs_error st ++ map (fun x => of_band (fun r => Some (br_error r)) (snd x)) l /\
    rs_n st' = rs_n st ++ map (fun x => count_of (snd x)) l /\
    (r_ok = true -> (forall k, In k stations -> lst (rs_R st') k = lst (rs_R st) k ++ map (fun x => of_dict br_R k (snd x)) l) /\
        (NoDup (map fst (rs_R st)) -> NoDup (map fst (rs_R st'))) /\
        (forall k, In k (map fst (rs_R st')) <-> In k (map fst (rs_R st)) \/ (l <> [] /\ In k stations))) /\
    (w_ok = true -> (forall k, In k events -> lst (rs_W st') k = lst (rs_W st) k ++ map (fun x => of_dict br_W k (snd x)) l) /\
        (NoDup (map fst (rs_W st)) -> NoDup (map fst (rs_W st'))) /\
        (forall k, In k (map fst (rs_W st')) <-> In k (map fst (rs_W st)) \/ (l <> [] /\ In k events))).
  Proof.
    intros NS NE. induction l as [|x l IH]; intros st st' H; cbn [InvModel.add_bands] in H.
    - injection H as <-. cbn [map]. rewrite !app_nil_r. do 4 (split; [auto|]).
      split; intros _; (split; [intros; now rewrite app_nil_r|]; split; [auto|intros k; intuition congruence]).
    - destruct (add_band stations events st x) as [s|] eqn:A; [|discriminate]. cbn [bind] in H.
      apply add_band_spec in A. destruct A as (A1 & A2 & _ & A4 & A5 & A6 & A7).
      destruct (IH _ _ H) as (I1 & I2 & I4 & I5 & I6 & I7). cbn [map].
      split; [now rewrite I1, A1, <- app_assoc|].
      split. { intros F. destruct (A2 F) as [G B]. destruct (I2 F) as [G' B']. now rewrite G', B', G, B, <- !app_assoc. }
      split; [now rewrite I4, A4, <- app_assoc|]. split; [now rewrite I5, A5, <- app_assoc|].
      split; intros O.
      + specialize (A6 O). destruct (I6 O) as (J1 & J2 & J3).
        destruct (append_fold (fun k => of_dict br_R k (snd x)) stations (rs_R st) NS) as (F1 & _ & F3 & F4).
        rewrite <- A6 in F1, F3, F4. split; [|split; [auto|]].
        * intros k K. rewrite (J1 k K). unfold lst at 1. rewrite (F1 k K), <- app_assoc. reflexivity.
        * intros k. rewrite J3, F4. intuition congruence.
      + specialize (A7 O). destruct (I7 O) as (J1 & J2 & J3).
        destruct (append_fold (fun k => of_dict br_W k (snd x)) events (rs_W st) NE) as (F1 & _ & F3 & F4).
        rewrite <- A7 in F1, F3, F4. split; [|split; [auto|]].
        * intros k K. rewrite (J1 k K). unfold lst at 1. rewrite (F1 k K), <- app_assoc. reflexivity.
        * intros k. rewrite J3, F4. intuition congruence.
  Qed.

  Lemma add_bands_v0 stations events l : forall st st', add_bands stations events st l = Ok st' ->
    ((forall x, In x l -> snd x = None) /\ rs_v0 st' = rs_v0 st) \/
    (exists v0, rs_v0 st' = Some v0 /\ last_v0 (map snd l) v0).
  Proof.
    induction l as [|x l IH]; intros st st' H; cbn [InvModel.add_bands] in H.
    - injection H as <-. left. split; [intros x []|reflexivity].
    - destruct (add_band stations events st x) as [s|] eqn:A; [|discriminate]. cbn [bind] in H.
      apply add_band_spec in A. destruct A as (_ & _ & A & _). cbn [map].
      destruct (IH _ _ H) as [(N & Q)|(v0 & Q & l1 & r & l2 & L & B & N)].
      + rewrite A in Q. destruct (snd x) as [r|] eqn:X.
        * right. exists (br_v0 r). split; [exact Q|]. exists [], r, (map snd l). split; [reflexivity|]. split; [reflexivity|].
          intros y I. apply in_map_iff in I. destruct I as (z & <- & I). now apply N.
        * left. split; [|exact Q]. intros y [<-|I]; auto.
      + right. exists v0. split; [exact Q|]. exists (snd x :: l1), r, l2. rewrite L. split; [reflexivity|auto].
  Qed.

  (** ** source properties *)
  Lemma add_source_spec freq v0 events : NoDup events -> forall d d',
    (forall ev, In ev events -> In ev (map fst d)) ->
    add_source with_W source freq v0 events d = Ok d' ->
    map fst d' = map fst d /\
    (forall ev, ~ In ev events -> dget String.eqb d' ev = dget String.eqb d ev) /\
    (forall ev, In ev events -> exists e e', dget String.eqb d ev = Some e /\
       source freq ev e v0 = Ok e' /\ dget String.eqb d' ev = Some e').
  Proof.
    induction events as [|ev events IH]; intros ND d d' SUB H; cbn [add_source] in H.
    - injection H as <-. split; [reflexivity|]. split; [auto|]. intros ev [].
    - inversion ND as [|? ? NI ND']; subst.
      destruct (dget String.eqb d ev) as [e|] eqn:G.
      2:{ apply (dget_None _ string_eqb_spec) in G. exfalso. apply G, SUB. now left. }
      destruct (source freq ev e v0) as [e'|] eqn:S; [|discriminate]. cbn [bind] in H.
      assert (K : map fst (dset String.eqb d ev e') = map fst d).
      { clear - G. induction d as [|[k x] d I]; [discriminate|]. cbn in *. destruct (String.eqb ev k) eqn:Q; cbn; [|now rewrite I].
        apply String.eqb_eq in Q. now subst. }
      assert (SUB' : forall x, In x events -> In x (map fst (dset String.eqb d ev e'))).
      { intros x X. rewrite K. apply SUB. now right. }
      destruct (IH ND' _ _ SUB' H) as (I1 & I2 & I3).
      rewrite K in I1. split; [exact I1|]. split.
      + intros x X. rewrite I2 by (intros Q; apply X; now right). apply (dget_dset_neq _ string_eqb_spec).
        intros ->. apply X. now left.
      + intros x [<-|X].
        * exists e, e'. split; [exact G|]. split; [exact S|]. rewrite I2 by exact NI. apply (dget_dset_eq _ string_eqb_spec).
        * destruct (I3 x X) as (a & b & A & B & C). exists a, b. split; [|auto].
          rewrite (dget_dset_neq _ string_eqb_spec) in A; [exact A|]. intros ->. contradiction.
  Qed.

  Lemma add_source_ok freq v0 events : (forall ev e, In ev events -> exists e', source freq ev e v0 = Ok e') ->
    forall d, exists d', add_source with_W source freq v0 events d = Ok d'.
  Proof.
    intros H. induction events as [|ev events IH]; intros d; cbn [add_source]; [eauto|].
    destruct (H ev (match dget String.eqb d ev with Some e => e | None => with_W [] end) (or_introl eq_refl)) as (e' & ->).
    cbn [bind]. apply IH. intros. apply H. now right.
  Qed.

  (** ** the result *)
  Lemma items_keys st evs :
    NoDup (map fst (result_items cmd coda_norm st evs)) /\
    forall k, In k (map fst (result_items (V := V) (E := E) cmd coda_norm st evs)) -> In k DUMP_ORDER.
  Proof.
    unfold result_items. destruct r_ok, (rs_freq st), (is_fix cmd), (rs_v0 st); cbn [app map fst];
      (split; [repeat constructor; cbn; intuition discriminate|cbn; tauto]).
  Qed.

  Lemma dget_map_snd {A B} (f : A -> B) (d : list (string * A)) k :
    dget String.eqb (map (fun kw => (fst kw, f (snd kw))) d) k = option_map f (dget String.eqb d k).
  Proof. induction d as [|[x y] d IH]; [reflexivity|]. cbn. destruct (String.eqb k x); [reflexivity|exact IH]. Qed.

  Notation arrange := (arrange cmd coda_norm with_W source).

  Lemma arrange_aligned stations events (freq_bands : bands) rlist r :
    NoDup stations -> NoDup events -> List.length rlist = List.length freq_bands ->
    arrange stations events freq_bands rlist = Ok (Some r) ->
    dget String.eqb r "freq" = Some (RFreq (dkeys freq_bands)) /\
    (cmd = Go -> exists g0 b, dget String.eqb r "g0" = Some (RNums g0) /\ aligned (of_band br_g0) rlist g0 /\
       dget String.eqb r "b" = Some (RNums b) /\ aligned (of_band br_b) rlist b) /\
    (exists err, dget String.eqb r "error" = Some (RNums err) /\ aligned (of_band (fun r => Some (br_error r))) rlist err) /\
    (exists n, dget String.eqb r "nstations" = Some (RCounts n) /\ aligned count_of rlist n) /\
    (cmd <> Source -> coda_norm = false -> exists d, dget String.eqb r "R" = Some (RSites d) /\
       (forall sta, In sta (map fst d) <-> In sta stations) /\
       forall sta, In sta stations -> exists l, dget String.eqb d sta = Some l /\ aligned (of_dict br_R sta) rlist l) /\
    (exists v0, dget String.eqb r "v0" = Some (RV0 v0) /\ last_v0 rlist v0 /\
     exists d, dget String.eqb r "events" = Some (REvents d) /\
       (forall ev, In ev (map fst d) <-> In ev events /\ coda_norm = false) /\
       (coda_norm = false -> forall ev, In ev events -> exists W e,
          aligned (of_dict br_W ev) rlist W /\ source (dkeys freq_bands) ev (with_W W) (Some v0) = Ok e /\
          dget String.eqb d ev = Some e)).
  Proof.
    intros NS NE L H. unfold InvModel.arrange in H.
    destruct (forallb _ rlist) eqn:FA; [discriminate|].
    destruct (InvModel.add_bands cmd coda_norm stations events rs_init _) as [st|] eqn:A; [|discriminate]. cbn [bind] in H.
    destruct (if w_ok then _ else _) as [evs|] eqn:S; [|discriminate]. cbn [bind] in H.
    destruct (_ || _)%bool; [discriminate|].
    destruct (sort_dict DUMP_ORDER _) as [r'|] eqn:SD; [|discriminate]. cbn [bind] in H. injection H as <-.
    destruct (items_keys st evs) as [ND KN].
    assert (P : Permutation r' (result_items cmd coda_norm st evs)).
    { destruct (sort_dict_ok DUMP_ORDER _ KN) as (d' & E1 & P & _). rewrite SD in E1. now injection E1 as ->. }
    assert (G : forall k, dget String.eqb r' k = dget String.eqb (result_items cmd coda_norm st evs) k).
    { intros k. now apply dget_perm. }
    assert (L2 : List.length rlist = List.length (dkeys freq_bands)) by (unfold dkeys; now rewrite map_length).
    assert (CF : map fst (combine (dkeys freq_bands) rlist) = dkeys freq_bands).
    { clear - L2. revert L2. generalize (dkeys freq_bands). induction rlist as [|x l IH]; intros [|y m] Q; try discriminate; [reflexivity|].
      cbn. f_equal. apply IH. now injection Q. }
    assert (CS : map snd (combine (dkeys freq_bands) rlist) = rlist).
    { clear - L2. revert L2. generalize (dkeys freq_bands). induction rlist as [|x l IH]; intros [|y m] Q; try discriminate; [reflexivity|].
      cbn. f_equal. apply IH. now injection Q. }
    assert (CM : forall B (f : option (bandres V) -> B), map (fun x => f (snd x)) (combine (dkeys freq_bands) rlist) = map f rlist).
    { intros B f. rewrite <- map_map. now rewrite CS. }
    assert (NEMP : rlist <> []) by (intros ->; discriminate).
    assert (NEMPc : combine (dkeys freq_bands) rlist <> []) by (intros Q; rewrite Q in CS; cbn in CS; congruence).
    destruct (add_bands_spec stations events _ NS NE _ _ A) as (A1 & A2 & A4 & A5 & A6 & A7).
    cbn [rs_init rs_freq rs_g0 rs_b rs_error rs_n rs_R rs_W app] in A1, A2, A4, A5, A6, A7.
    rewrite CF in A1. rewrite !CM in A2. rewrite CM in A4, A5.
    assert (V0 : exists v0, rs_v0 st = Some v0 /\ last_v0 rlist v0).
    { destruct (add_bands_v0 stations events _ _ _ A) as [(N & _)|(v0 & Q & LV)].
      - exfalso. assert (T : forallb (fun r => match r with Some _ => false | None => true end) rlist = true); [|congruence].
        apply forallb_forall. intros x I. rewrite <- CS in I. apply in_map_iff in I. destruct I as (y & <- & I).
        now rewrite (N y I).
      - rewrite CS in LV. eauto. }
    assert (FE : exists f fs, rs_freq st = f :: fs).
    { rewrite A1. destruct (dkeys freq_bands) as [|f fs]; [|eauto]. destruct rlist; [congruence|discriminate]. }
    destruct FE as (f0 & fs & FE). destruct V0 as (v0 & V0 & LV).
    assert (GI : result_items cmd coda_norm st evs =
      (if r_ok then [("R", RSites (rs_R st))] else []) ++ [("events", REvents evs)] ++
      ([("freq", RFreq (dkeys freq_bands))] ++
        (if is_fix cmd then [] else [("g0", RNums (rs_g0 st)); ("b", RNums (rs_b st))]) ++
        [("error", RNums (rs_error st)); ("nstations", RCounts (rs_n st))]) ++ [("v0", RV0 v0)]).
    { unfold result_items. rewrite V0, <- A1. destruct (rs_freq st) eqn:Q; [discriminate|]. reflexivity. }
    clear FE. rewrite GI in G. clear GI ND KN P SD.
    split. { rewrite G. destruct r_ok; reflexivity. }
    split. { intros ->. destruct (A2 eq_refl) as [G0 B0]. exists (rs_g0 st), (rs_b st).
      rewrite !G. split; [destruct InvModel.r_ok; reflexivity|]. split; [rewrite G0; apply aligned_map|].
      split; [destruct InvModel.r_ok; reflexivity|]. rewrite B0; apply aligned_map. }
    split. { exists (rs_error st). rewrite G. split; [destruct r_ok, (is_fix cmd); reflexivity|]. rewrite A4. apply aligned_map. }
    split. { exists (rs_n st). rewrite G. split; [destruct r_ok, (is_fix cmd); reflexivity|]. rewrite A5. apply aligned_map. }
    split.
    { intros NSo CN. assert (RO : r_ok = true) by (unfold InvModel.r_ok; rewrite CN; destruct cmd; [reflexivity|reflexivity|congruence]).
      destruct (A6 RO) as (J1 & J2 & J3). exists (rs_R st). rewrite G, RO. split; [reflexivity|].
      split. { intros sta. rewrite J3. cbn. intuition. }
      intros sta I. specialize (J1 sta I). rewrite CM in J1. cbn [app] in J1.
      exists (map (of_dict br_R sta) rlist). split; [|apply aligned_map].
      unfold lst in J1. destruct (dget String.eqb (rs_R st) sta) as [l|] eqn:Q; [now f_equal|].
      apply (dget_None _ string_eqb_spec) in Q. exfalso. apply Q. apply J3. auto. }
    exists v0. split. { rewrite G. destruct r_ok, (is_fix cmd); reflexivity. }
    split; [exact LV|]. exists evs. split. { rewrite G. destruct r_ok; reflexivity. }
    destruct coda_norm eqn:CN.
    { cbn in S. injection S as <-. split; [intros ev; cbn; intuition discriminate|discriminate]. }
    change (InvModel.w_ok false) with true in A7, S. destruct (A7 eq_refl) as (J1 & J2 & J3).
    assert (KW : map fst (map (fun kw : string * list (option V) => (fst kw, with_W (snd kw))) (rs_W st)) = map fst (rs_W st))
      by (rewrite map_map; reflexivity).
    assert (SUB : forall ev, In ev events -> In ev (map fst (map (fun kw : string * list (option V) => (fst kw, with_W (snd kw))) (rs_W st)))).
    { intros ev I. rewrite KW. apply J3. auto. }
    destruct (add_source_spec (rs_freq st) (rs_v0 st) events NE _ _ SUB S) as (K1 & _ & K3).
    rewrite KW in K1. split. { intros ev. rewrite K1, J3. cbn. intuition. }
    intros _ ev I. destruct (K3 ev I) as (e & e' & D1 & D2 & D3). rewrite dget_map_snd in D1.
    specialize (J1 ev I). rewrite CM in J1. cbn [app] in J1. unfold lst in J1.
    destruct (dget String.eqb (rs_W st) ev) as [l|] eqn:Q; [|discriminate]. cbn in D1. injection D1 as <-.
    exists l, e'. split; [rewrite J1; apply aligned_map|]. rewrite <- A1, <- V0. auto.
  Qed.

  (** the arrangement never meets an unknown key *)
  Lemma arrange_total stations events (freq_bands : bands) rlist :
    (forall r, In r rlist -> wanted r) ->
    (coda_norm = false -> forall freq ev e v0, In ev events -> exists e', source freq ev e v0 = Ok e') ->
    exists r, arrange stations events freq_bands rlist = Ok r.
  Proof.
    intros W S. unfold InvModel.arrange. destruct (forallb _ rlist); [eauto|].
    destruct (proj2 (add_bands_ok stations events (combine (dkeys freq_bands) rlist) rs_init)) as (st & ->).
    { intros [c r] I. apply in_combine_r in I. now apply W. }
    cbn [bind].
    assert (EV : exists evs, (if w_ok then add_source with_W source (rs_freq st) (rs_v0 st) events
                                 (map (fun kw => (fst kw, with_W (snd kw))) (rs_W st)) else Ok []) = Ok evs).
    { destruct w_ok eqn:WO; [|eauto]. apply add_source_ok. intros ev e I. apply S; [|exact I].
      unfold InvModel.w_ok in WO. now destruct coda_norm. }
    destruct EV as (evs & ->). cbn [bind]. destruct (_ || _)%bool; [eauto|].
    destruct (items_keys st evs) as [_ KN]. destruct (proj2 (known_sort (result_items cmd coda_norm st evs)) KN) as (r & E1).
    rewrite E1. cbn [bind]. eauto.
  Qed.

  (** errors come from a band with a value that was not asked for or from the source properties *)
  Lemma arrange_err stations events (freq_bands : bands) rlist e :
    arrange stations events freq_bands rlist = Err e ->
    (e = AssertionError /\ exists r, In r rlist /\ ~ wanted r) \/
    (exists freq ev d v0, In ev events /\ source freq ev d v0 = Err e).
  Proof.
    unfold InvModel.arrange. destruct (forallb _ rlist); [discriminate|].
    destruct (InvModel.add_bands cmd coda_norm stations events rs_init _) as [st|e'] eqn:A; cbn [bind].
    - destruct (if w_ok then _ else _) as [evs|e'] eqn:S; cbn [bind].
      + destruct (_ || _)%bool; [discriminate|].
        destruct (items_keys st evs) as [_ KN]. destruct (proj2 (known_sort (result_items cmd coda_norm st evs)) KN) as (r & ->).
        discriminate.
      + intros [= ->]. right. destruct w_ok; [|discriminate]. clear A. revert S.
        generalize (map (fun kw : string * list (option V) => (fst kw, with_W (snd kw))) (rs_W st)).
        induction events as [|ev events IH]; intros d S; cbn [add_source] in S; [discriminate|].
        destruct (source _ ev _ _) as [x|e'] eqn:Q; cbn [bind] in S.
        * destruct (IH _ S) as (f & ev' & d' & v & I & K). exists f, ev', d', v. split; [now right|exact K].
        * injection S as ->. eexists _, _, _, _. split; [now left|exact Q].
    - intros [= ->]. left. revert A. generalize (rs_init (V := V)).
      assert (SUB : forall x, In x (combine (dkeys freq_bands) rlist) -> In (snd x) rlist).
      { intros [c r] I. now apply in_combine_r in I. }
      revert SUB. generalize (combine (dkeys freq_bands) rlist).
      induction l as [|x l IH]; intros SUB st A; cbn [InvModel.add_bands] in A; [discriminate|].
      destruct (add_band stations events st x) as [s|e'] eqn:B; cbn [bind] in A.
      + apply (IH (fun y I => SUB y (or_intror I)) _ A).
      + injection A as ->. split.
        * revert B. unfold InvModel.add_band. destruct x.
          repeat (match goal with |- (if ?c then _ else _) = _ -> _ => destruct c; [congruence|] end). discriminate.
        * exists (snd x). split; [apply SUB; now left|]. intros W. apply (add_band_ok stations events st) in W.
          destruct W as (s & W). congruence.
  Qed.
End Arrange.

(** ** Event dictionaries *)
Section Event.
  Variables (rlm1 : list R -> R) (lin2 : bool -> list R -> list R -> R * R)
    (min1 : (R -> R) -> option (R * R) -> res R)
    (minN : (list R -> R) -> list R -> list (option (R * R)) -> res (list R)).
  Notation inplace := (insert_source_inplace rlm1 lin2 min1 minN).
  Notation insert := (insert_source_properties rlm1 lin2 min1 minN).
  Notation event_source := (event_source rlm1 lin2 min1 minN).

  Lemma inplace_catmag freq ev v0 rho0 method so catmag ev' :
    inplace freq ev v0 rho0 method so catmag = Ok ev' ->
    exists ev0, inplace freq ev v0 rho0 method so None = Ok ev0 /\
      (ev' = ev0 \/ exists c, ev' = dset String.eqb ev0 "Mcat" (VNum c)).
  Proof.
    unfold insert_source_inplace. destruct (dget String.eqb ev "W") as [[| |W|]|]; try discriminate.
    destruct (insert_spectra freq W v0 rho0 ev) as [e1|]; [|discriminate]. cbn [bind].
    unfold insert_fit. destruct (method_truthy method) as [m|]; [|intros [= <-]; eauto].
    destruct (dget String.eqb e1 "sds") as [[| |omM|]|]; try discriminate.
    destruct (smo_kwargs so) as [o|]; [|discriminate]. cbn [bind].
    destruct (fit_sds _ _ _ _ _ _ _ _) as [fr|]; [|discriminate]. cbn [bind]. intros [= <-].
    eexists. split; [reflexivity|]. destruct catmag as [c|]; cbn [insert_catmag]; [right; eauto|now left].
  Qed.

  (** W is kept and the keys are known *)
  Lemma event_source_W rho0 method so mags freq ev W v0 e :
    event_source rho0 method so mags freq ev (event_W W) v0 = Ok e ->
    dget String.eqb e "W" = Some (VList W) /\ forall k, In k (map fst e) -> In k DUMP_ORDER.
  Proof.
    unfold InvModel.event_source, insert_source_properties.
    change (dsetdefault String.eqb (event_W W) "sds" (VList [])) with [("W", VList W); ("sds", VList [])].
    destruct (inplace freq _ v0 rho0 method so (mags ev)) as [e1|] eqn:I; [|discriminate]. cbn [bind].
    destruct (sort_dict DUMP_ORDER e1) as [srt|] eqn:S; [|discriminate]. cbn [bind snd]. intros [= <-].
    destruct (insert_keys _ _ _ _ _ _ _ _ _ _ _ _ I) as (K1 & _ & K3).
    assert (ND : NoDup (map fst e1)) by (apply K1; cbn; repeat constructor; cbn; intuition discriminate).
    assert (KN : forall k, In k (map fst e1) -> In k DUMP_ORDER).
    { intros k Q. apply K3 in Q. destruct Q as [Q|Q]; [|now apply new_keys_known]. cbn in Q.
      destruct Q as [<-|[<-|[]]]; cbn; tauto. }
    destruct (sort_dict_ok DUMP_ORDER e1 KN) as (d' & S' & P & _). rewrite S in S'. injection S' as <-.
    split.
    - rewrite (dget_perm srt e1) by assumption. destruct (inplace_catmag _ _ _ _ _ _ _ _ I) as (e0 & I0 & Q).
      pose proof (insert_untouched _ _ _ _ _ _ _ _ _ _ _ "W" I0) as U.
      assert (NW : ~ In "W" new_keys) by (cbn; intuition discriminate). specialize (U NW).
      destruct Q as [->|(c & ->)]; [exact U|]. rewrite (dget_dset_neq _ string_eqb_spec) by discriminate. exact U.
    - intros k Q. apply KN. apply (Permutation_in _ (Permutation_map fst P)). exact Q.
  Qed.

  (** the final sort_dict of insert_source_properties never fails for known keys *)
  Lemma insert_sorts freq ev v0 rho0 method so catmag ev' :
    (forall k, In k (map fst ev) -> In k DUMP_ORDER) ->
    inplace freq ev v0 rho0 method so catmag = Ok ev' ->
    exists srt, insert freq ev v0 rho0 method so catmag = Ok (ev', srt) /\
      forall k, In k (map fst srt) -> In k DUMP_ORDER.
  Proof.
    intros K I. unfold insert_source_properties. rewrite I. cbn [bind].
    destruct (insert_keys _ _ _ _ _ _ _ _ _ _ _ _ I) as (_ & _ & K3).
    assert (KN : forall k, In k (map fst ev') -> In k DUMP_ORDER).
    { intros k Q. apply K3 in Q. destruct Q as [Q|Q]; [auto|now apply new_keys_known]. }
    destruct (sort_dict_ok DUMP_ORDER ev' KN) as (d' & S' & P & _). rewrite S'. cbn [bind]. exists d'. split; [reflexivity|].
    intros k Q. apply KN. apply (Permutation_in _ (Permutation_map fst P)). exact Q.
  Qed.

  Lemma event_source_sds rho0 method so mags freq ev W v0 e :
    v0 <> 0 -> rho0 <> 0 -> List.length W = List.length freq -> W <> [] ->
    event_source (Some rho0) method so mags freq ev (event_W W) (Some v0) = Ok e ->
    exists s, dget String.eqb e "sds" = Some (VList s) /\ List.length s = List.length freq /\
      forall i f w, nth_error freq i = Some f -> nth_error W i = Some w ->
        nth_error s i = Some
          match w with
          | None => None
          | Some x => if Req_EM_T x 0 then None else Some (sds x f v0 rho0)
          end.
  Proof.
    intros V0 R0 L NE. unfold InvModel.event_source.
    change (dsetdefault String.eqb (event_W W) "sds" (VList [])) with [("W", VList W); ("sds", VList [])].
    destruct (insert _ _ _ _ _ _ _) as [[e1 srt]|] eqn:I; [|discriminate]. cbn [bind snd].
    intros [= <-]. destruct (insert_aligned rlm1 lin2 min1 minN freq [("W", VList W); ("sds", VList [])] v0 rho0 method so (mags ev) e1 srt W eq_refl L NE V0 R0 I) as (P & s & D & H).
    exists s. split; [|exact H]. rewrite (dget_perm srt e1); [exact D| |exact P].
    revert I. unfold insert_source_properties.
    destruct (inplace freq _ _ _ _ _ _) as [e2|] eqn:J; [|discriminate]. cbn [bind].
    destruct (sort_dict DUMP_ORDER e2) as [x|]; [|discriminate]. cbn [bind]. intros Q.
    apply (f_equal (fun r => match r with Ok x => fst x | Err _ => [] end)) in Q. cbn [fst] in Q. rewrite <- Q.
    apply (insert_keys _ _ _ _ _ _ _ _ _ _ _ _ J). cbn. repeat constructor; cbn; intuition discriminate.
  Qed.
End Event.

(** ** the bands of the inversion have only what the arrangement expects *)
Lemma band_wanted cmd coda_norm o st v0 r s :
  l_fix o = is_fix cmd -> l_coda_norm o = coda_norm ->
  (cmd = Source -> l_fix_sites o <> None) ->
  invert_band o st v0 = Ok (r, s) -> expected cmd coda_norm (option_map bandres_of r).
Proof.
  intros F C S H. unfold invert_band in H. destruct (pairs st) as [|p ps]; [discriminate|].
  destruct (choose o st) as [[[rs f]|]|]; cbn [bind] in H; [|injection H as <- <-; exact I|discriminate].
  destruct (_ || _)%bool; injection H as <- <-; [exact I|].
  cbn. rewrite F, C. destruct cmd, coda_norm; cbn; destruct (l_fix_sites o); intuition congruence.
Qed.

(** ** C61 for the result dictionary *)
Lemma rest_agree {V E St} cmd coda_norm ignore (invert_fb : fixkw V -> R * R -> St -> St * res (option (bandres V)))
    (with_W : list (option V) -> E) source input stations events (freq_bands : bands) streams w order r :
  (0 < w)%nat -> (List.length freq_bands <= 4 * w)%nat ->
  Permutation order (seq 0 (List.length freq_bands)) ->
  (invert_rest cmd coda_norm ignore (fun f => run_pool f w order) invert_fb with_W source input stations events freq_bands streams = Ok r <->
   invert_rest cmd coda_norm ignore (fun f => run_serial f) invert_fb with_W source input stations events freq_bands streams = Ok r).
Proof.
  intros W L P. unfold invert_rest. destruct (station_names ignore stations) as [sts|]; cbn [bind]; [|reflexivity].
  destruct (fix_kw cmd freq_bands input) as [kw|]; cbn [bind]; [|reflexivity].
  assert (L' : List.length (map snd freq_bands) = List.length freq_bands) by apply map_length.
  destruct (jobs_agree (invert_fb kw) w order (map snd freq_bands) streams W) as [J _]; [lia|now rewrite L'|].
  destruct (run_pool (invert_fb kw) w order (map snd freq_bands) streams) as [a|e] eqn:A, (run_serial (invert_fb kw) (map snd freq_bands) streams) as [b|e'] eqn:B; cbn [bind].
  - pose proof (proj1 (J a) eq_refl). replace b with a by congruence. reflexivity.
  - pose proof (proj1 (J a) eq_refl). discriminate.
  - pose proof (proj2 (J b) eq_refl). discriminate.
  - split; discriminate.
Qed.

(** ** C58 for two events with the same id *)
Lemma duplicate_events :
  exists (rid1 rid2 : string) (freq_bands : bands) (rlist : list (option (bandres nat))) r d W,
    rid1 <> rid2 /\ NoDup ["ST"] /\ List.length rlist = List.length freq_bands /\
    arrange Go false (fun l => l) (fun _ _ (e : list (option nat)) _ => Ok e) ["ST"]
      [get_eventid rid1; get_eventid rid2] freq_bands rlist = Ok (Some r) /\
    dget String.eqb r "events" = Some (REvents d) /\ dget String.eqb d (get_eventid rid1) = Some W /\
    List.length W = (2 * List.length freq_bands)%nat.
Proof.
  exists "a/1", "b/1", [(3, (2, 4))],
    [Some {| br_g0 := Some 1%nat; br_b := Some 2%nat; br_W := Some [("1", 5%nat)]; br_R := Some [("ST", 1%nat)];
             br_n := 1; br_error := 0%nat; br_v0 := 3 |}].
  eexists _, _, _. split; [discriminate|]. split; [repeat constructor; auto|]. split; [reflexivity|].
  split; [reflexivity|]. split; [reflexivity|]. split; reflexivity.
Qed.
