(** C53: the system of equations and the decoded parameters. *)
From Coq Require Import String List Bool Reals Lra Lia ZArith Arith.
From Verif Require Import Base Pyf PyfOps StatModel StatProof FbModel LsqfbModel LsqfbSpec LsqfbProof.
Import ListNotations.
Open Scope string_scope.
Open Scope list_scope.
Open Scope R_scope.

Lemma nth_error_nth_R (l : list R) i : (i < List.length l)%nat -> nth_error l i = Some (nth i l 0).
Proof. intros H. now apply nth_error_nth'. Qed.

Lemma nth_firstn_R (l : list R) n i : (i < n)%nat -> nth i (firstn n l) 0 = nth i l 0.
Proof.
  revert n i. induction l as [|x l IH]; intros [|n] [|i] H; cbn; try lia; try reflexivity; auto.
  apply IH. lia.
Qed.

Lemma nth_skipn_R (l : list R) n i : nth i (skipn n l) 0 = nth (n + i) l 0.
Proof. revert l. induction n; intros [|x l]; cbn; auto. now destruct i. Qed.

Lemma Forall2_in_r {A B} (P : A -> B -> Prop) l m : Forall2 P l m ->
  forall y, In y m -> exists x, In x l /\ P x y.
Proof.
  induction 1 as [|x y l m H F IH]; intros z I; [destruct I|].
  destruct I as [<-|I]; [exists x; split; [now left|auto]|].
  destruct (IH z I) as (x' & I' & H'). exists x'. split; [now right|auto].
Qed.

Lemma Forall2_impl_in {A B} (P Q : A -> B -> Prop) l m :
  (forall x y, In x l -> In y m -> P x y -> Q x y) -> Forall2 P l m -> Forall2 Q l m.
Proof.
  intros H F. induction F as [|x y l m P1 F IH]; constructor.
  - apply H; cbn; auto.
  - apply IH. intros; apply H; cbn; auto.
Qed.

(** the times of the samples *)
Lemma combine_times (t : list R) : forall e : list pyf, List.length t = List.length e ->
  map fst (combine (map FNum t) e) = map FNum t.
Proof. intros e H. apply combine_fst. now rewrite map_length. Qed.

Definition stime (s : sample) : pyf := fst (snd s).
Definition senergy (s : sample) : pyf := snd (snd s).

Lemma flat_map_app_ {A B} (f : A -> list B) l m : flat_map f (l ++ m) = flat_map f l ++ flat_map f m.
Proof. induction l; cbn; [reflexivity|]. now rewrite IHl, app_assoc. Qed.

Lemma samples_columns st : aligned st ->
  map stime (samples st) = times st /\
  map senergy (samples st) = concat (w_ecoda st) ++ w_ebulk st.
Proof.
  intros AL. pose proof (aligned_lengths st AL) as LT. destruct AL as (NE & LE & F & LB & LP).
  unfold samples, blocks, times. rewrite flat_map_app_, !map_app.
  assert (C1 : forall (ps : list (string * string)) tc ec,
    Forall2 (fun t e => List.length t = List.length e) tc ec -> List.length ps = List.length ec ->
    map stime (flat_map (fun b => map (fun te => (fst b, te)) (snd b))
      (combine ps (map (fun te => combine (map FNum (fst te)) (snd te)) (combine tc ec))))
    = concat (map (map FNum) tc) /\
    map senergy (flat_map (fun b => map (fun te => (fst b, te)) (snd b))
      (combine ps (map (fun te => combine (map FNum (fst te)) (snd te)) (combine tc ec))))
    = concat ec).
  { clear. intros ps tc ec F. revert ps.
    induction F as [|t e tc ec H F IH]; intros [|p ps] L; cbn in L; try discriminate; [auto|].
    cbn [combine map flat_map concat fst snd]. rewrite !map_app.
    destruct (IH ps) as [-> ->]; [lia|]. rewrite !map_map. unfold stime, senergy. cbn [fst snd].
    change (fun x : pyf * pyf => fst x) with (@fst pyf pyf). change (fun x : pyf * pyf => snd x) with (@snd pyf pyf).
    rewrite combine_fst, combine_snd by (rewrite map_length; exact H). auto. }
  assert (C2 : forall (ps : list (string * string)) tb eb,
    List.length tb = List.length eb -> List.length ps = List.length eb ->
    map stime (flat_map (fun b => map (fun te => (fst b, te)) (snd b))
      (combine ps (map (fun te => [te]) (combine tb eb)))) = tb /\
    map senergy (flat_map (fun b => map (fun te => (fst b, te)) (snd b))
      (combine ps (map (fun te => [te]) (combine tb eb)))) = eb).
  { clear. intros ps. induction ps as [|p ps IH]; intros [|t tb] [|e eb] L1 L2; cbn in *; try discriminate; auto.
    destruct (IH tb eb) as [-> ->]; [lia|lia|]. auto. }
  destruct (C1 (pairs st) (w_tcoda st) (w_ecoda st) F ltac:(lia)) as [-> ->].
  destruct LP as [Z|LP].
  - rewrite Z in *. destruct (w_tbulk st); cbn in LB; [|discriminate]. cbn [combine map].
    assert (Q : combine (pairs st) (@nil (list (pyf * pyf))) = []) by now destruct (pairs st).
    rewrite Q. auto.
  - destruct (C2 (pairs st) (w_tbulk st) (w_ebulk st) LB ltac:(lia)) as [-> ->]. auto.
Qed.

Lemma put_times_spec (Q : sample -> list pyf -> Prop) ss : forall a a',
  Forall2 (fun x s => Q s x) a ss -> put_times a (map stime ss) = Ok a' ->
  Forall2 (fun x' s => exists x, Q s x /\ put_last x (fneg (stime s)) = Ok x') a' ss.
Proof.
  induction ss as [|s ss IH]; intros a a' F H; inversion F as [|x ? a1 ? Q1 F1]; subst; cbn [map put_times] in H.
  - injection H as <-. constructor.
  - destruct (put_last x (fneg (stime s))) as [x'|] eqn:P; [|discriminate]. cbn [bind] in H.
    destruct (put_times a1 (map stime ss)) as [a1'|] eqn:E; [|discriminate]. cbn [bind] in H.
    injection H as <-. constructor; eauto.
Qed.

Section P.
  Variable o : lopts.
  Variable st : wstate.
  Hypothesis AL : aligned st.

  Lemma sample_pair s : In s (samples st) -> In (fst s) (pairs st).
  Proof.
    unfold samples. rewrite in_flat_map. intros (b & B & I). apply in_map_iff in I.
    destruct I as (te & <- & _). cbn. exact (pairs_in_blocks _ _ B).
  Qed.

  Lemma Ns_pos : (0 < Ns st)%nat.
  Proof.
    unfold Ns. destruct AL as (NE & _). destruct (pairs st) as [|p ps'] eqn:E; [contradiction|].
    destruct (station_index st p) as [j J]; [rewrite E; now left|]. apply index_of_lt in J. lia.
  Qed.

  (** ** Decoded parameters *)
  Definition mean_of (c : list R) : R :=
    fold_right Rplus 0 (firstn (Ns st) c) / INR (Ns st).
  Definition w0_of (c : list R) : R := exp (mean_of c) / l_R0 o.
  Definition W_of (c : list R) : list R :=
    w0_of c :: map (fun x => exp x * w0_of c) (skipn (Ns st) (firstn (Ns st + Ne st - 1) c)).
  Definition R_of (c : list R) : list R := map (fun x => exp x / w0_of c) (firstn (Ns st) c).

  Lemma decode_spec c rs : 0 < l_R0 o -> l_coda_norm o = false -> List.length c = width o st ->
    decode o st (map FNum c) false rs = (map FNum (W_of c), map FNum (R_of c)).
  Proof.
    intros R0 CN LC. unfold decode. rewrite CN, map_length, LC.
    pose proof (fix01_le o) as F1. pose proof Ns_pos as NP. pose proof (Ne_pos _ AL) as EP.
    replace (Z.of_nat (width o st) - Z.of_nat (Ne st) + Z.of_nat (fix01 o))%Z with (Z.of_nat (Ns st))
      by (unfold width; lia).
    replace (Z.of_nat (width o st) - 1 + Z.of_nat (fix01 o))%Z with (Z.of_nat (Ns st + Ne st - 1))
      by (unfold width; lia).
    unfold slice_to, slice_of, clamp.
    assert (forall n, Z.ltb (Z.of_nat n) 0 = false) as Z0 by (intros; apply Z.ltb_ge; lia).
    rewrite !Z0, !Nat2Z.id, !firstn_map, skipn_map.
    assert (LF : List.length (firstn (Ns st) c) = Ns st).
    { rewrite firstn_length, LC. unfold width. lia. }
    rewrite fmean_num by (intros Q; rewrite Q in LF; cbn in LF; lia).
    rewrite LF. cbn [fexp]. fold (mean_of c). rewrite fdiv_num by lra. fold (w0_of c).
    assert (WP : 0 < w0_of c) by (unfold w0_of; apply Rmult_lt_0_compat; [apply exp_pos|now apply Rinv_0_lt_compat]).
    f_equal.
    - unfold W_of. cbn [map]. f_equal. rewrite !map_map. apply map_ext. reflexivity.
    - unfold R_of. rewrite !map_map. apply map_ext. intros x. cbn [fexp]. apply fdiv_num. lra.
  Qed.

  Lemma w0_pos c : 0 < l_R0 o -> 0 < w0_of c.
  Proof. intros. unfold w0_of. apply Rmult_lt_0_compat; [apply exp_pos|now apply Rinv_0_lt_compat]. Qed.

  (** value of a station and an event *)
  Lemma R_of_value c j sta : List.length c = width o st -> index_of (stations st) sta = Ok j ->
    value (stations st) (map FNum (R_of c)) sta (exp (nth j c 0) / w0_of c).
  Proof.
    intros LC J. exists j. split; [now apply index_of_spec|].
    pose proof (index_of_lt _ _ _ J) as JL. fold (Ns st) in JL. pose proof (fix01_le o) as F1. pose proof (Ne_pos _ AL) as EP.
    unfold R_of. rewrite map_map.
    rewrite (map_nth_error _ j (firstn (Ns st) c) (d := nth j c 0)); [reflexivity|].
    rewrite nth_error_nth_R; [now rewrite nth_firstn_R|]. rewrite firstn_length, LC. unfold width. lia.
  Qed.

  Lemma W_of_value c idx ev : List.length c = width o st -> index_of (eventids st) ev = Ok idx ->
    value (eventids st) (map FNum (W_of c)) ev
      (exp (if Nat.ltb 0 idx then nth (Ns st + idx - 1) c 0 else 0) * w0_of c).
  Proof.
    intros LC J. exists idx. split; [now apply index_of_spec|].
    pose proof (index_of_lt _ _ _ J) as JL. fold (Ne st) in JL. pose proof (fix01_le o) as F1.
    destruct idx as [|k]; unfold W_of; cbn [map nth_error].
    - do 2 f_equal. change (Nat.ltb 0 0) with false. cbv iota. rewrite exp_0. ring.
    - rewrite map_map. change (Nat.ltb 0 (S k)) with true. cbv iota.
      rewrite (map_nth_error _ k (skipn (Ns st) (firstn (Ns st + Ne st - 1) c)) (d := nth (Ns st + S k - 1) c 0)); [reflexivity|].
      rewrite nth_error_nth_R.
      + rewrite nth_skipn_R, nth_firstn_R by lia. do 2 f_equal. lia.
      + rewrite skipn_length, firstn_length, LC. unfold width. lia.
  Qed.

  Lemma decoded_row c j idx sta ev : 0 < l_R0 o -> List.length c = width o st ->
    index_of (stations st) sta = Ok j -> index_of (eventids st) ev = Ok idx ->
    exists r w, value (stations st) (map FNum (R_of c)) sta r /\
      value (eventids st) (map FNum (W_of c)) ev w /\ 0 < r /\ 0 < w /\
      nth j c 0 + (if Nat.ltb 0 idx then nth (Ns st + idx - 1) c 0 else 0) = ln r + ln w.
  Proof.
    intros R0 LC J I. pose proof (w0_pos c R0) as WP.
    eexists _, _. split; [exact (R_of_value c j sta LC J)|]. split; [exact (W_of_value c idx ev LC I)|].
    assert (0 < exp (nth j c 0) / w0_of c).
    { apply Rmult_lt_0_compat; [apply exp_pos|now apply Rinv_0_lt_compat]. }
    split; [assumption|]. split; [apply Rmult_lt_0_compat; [apply exp_pos|exact WP]|].
    unfold Rdiv. rewrite !ln_mult, !ln_exp, ln_Rinv by (try apply exp_pos; try apply Rinv_0_lt_compat; auto).
    ring.
  Qed.

  Lemma R_of_mean c : 0 < l_R0 o -> List.length c = width o st ->
    geometric_mean (map FNum (R_of c)) (l_R0 o).
  Proof.
    intros R0 LC. pose proof (w0_pos c R0) as WP. exists (R_of c). split; [reflexivity|].
    pose proof (fix01_le o) as F1. pose proof (Ne_pos _ AL) as EP. pose proof Ns_pos as NP.
    split; [|split; [exact R0|]].
    - intros y I. unfold R_of in I. apply in_map_iff in I. destruct I as (x & <- & _).
      apply Rmult_lt_0_compat; [apply exp_pos|now apply Rinv_0_lt_compat].
    - assert (LF : List.length (firstn (Ns st) c) = Ns st).
      { rewrite firstn_length, LC. unfold width. lia. }
      unfold R_of. rewrite map_map, map_length, LF.
      rewrite (map_ext _ (fun x => x - ln (w0_of c))).
      2:{ intros x. unfold Rdiv. rewrite ln_mult, ln_exp, ln_Rinv; auto; [apply exp_pos|now apply Rinv_0_lt_compat]. }
      assert (E : ln (w0_of c) = mean_of c - ln (l_R0 o)).
      { unfold w0_of, Rdiv. rewrite ln_mult, ln_exp, ln_Rinv; auto; [apply exp_pos|now apply Rinv_0_lt_compat]. }
      rewrite E. clear E.
      assert (S : forall l k, fold_right Rplus 0 (map (fun x => x - k) l) = fold_right Rplus 0 l - INR (List.length l) * k).
      { clear. intros l k. induction l as [|x l IH]; [cbn; lra|]. cbn [map fold_right List.length].
        rewrite IH, S_INR. ring. }
      rewrite S, LF. unfold mean_of. field. apply not_0_INR. lia.
  Qed.

  Lemma build_free a bs rs : l_coda_norm o = false -> l_fix_sites o = None ->
    build o st = Ok (a, bs, rs) ->
    exists a0, Forall2 (fun x s => row_of o st (fst s) = Ok x) a0 (samples st) /\
      bs = [] /\ if l_fix o then a = a0 else put_times a0 (times st) = Ok a.
  Proof.
    intros CN FS. unfold build. rewrite CN, FS.
    destruct (mapM (row_free o st) _) as [rows|] eqn:M; [|discriminate]. cbn [bind].
    apply (mapM_blocks st AL _ (row_of o st)) in M; [|exact (row_free_of o st)].
    intros H. exists (stretch (block_lengths st) rows). split; [|split].
    - rewrite (blocks_lengths st AL). exact (Forall2_stretch (fun p x => row_of o st p = Ok x) (blocks st) rows M).
    - destruct (l_fix o); [now injection H|]. destruct (put_times _ _); [|discriminate]. now injection H.
    - destruct (l_fix o); [now injection H as <-|]. destruct (put_times _ _) as [a1|]; [|discriminate].
      now injection H as <-.
  Qed.

  (** C53, command go *)
  Lemma system_free a bs rs c : l_coda_norm o = false -> l_fix_sites o = None -> l_fix o = false ->
    0 < l_R0 o -> build o st = Ok (a, bs, rs) ->
    List.length c = (List.length (stations st) + List.length (eventids st))%nat ->
    exists Ws Rs, decode o st (map FNum c) false rs = (Ws, Rs) /\
      Forall2 (models_free (eventids st) (stations st) Ws Rs (last c 0) c) a (samples st) /\
      List.length Ws = List.length (eventids st) /\ List.length Rs = List.length (stations st) /\
      geometric_mean Rs (l_R0 o).
  Proof.
    intros CN FS FX R0 B LC. fold (Ns st) (Ne st) in LC.
    assert (LW : List.length c = width o st) by (unfold width, fix01; rewrite FX; lia).
    exists (map FNum (W_of c)), (map FNum (R_of c)). split; [now apply decode_spec|].
    pose proof (Ne_pos _ AL) as EP.
    split; [|split; [|split; [|now apply R_of_mean]]].
    - destruct (build_free _ _ _ CN FS B) as (a0 & F & _ & P). rewrite FX in P.
      destruct (samples_columns st AL) as [TS _]. rewrite <- TS in P.
      pose proof (put_times_spec (fun s x => row_of o st (fst s) = Ok x) _ _ _ F P) as F2.
      refine (Forall2_impl_in _ _ _ _ _ F2). intros row s _ IS (row0 & RO & PL) t T.
      pose proof (sample_pair s IS) as IP.
      destruct (station_index st _ IP) as [j J]. destruct (event_index st _ IP) as [idx I].
      destruct (row_of_spec o st _ _ _ J I) as (r0 & E0 & L0 & Z0 & D0).
      rewrite RO in E0. injection E0 as ->. unfold stime in PL. rewrite T in PL. cbn [fneg] in PL.
      destruct (put_last_spec r0 (- t)) as (row' & P' & L' & D').
      { intros Q. rewrite Q in L0. cbn in L0. unfold width in LW. pose proof Ns_pos.
        unfold width, fix01 in L0. rewrite FX in L0. lia. }
      rewrite P' in PL. injection PL as <-.
      destruct (decoded_row c j idx _ _ R0 LW J I) as (r & w & V1 & V2 & RP & WP & EQ).
      exists row', r, w. split; [reflexivity|]. split; [lia|]. split; [exact V1|]. split; [exact V2|].
      split; [exact RP|]. split; [exact WP|].
      rewrite D' by lia. rewrite D0 by exact LW. rewrite (Z0 FX), EQ. ring.
    - rewrite map_length. unfold W_of. cbn [List.length].
      rewrite map_length, skipn_length, firstn_length, LC. fold (Ne st). lia.
    - rewrite map_length. unfold R_of. rewrite map_length, firstn_length, LC. fold (Ns st). lia.
  Qed.

  (** C53, command fixed *)
  Lemma system_fixed a bs rs c : l_coda_norm o = false -> l_fix_sites o = None -> l_fix o = true ->
    0 < l_R0 o -> build o st = Ok (a, bs, rs) ->
    List.length c = (List.length (stations st) + List.length (eventids st) - 1)%nat ->
    exists Ws Rs, decode o st (map FNum c) false rs = (Ws, Rs) /\
      Forall2 (models_fixed (eventids st) (stations st) Ws Rs c) a (samples st) /\
      List.length Ws = List.length (eventids st) /\ List.length Rs = List.length (stations st) /\
      geometric_mean Rs (l_R0 o).
  Proof.
    intros CN FS FX R0 B LC. fold (Ns st) (Ne st) in LC.
    assert (LW : List.length c = width o st) by (unfold width, fix01; rewrite FX; lia).
    exists (map FNum (W_of c)), (map FNum (R_of c)). split; [now apply decode_spec|].
    pose proof (Ne_pos _ AL) as EP.
    split; [|split; [|split; [|now apply R_of_mean]]].
    - destruct (build_free _ _ _ CN FS B) as (a0 & F & _ & P). rewrite FX in P. subst a0.
      refine (Forall2_impl_in _ _ _ _ _ F). intros row s _ IS RO.
      pose proof (sample_pair s IS) as IP.
      destruct (station_index st _ IP) as [j J]. destruct (event_index st _ IP) as [idx I].
      destruct (row_of_spec o st _ _ _ J I) as (r0 & E0 & L0 & Z0 & D0).
      rewrite RO in E0. injection E0 as ->.
      destruct (decoded_row c j idx _ _ R0 LW J I) as (r & w & V1 & V2 & RP & WP & EQ).
      exists r0, r, w. split; [reflexivity|]. split; [lia|]. split; [exact V1|]. split; [exact V2|].
      split; [exact RP|]. split; [exact WP|]. rewrite D0 by exact LW. exact EQ.
    - rewrite map_length. unfold W_of. cbn [List.length].
      rewrite map_length, skipn_length, firstn_length, LC. fold (Ne st). lia.
    - rewrite map_length. unfold R_of. rewrite map_length, firstn_length, LC. fold (Ns st). lia.
  Qed.

  (** ** Command source *)
  Definition row_sites (params : list (string * pyf)) (p : string * string) : res (list pyf * pyf) :=
    let (evid, sta) := p in
    match dget String.eqb params sta with
    | None => Err KeyError
    | Some site_resp =>
        do idx <- index_of (eventids st) evid;
        do a <- put (repeat (FNum 0) (Ne st)) idx (FNum 1);
        Ok (a, site_resp)
    end.

  Lemma row_fix_sites_of params i p : pair_at st i = Ok p -> row_fix_sites st params i = row_sites params p.
  Proof. intros H. unfold row_fix_sites, row_sites. rewrite H. destruct p. reflexivity. Qed.

  Lemma stretch_map {A B} (f : A -> B) ks : forall l, stretch ks (map f l) = map f (stretch ks l).
  Proof.
    induction ks as [|k ks IH]; intros [|x l]; cbn; auto. rewrite map_app, IH. f_equal.
    symmetry. apply map_repeat.
  Qed.

  Lemma build_sites params a bs rs : l_fix_sites o = Some params -> l_fix o = true ->
    build o st = Ok (a, bs, rs) ->
    exists xs, Forall2 (fun x s => row_sites params (fst s) = Ok x) xs (samples st) /\
      a = map fst xs /\ bs = map (fun x => flog (snd x)) xs /\ existsb fisnan bs = false.
  Proof.
    intros FS FX. unfold build. rewrite FS, FX.
    destruct (mapM (row_fix_sites st params) _) as [rows|] eqn:M; [|now destruct (l_coda_norm o)].
    apply (mapM_blocks st AL _ (row_sites params)) in M; [|exact (row_fix_sites_of params)].
    cbn [bind]. rewrite !stretch_map.
    destruct (existsb fisnan _) eqn:E; [now destruct (l_coda_norm o)|].
    intros H. exists (stretch (block_lengths st) rows).
    assert (H' : map fst (stretch (block_lengths st) rows) = a /\
                 map (fun r => flog (snd r)) (stretch (block_lengths st) rows) = bs).
    { destruct (l_coda_norm o); cbn [bind] in H; injection H; auto. }
    destruct H' as [<- <-]. split; [|auto].
    rewrite (blocks_lengths st AL). exact (Forall2_stretch (fun p x => row_sites params p = Ok x) (blocks st) rows M).
  Qed.

  Lemma row_sites_spec params p idx x :
    index_of (eventids st) (fst p) = Ok idx -> row_sites params p = Ok x ->
    exists row, fst x = map FNum row /\ List.length row = Ne st /\
      dget String.eqb params (snd p) = Some (snd x) /\
      forall c, List.length c = Ne st -> dotr row c = nth idx c 0.
  Proof.
    intros I H. destruct p as [ev sta]. cbn [fst snd] in *. unfold row_sites in H. rewrite I in H.
    destruct (dget String.eqb params sta) as [v|]; [|discriminate]. cbn [bind] in H.
    pose proof (index_of_lt _ _ _ I) as IL. fold (Ne st) in IL.
    replace (repeat (FNum 0) (Ne st)) with (map FNum (repeat 0 (Ne st))) in H by apply map_repeat.
    destruct (put_spec (repeat 0 (Ne st)) idx 1) as (a & P & L & N & D).
    { now rewrite repeat_length. }
    rewrite P in H. cbn [bind] in H. injection H as <-. exists a. cbn [fst snd].
    rewrite repeat_length in L. split; [reflexivity|]. split; [exact L|]. split; [reflexivity|].
    intros c LC. rewrite D by (rewrite repeat_length; exact LC). rewrite dotr_zeros, nth_repeat0. lra.
  Qed.

  (** C53, command source: the site responses are those of the parameters *)
  Lemma system_source params a bs rs c : l_fix_sites o = Some params -> l_fix o = true ->
    build o st = Ok (a, bs, rs) -> List.length c = List.length (eventids st) ->
    exists Ws, decode o st (map FNum c) true rs = (Ws, rs) /\
      Forall2 (models_source (eventids st) Ws c) a (samples st) /\
      List.length Ws = List.length (eventids st) /\
      Forall2 (fun b s => exists v, dget String.eqb params (snd (fst s)) = Some v /\ b = flog v /\ b <> FNan)
        bs (samples st).
  Proof.
    intros FS FX B LC. exists (map FNum (map exp c)). split.
    { unfold decode. f_equal. rewrite !map_map. reflexivity. }
    destruct (build_sites _ _ _ _ FS FX B) as (xs & F & -> & EB & NB).
    split; [|split; [now rewrite !map_length|]].
    - assert (G : Forall2 (fun x s => models_source (eventids st) (map FNum (map exp c)) c (fst x) s) xs (samples st)).
      { refine (Forall2_impl_in _ _ _ _ _ F). intros x s _ IS RO. pose proof (sample_pair s IS) as IP.
        destruct (event_index st _ IP) as [idx I].
        destruct (row_sites_spec _ _ _ _ I RO) as (row & E & L & _ & D).
        pose proof (index_of_lt _ _ _ I) as IL. fold (Ne st) in IL, LC.
        exists row, (exp (nth idx c 0)). split; [exact E|]. split; [lia|]. split.
        - exists idx. split; [now apply index_of_spec|]. rewrite map_map.
          rewrite (map_nth_error _ idx c (d := nth idx c 0)); [reflexivity|].
          apply nth_error_nth_R. lia.
        - split; [apply exp_pos|]. rewrite ln_exp. now apply D. }
      clear - G. revert G. generalize (samples st). induction xs as [|x xs IH]; intros l G; inversion G; subst; cbn; constructor; auto.
    - assert (G : Forall2 (fun x s => exists v, dget String.eqb params (snd (fst s)) = Some v /\ flog (snd x) = flog v) xs (samples st)).
      { refine (Forall2_impl_in _ _ _ _ _ F). intros x s _ IS RO. pose proof (sample_pair s IS) as IP.
        destruct (event_index st _ IP) as [idx I].
        destruct (row_sites_spec _ _ _ _ I RO) as (row & E & L & V & D). eauto. }
      rewrite EB in *. clear - G NB. revert G. generalize (samples st).
      induction xs as [|x xs IH]; intros l G; inversion G as [|? s ? l' (v & V & E) G']; subst; cbn; constructor.
      + exists v. cbn in NB. apply orb_false_iff in NB. destruct NB as [NB _].
        split; [exact V|]. split; [exact E|]. intros Q. rewrite Q in NB. discriminate.
      + apply IH; [|exact G']. cbn in NB. apply orb_false_iff in NB. tauto.
  Qed.
End P.
