(** C53: which given site responses are accepted. *)
From Coq Require Import String List Bool Arith Lia Reals Lra.
From Verif Require Import Base Pyf PyfOps FbModel LsqfbModel LsqfbSpec LsqfbProof LsqfbProof2.
Import ListNotations.
Open Scope R_scope.

Lemma log_of_flog v b : b = flog v -> b <> FNan -> log_of v b.
Proof.
  intros -> N. destruct v as [| | |x]; cbn in *; try congruence; [now constructor|].
  destruct (Rlt_dec 0 x); [now constructor|]. destruct (Rlt_dec x 0); [congruence|].
  assert (x = 0) by lra. subst. constructor.
Qed.

Lemma flog_log_of v b : log_of v b -> flog v = b /\ b <> FNan.
Proof.
  intros []; cbn; repeat (destruct (Rlt_dec _ _); try lra); split; congruence.
Qed.

Lemma source_logs o st : aligned st -> forall params a bs rs c,
  l_fix_sites o = Some params -> l_fix o = true ->
  build o st = Ok (a, bs, rs) -> List.length c = List.length (eventids st) ->
  exists Ws, decode o st (map FNum c) true rs = (Ws, rs) /\
    Forall2 (models_source (eventids st) Ws c) a (samples st) /\
    List.length Ws = List.length (eventids st) /\
    Forall2 (fun b s => exists v, dget String.eqb params (snd (fst s)) = Some v /\ log_of v b) bs (samples st).
Proof.
  intros AL params a bs rs c FS FX B LC. destruct (system_source o st AL params a bs rs c FS FX B LC) as (Ws & D & M & L & F).
  exists Ws. repeat (split; [assumption|]). clear -F. induction F as [|b s ? ? (v & V & E & N)]; constructor; [|assumption].
  exists v. split; [assumption|now apply log_of_flog].
Qed.

Lemma stretch_from {A} : forall ks (l : list A) x, In x (stretch ks l) -> In x l.
Proof.
  induction ks as [|k ks IH]; intros [|y l] x I; cbn in I; try contradiction.
  apply in_app_or in I. destruct I as [I|I]; [left; now apply repeat_spec in I|right; now apply IH].
Qed.

Lemma sites_allowed o st params : l_fix_sites o = Some params -> l_fix o = true ->
  (forall sta v, In (sta, v) params -> exists b, log_of v b) -> build o st <> Err AssertionError.
Proof.
  intros FS FX P. unfold build. rewrite FS, FX.
  assert (R : forall is rows, mapM (row_fix_sites st params) is = Ok rows -> forall r, In r rows -> exists sta, In (sta, snd r) params).
  { induction is as [|i is IH]; intros rows M r I; cbn [mapM] in M; [injection M as <-; contradiction|].
    destruct (row_fix_sites st params i) as [x|] eqn:X; [|discriminate]. cbn [bind] in M.
    destruct (mapM _ is) as [xs|]; [|discriminate]. cbn [bind] in M. injection M as <-.
    destruct I as [<-|I]; [|now apply (IH xs)]. unfold row_fix_sites in X.
    destruct (pair_at st i) as [[ev sta]|]; [|discriminate]. cbn [bind] in X.
    destruct (dget String.eqb params sta) as [v|] eqn:V; [|discriminate].
    destruct (index_of _ _) as [idx|]; [|discriminate]. cbn [bind] in X. destruct (put _ _ _) as [pa|]; [|discriminate].
    cbn [bind] in X. injection X as <-. exists sta. now apply (dget_In _ string_eqb_spec). }
  assert (E0 : forall is, mapM (row_fix_sites st params) is <> Err AssertionError).
  { induction is as [|i is IH]; cbn [mapM]; [discriminate|].
    assert (X : row_fix_sites st params i <> Err AssertionError).
    { unfold row_fix_sites, pair_at. destruct (pairs st) as [|p0 ps]; cbn [bind]; [discriminate|].
      destruct (nth_error _ _) as [[ev sta]|]; cbn [bind]; [|discriminate].
      destruct (dget String.eqb params sta) as [v|]; [|discriminate].
      destruct (index_of (eventids st) ev) as [idx|e] eqn:IX; cbn [bind].
      - destruct (put (repeat (FNum 0) (Ne st)) idx (FNum 1)) as [pa|e] eqn:PU; cbn [bind]; [discriminate|].
        intros Q. assert (e = AssertionError) by congruence. subst e. clear -PU. revert idx PU.
        induction (repeat (FNum 0) (Ne st)) as [|y l IH]; intros [|k] PU; cbn in PU; try discriminate.
        destruct (put l k (FNum 1)) eqn:E; cbn in PU; [discriminate|]. apply (IH k). congruence.
      - intros Q. assert (e = AssertionError) by congruence. subst e. clear -IX.
        induction (eventids st) as [|y l IH]; cbn in IX; try discriminate.
        destruct (String.eqb _ _); [discriminate|]. destruct (index_of l ev) eqn:E; cbn in IX; [discriminate|]. apply IH. congruence. }
    destruct (row_fix_sites st params i) as [x|e]; cbn [bind]; [|congruence].
    destruct (mapM _ is) as [xs|e]; cbn [bind]; [discriminate|]. intros Q. apply IH. congruence. }
  destruct (mapM (row_fix_sites st params) _) as [rows|e] eqn:M.
  - assert (N : existsb fisnan (stretch (block_lengths st) (map (fun r => flog (snd r)) rows)) = false).
    { destruct (existsb _ _) eqn:X; [|reflexivity]. exfalso. apply existsb_exists in X. destruct X as [z [I F]].
      apply stretch_from in I. apply in_map_iff in I. destruct I as [r [<- I]].
      destruct (R _ _ M r I) as [sta J]. destruct (P sta _ J) as [b LB]. apply flog_log_of in LB. destruct LB as [LE LN].
      cbv beta in F. rewrite LE in F. destruct b; discriminate || congruence. }
    cbn [bind]. rewrite N. destruct (l_coda_norm o); cbn [bind]; discriminate.
  - cbn [bind]. assert (e <> AssertionError) by (intros ->; apply (E0 _ M)). destruct (l_coda_norm o); cbn [bind]; congruence.
Qed.

Lemma ex_allowed : forall sta v, In (sta, v) [("A"%string, FNum 0); ("B"%string, FNum 2)] -> exists b, log_of v b.
Proof.
  intros sta v [E|[E|[]]]; injection E as <- <-; eexists; [apply LogZero|apply LogPos; lra].
Qed.
