(** Lemmas about collected results. *)
From Coq Require Import String List Bool Arith Lia.
From Verif Require Import Base Pyf CollectModel CollectSpec.
Import ListNotations.
Open Scope string_scope.
Open Scope list_scope.

Notation sget := (dget String.eqb).

Lemma sget_eq {V} (d : list (string * V)) k v : sget (dset String.eqb d k v) k = Some v.
Proof. apply (dget_dset_eq String.eqb string_eqb_spec). Qed.

Lemma sget_neq {V} (d : list (string * V)) k k2 v :
  k2 <> k -> sget (dset String.eqb d k v) k2 = sget d k2.
Proof. apply (dget_dset_neq String.eqb string_eqb_spec). Qed.

Lemma getter_value freqi r c v :
  c <> "eventid" -> freq_getter freqi r c = Ok v -> value_at freqi c r v.
Proof.
  unfold freq_getter, value_at. intros N. destruct freqi as [i|]; [|congruence].
  cbn [inb existsb]. apply String.eqb_neq in N. rewrite N. cbn [orb].
  destruct (String.eqb c "v0"); cbn [orb]; [congruence|].
  destruct r as [x|l|d]; try discriminate.
  destruct (nth_error l i) as [x|] eqn:E; [|discriminate]. intros [= <-]. eauto.
Qed.

(** rows in a defaultdict: the key exists once something has been appended *)
Definition rows_opt (rows : list rval) : option cval :=
  match rows with [] => None | _ => Some (CRows rows) end.

Definition ids_opt (ids : list string) : option cval :=
  match ids with [] => None | _ => Some (CIds ids) end.

Lemma app_ne {A} (l : list A) x : exists y r, l ++ [x] = y :: r.
Proof. destruct l; cbn; eauto. Qed.

Lemma append_row_ok col c x col' :
  append_row col c x = Ok col' ->
  (forall c', c' <> c -> sget col' c' = sget col c') /\
  forall rows, sget col c = rows_opt rows -> sget col' c = rows_opt (rows ++ [x]).
Proof.
  unfold append_row. intros E. split.
  - intros c' N. destruct (sget col c) as [[]|]; try discriminate; injection E as <-; now rewrite sget_neq.
  - intros rows R. rewrite R in E. destruct rows as [|y r]; cbn [rows_opt] in E; injection E as <-;
      now rewrite sget_eq.
Qed.

Lemma append_id_ok col c x col' :
  append_id col c x = Ok col' ->
  (forall c', c' <> c -> sget col' c' = sget col c') /\
  forall ids, sget col c = ids_opt ids -> sget col' c = ids_opt (ids ++ [x]).
Proof.
  unfold append_id. intros E. split.
  - intros c' N. destruct (sget col c) as [[]|]; try discriminate; injection E as <-; now rewrite sget_neq.
  - intros rows R. rewrite R in E. destruct rows as [|y r]; cbn [ids_opt] in E; injection E as <-;
      now rewrite sget_eq.
Qed.

Section C.
  Variable freqi : option nat.

  Notation collect_key := (collect_key freqi).

  Lemma key_err id r keys e : fold_left (collect_key id r) keys (Err e) = Err e.
  Proof. induction keys; cbn; auto. Qed.

  Lemma key_other id r col c col' c' :
    collect_key id r (Ok col) c = Ok col' -> c' <> c -> sget col' c' = sget col c'.
  Proof.
    unfold CollectModel.collect_key. cbn [bind]. intros E N.
    destruct (String.eqb c "eventid") eqn:C1; [now apply (append_id_ok col c id col')|].
    destruct (String.eqb c "R" && dmem String.eqb r "R") eqn:C2.
    - destruct (sget r "R") as [[]|]; try discriminate.
      destruct (sget col "R") as [[]|]; try discriminate.
      destruct (fold_left _ _ _) as [d'|]; [|discriminate]. cbn [bind] in E. injection E as <-.
      apply andb_true_iff in C2. destruct C2 as [C2 _]. apply String.eqb_eq in C2. subst c.
      now rewrite sget_neq.
    - destruct (sget r c) as [v|]; [|congruence].
      destruct (freq_getter freqi v c) as [x|]; [|discriminate]. cbn [bind] in E.
      now apply (append_row_ok col c x col').
  Qed.

  (** in one event every key is treated once *)
  Lemma keys_once id r keys : NoDup keys -> forall col col',
    fold_left (collect_key id r) keys (Ok col) = Ok col' ->
    forall c,
      (~ In c keys -> sget col' c = sget col c) /\
      (In c keys -> exists col1 col2, sget col1 c = sget col c /\
         collect_key id r (Ok col1) c = Ok col2 /\ sget col' c = sget col2 c).
  Proof.
    induction 1 as [|k keys NI ND IH]; intros col col' E c.
    - cbn in E. injection E as <-. split; [auto|intros []].
    - cbn [fold_left] in E.
      destruct (collect_key id r (Ok col) k) as [col1|e] eqn:K; [|rewrite key_err in E; discriminate].
      destruct (IH col1 col' E c) as [A B]. split.
      + intros N. rewrite A by (intros H; apply N; now right).
        eapply key_other; [exact K|]. intros ->. apply N. now left.
      + intros [->|H].
        * exists col, col1. repeat split; auto.
        * destruct (B H) as (c1 & c2 & B1 & B2 & B3). exists c1, c2. split; [|auto].
          rewrite B1. eapply key_other; [exact K|]. intros ->. contradiction.
  Qed.

  Lemma event_err collect evs e : fold_left (collect_event freqi collect) evs (Err e) = Err e.
  Proof.
    induction evs as [|[id [r|]] evs IH]; cbn [fold_left]; auto;
      unfold collect_event at 2; cbn [snd fst]; rewrite ?key_err; exact IH.
  Qed.

  (** the row of an event under key c *)
  Definition row_of (c : string) (e : string * evdict) (v : rval) : Prop :=
    exists r0, sget (snd e) c = Some r0 /\ value_at freqi c r0 v.

  Lemma with_result_app a b : with_result (a ++ b) = with_result a ++ with_result b.
  Proof. induction a as [|[id [r|]] a IH]; cbn; auto. now rewrite IH. Qed.

  Section Keys.
    Variable collect : list string.
    Hypothesis ND : NoDup collect.

    (** rows of key c after the events *)
    Lemma rows_after c : In c collect -> c <> "eventid" -> c <> "R" ->
      forall evs col0 col, sget col0 c = None ->
      fold_left (collect_event freqi collect) evs (Ok col0) = Ok col ->
      exists rows, sget col c = rows_opt rows /\
        Forall2 (row_of c) (with_key evs c) rows.
    Proof.
      intros I NE NR evs col0 col C0. revert col.
      induction evs as [|ev evs IH] using rev_ind; intros col E.
      - cbn in E. injection E as <-. exists []. split; [exact C0|constructor].
      - rewrite fold_left_app in E. cbn [fold_left] in E.
        destruct (fold_left (collect_event freqi collect) evs (Ok col0)) as [col1|e] eqn:F.
        2:{ unfold collect_event in E. destruct ev as [id [r|]]; cbn [snd fst] in E;
            [rewrite key_err in E|]; discriminate. }
        destruct (IH col1 eq_refl) as (rows & R & F2).
        unfold with_key. rewrite with_result_app, filter_app.
        destruct ev as [id [r|]]; unfold collect_event in E; cbn [snd fst] in E.
        + destruct (keys_once id r collect ND col1 col E c) as [_ K].
          destruct (K I) as (c1 & c2 & K1 & K2 & K3). rewrite R in K1.
          unfold CollectModel.collect_key in K2. cbn [bind] in K2.
          apply String.eqb_neq in NE. rewrite NE in K2.
          apply String.eqb_neq in NR. rewrite NR in K2. cbn [andb] in K2.
          cbn [with_result filter snd]. unfold dmem.
          destruct (sget r c) as [r0|] eqn:RC.
          * destruct (freq_getter freqi r0 c) as [x|] eqn:G; [|discriminate]. cbn [bind] in K2.
            apply append_row_ok in K2. destruct K2 as [_ K2]. rewrite (K2 rows K1) in K3.
            exists (rows ++ [x]). split; [exact K3|]. apply Forall2_app; [exact F2|].
            constructor; [|constructor]. exists r0. split; [exact RC|].
            apply getter_value; [now apply String.eqb_neq|exact G].
          * injection K2 as <-. exists rows. split; [congruence|]. now rewrite app_nil_r.
        + injection E as <-. cbn [with_result filter]. rewrite app_nil_r. eauto.
    Qed.

    Lemma ids_after : In "eventid" collect ->
      forall evs col0 col, sget col0 "eventid" = None ->
      fold_left (collect_event freqi collect) evs (Ok col0) = Ok col ->
      sget col "eventid" = ids_opt (map fst (with_result evs)).
    Proof.
      intros I evs col0 col C0. revert col.
      induction evs as [|ev evs IH] using rev_ind; intros col E.
      - cbn in E. injection E as <-. exact C0.
      - rewrite fold_left_app in E. cbn [fold_left] in E.
        destruct (fold_left (collect_event freqi collect) evs (Ok col0)) as [col1|e] eqn:F.
        2:{ unfold collect_event in E. destruct ev as [id [r|]]; cbn [snd fst] in E;
            [rewrite key_err in E|]; discriminate. }
        specialize (IH col1 eq_refl). rewrite with_result_app, map_app.
        destruct ev as [id [r|]]; unfold collect_event in E; cbn [snd fst] in E.
        + destruct (keys_once id r collect ND col1 col E "eventid") as [_ K].
          destruct (K I) as (c1 & c2 & K1 & K2 & K3). rewrite IH in K1.
          unfold CollectModel.collect_key in K2. cbn [bind] in K2.
          rewrite String.eqb_refl in K2. apply append_id_ok in K2. destruct K2 as [_ K2].
          rewrite K3. now apply K2.
        + injection E as <-. cbn [with_result map]. now rewrite app_nil_r.
    Qed.

    (** rows of a station: a key of the inner defaultdict *)
    Definition list_opt (rows : list rval) : option (list rval) :=
      match rows with [] => None | _ => Some rows end.

    Lemma append_site_ok d sta x :
      (forall s, s <> sta -> sget (append_site d sta x) s = sget d s) /\
      forall rows, sget d sta = list_opt rows -> sget (append_site d sta x) sta = list_opt (rows ++ [x]).
    Proof.
      unfold append_site. split.
      - intros s N. destruct (sget d sta); now rewrite sget_neq.
      - intros rows R. rewrite R. destruct rows as [|y r]; cbn [list_opt]; now rewrite sget_eq.
    Qed.

    (** the loop over the stations of one event, core.py:382-383 *)
    Definition site_step (acc : res (list (string * list rval))) (sR : string * list pyf) :=
      do d <- acc;
      do x <- freq_getter freqi (VList (snd sR)) "R";
      Ok (append_site d (fst sR) x).

    Lemma site_err l e : fold_left site_step l (Err e) = Err e.
    Proof. induction l; cbn; auto. Qed.

    Lemma sites_once l : NoDup (map fst l) -> forall d d',
      fold_left site_step l (Ok d) = Ok d' ->
      forall sta, match sget l sta with
        | None => sget d' sta = sget d sta
        | Some R => forall rows, sget d sta = list_opt rows ->
            exists v, value_at freqi "R" (VList R) v /\ sget d' sta = list_opt (rows ++ [v])
        end.
    Proof.
      induction l as [|[s R] l IH]; intros N d d' E sta.
      - cbn in E. injection E as <-. reflexivity.
      - cbn [map fst] in N. inversion N as [|? ? NI N']; subst.
        cbn [fold_left] in E. unfold site_step in E at 2. cbn [bind fst snd] in E.
        destruct (freq_getter freqi (VList R) "R") as [x|e] eqn:G;
          [|cbn [bind] in E; rewrite site_err in E; discriminate].
        cbn [bind] in E. specialize (IH N' _ _ E sta).
        cbn [dget]. destruct (String.eqb sta s) eqn:S.
        + apply String.eqb_eq in S. subst s.
          assert (NG : sget l sta = None) by now apply (dget_None String.eqb string_eqb_spec).
          rewrite NG in IH. intros rows H. exists x. split.
          * apply getter_value; [discriminate|exact G].
          * rewrite IH. now apply append_site_ok.
        + apply String.eqb_neq in S.
          destruct (append_site_ok d s x) as [A _].
          destruct (sget l sta); rewrite (A sta S) in IH; exact IH.
    Qed.

    Lemma sites_after : In "R" collect ->
      forall evs col0 col, sget col0 "R" = Some (CSites []) ->
      sites_nodup evs ->
      fold_left (collect_event freqi collect) evs (Ok col0) = Ok col ->
      exists d, sget col "R" = Some (CSites d) /\
        forall sta, exists rows, sget d sta = list_opt rows /\
          Forall2 (fun e v => exists R, site_of (snd e) sta = Some R /\
                                        value_at freqi "R" (VList R) v)
                  (with_site evs sta) rows.
    Proof.
      intros I evs col0 col C0. revert col.
      induction evs as [|ev evs IH] using rev_ind; intros col SN E.
      - cbn in E. injection E as <-. exists []. split; [exact C0|].
        intros sta. exists []. split; [reflexivity|constructor].
      - rewrite fold_left_app in E. cbn [fold_left] in E.
        destruct (fold_left (collect_event freqi collect) evs (Ok col0)) as [col1|e] eqn:F.
        2:{ unfold collect_event in E. destruct ev as [id [r|]]; cbn [snd fst] in E;
            [rewrite key_err in E|]; discriminate. }
        destruct (IH col1) as (d & D & V); [|reflexivity|].
        { intros id r d H. apply (SN id). rewrite with_result_app. apply in_or_app. now left. }
        unfold with_site. rewrite with_result_app.
        destruct ev as [id [r|]]; unfold collect_event in E; cbn [snd fst] in E.
        + destruct (keys_once id r collect ND col1 col E "R") as [_ K].
          destruct (K I) as (c1 & c2 & K1 & K2 & K3). rewrite D in K1.
          unfold CollectModel.collect_key in K2. cbn [bind] in K2.
          change (String.eqb "R" "eventid") with false in K2.
          change (String.eqb "R" "R") with true in K2. cbn [andb] in K2. cbv iota in K2.
          unfold dmem in K2. destruct (sget r "R") as [[x|l|R]|] eqn:RR; try discriminate.
          * rewrite K1 in K2.
            change (fold_left _ R (Ok d)) with (fold_left site_step R (Ok d)) in K2.
            destruct (fold_left site_step R (Ok d)) as [d'|] eqn:SS; [|discriminate].
            cbn [bind] in K2. injection K2 as <-. rewrite sget_eq in K3.
            exists d'. split; [exact K3|]. intros sta.
            assert (NR : NoDup (map fst R)).
            { apply (SN id r); [|exact RR]. rewrite with_result_app. apply in_or_app. right. now left. }
            assert (ON := sites_once R NR d d' SS sta).
            destruct (V sta) as (rows & V1 & V2).
            rewrite filter_app. cbn [with_result filter snd].
            assert (SO : site_of r sta = sget R sta) by (unfold site_of; now rewrite RR).
            rewrite SO. destruct (sget R sta) as [Rl|] eqn:RS.
            -- destruct (ON rows V1) as (v & W1 & W2). exists (rows ++ [v]). split; [exact W2|].
               apply Forall2_app; [exact V2|]. constructor; [|constructor].
               exists Rl. cbn [snd]. now rewrite SO.
            -- exists rows. rewrite ON. split; [exact V1|]. now rewrite app_nil_r.
          * injection K2 as <-. exists d. split; [congruence|]. intros sta.
            destruct (V sta) as (rows & V1 & V2). exists rows. split; [exact V1|].
            rewrite filter_app. cbn [with_result filter snd].
            assert (SO : site_of r sta = None) by (unfold site_of; now rewrite RR).
            rewrite SO, app_nil_r. exact V2.
        + injection E as <-. cbn [with_result]. rewrite app_nil_r. eauto.
    Qed.
  End Keys.

  (** conversion to arrays keeps the rows *)
  Lemma to_array_id rows a : to_array rows = Ok a -> a = rows.
  Proof.
    unfold to_array. destruct rows as [|[x|l|d] rest]; try congruence;
      try (destruct (forallb _ rest)); try congruence;
      try (destruct (existsb _ rest)); congruence.
  Qed.

  Lemma sites_array_id d d' :
    mapM (fun sr : string * list rval => do a <- to_array (snd sr); Ok (fst sr, a)) d = Ok d' -> d' = d.
  Proof.
    revert d'. induction d as [|[s r] d IH]; intros d' E; cbn [mapM] in E; [congruence|].
    cbn [snd fst] in E. destruct (to_array r) as [a|] eqn:A; [|discriminate]. cbn [bind] in E.
    apply to_array_id in A. subst a.
    destruct (mapM _ d) as [d2|]; [|discriminate]. cbn [bind] in E. injection E as <-.
    f_equal. now apply IH.
  Qed.

  Lemma convert_err keys e : fold_left convert_key keys (Err e) = Err e.
  Proof. induction keys; cbn; auto. Qed.

  Lemma convert_ok keys : forall col col',
    fold_left convert_key keys (Ok col) = Ok col' -> forall c, sget col' c = sget col c.
  Proof.
    induction keys as [|k keys IH]; intros col col' E c; cbn [fold_left] in E; [congruence|].
    destruct (convert_key (Ok col) k) as [col1|] eqn:K; [|rewrite convert_err in E; discriminate].
    rewrite (IH col1 col' E c). clear IH E.
    unfold convert_key in K. cbn [bind] in K. destruct (String.eqb k "eventid"); [congruence|].
    destruct (sget col k) as [[ids|rows|d]|] eqn:G; try discriminate; try congruence.
    - destruct (to_array rows) as [a|] eqn:A; [|discriminate]. cbn [bind] in K. injection K as <-.
      apply to_array_id in A. subst a. destruct (string_dec c k) as [->|N];
        [now rewrite sget_eq|now rewrite sget_neq].
    - destruct (mapM _ d) as [d'|] eqn:A; [|discriminate]. cbn [bind] in K. injection K as <-.
      apply sites_array_id in A. subst d'. destruct (string_dec c k) as [->|N];
        [now rewrite sget_eq|now rewrite sget_neq].
  Qed.

  Lemma default_nodup : NoDup ["g0"; "b"; "error"; "R"; "W"; "eventid"; "v0"].
  Proof.
    repeat (constructor; [cbn; intuition discriminate|]). constructor.
  Qed.

  Lemma collect_stages events only col :
    collect_results events only freqi = Ok col ->
    exists col1,
      fold_left (collect_event freqi (collected only)) events
        (Ok (if inb String.eqb "R" (collected only) then [("R", CSites [])] else [])) = Ok col1 /\
      forall c, sget col c = sget col1 c.
  Proof.
    unfold collect_results. fold (collected only). intros E.
    destruct (fold_left _ events _) as [col1|]; [|discriminate]. cbn [bind] in E.
    exists col1. split; [reflexivity|]. intros c. exact (convert_ok _ _ _ E c).
  Qed.

  Lemma Forall2_nth {A B} (P : A -> B -> Prop) l l' :
    Forall2 P l l' -> List.length l = List.length l' /\
    forall j a, nth_error l j = Some a -> exists b, nth_error l' j = Some b /\ P a b.
  Proof.
    induction 1 as [|a b l l' H F [L IH]].
    - split; [reflexivity|]. intros [|j] a; discriminate.
    - split; [cbn; congruence|]. intros [|j] x; cbn; [intros [= <-]; eauto|apply IH].
  Qed.

  Lemma init_other only c : c <> "R" ->
    sget (if inb String.eqb "R" (collected only) then [("R", CSites [])] else []) c = None.
  Proof.
    intros N. destruct (inb _ _ _); cbn [dget]; auto. apply String.eqb_neq in N. now rewrite N.
  Qed.

  (** C45: ids *)
  Lemma ids_ok events only col :
    NoDup (collected only) -> In "eventid" (collected only) ->
    collect_results events only freqi = Ok col -> with_result events <> [] ->
    sget col "eventid" = Some (CIds (map fst (with_result events))).
  Proof.
    intros ND I E N. destruct (collect_stages _ _ _ E) as (col1 & E1 & S). rewrite S.
    rewrite (ids_after _ ND I events _ col1 (init_other only "eventid" ltac:(discriminate)) E1).
    destruct (with_result events) as [|[id r] l]; [congruence|reflexivity].
  Qed.

  (** C45: rows *)
  Lemma rows_ok events only col c :
    NoDup (collected only) -> In c (collected only) -> c <> "eventid" -> c <> "R" ->
    collect_results events only freqi = Ok col -> with_result events <> [] ->
    (forall id r, In (id, r) (with_result events) -> In c (map fst r)) ->
    exists rows, sget col c = Some (CRows rows) /\
      List.length rows = List.length (with_result events) /\
      forall j id r, nth_error (with_result events) j = Some (id, r) ->
        exists r0 v, sget r c = Some r0 /\ nth_error rows j = Some v /\ value_at freqi c r0 v.
  Proof.
    intros ND I NE NR E N H. destruct (collect_stages _ _ _ E) as (col1 & E1 & S). rewrite S.
    destruct (rows_after _ ND c I NE NR events _ col1 (init_other only c NR) E1) as (rows & R & F).
    assert (WK : with_key events c = with_result events).
    { unfold with_key. generalize (with_result events) H. clear.
      induction l as [|[id r] l IH]; intros H; auto. cbn [filter snd].
      assert (M : dmem String.eqb r c = true).
      { unfold dmem. destruct (sget r c) eqn:G; auto.
        apply (dget_None String.eqb string_eqb_spec) in G. exfalso. apply G.
        apply (H id r). now left. }
      rewrite M. f_equal. apply IH. intros; apply (H id0). now right. }
    rewrite WK in F. destruct (Forall2_nth _ _ _ F) as [L V].
    exists rows. split; [|split; [congruence|]].
    - destruct rows; [destruct (with_result events); [congruence|discriminate]|exact R].
    - intros j id r J. destruct (V j _ J) as (v & V1 & r0 & V2 & V3). cbn [snd] in V2. eauto.
  Qed.

  (** C45: rows of a station *)
  Lemma sites_ok events only col sta :
    NoDup (collected only) -> In "R" (collected only) -> sites_nodup events ->
    collect_results events only freqi = Ok col ->
    exists d, sget col "R" = Some (CSites d) /\
      match sget d sta with
      | None => with_site events sta = []
      | Some rows =>
          List.length rows = List.length (with_site events sta) /\
          forall j id r, nth_error (with_site events sta) j = Some (id, r) ->
            exists R v, site_of r sta = Some R /\ nth_error rows j = Some v /\
                        value_at freqi "R" (VList R) v
      end.
  Proof.
    intros ND I SN E. destruct (collect_stages _ _ _ E) as (col1 & E1 & S). rewrite S.
    assert (C0 : sget (if inb String.eqb "R" (collected only) then [("R", CSites [])] else []) "R"
                 = Some (CSites [])).
    { assert (B : inb String.eqb "R" (collected only) = true)
        by now apply (inb_In String.eqb string_eqb_spec). rewrite B. reflexivity. }
    destruct (sites_after _ ND I events _ col1 C0 SN E1) as (d & D & V).
    exists d. split; [exact D|]. destruct (V sta) as (rows & R & F). rewrite R.
    destruct (Forall2_nth _ _ _ F) as [L W].
    destruct rows as [|y rows]; cbn [list_opt].
    - destruct (with_site events sta); [reflexivity|discriminate].
    - split; [congruence|]. intros j id r J. destruct (W j _ J) as (v & W1 & RR & W2 & W3). eauto.
  Qed.
End C.
