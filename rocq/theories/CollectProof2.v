(** Results as written by the inversion can always be collected. *)
From Coq Require Import String List Bool Arith Lia.
From Verif Require Import Base Pyf CollectModel CollectSpec CollectProof.
Import ListNotations.
Open Scope string_scope.
Open Scope list_scope.

Lemma dset_in {V} (d : list (string * V)) k v k' v' :
  In (k', v') (dset String.eqb d k v) -> (k' = k /\ v' = v) \/ In (k', v') d.
Proof.
  induction d as [|[a b] d IH]; cbn.
  - intros [[= <- <-]|[]]. auto.
  - destruct (String.eqb k a) eqn:E; cbn.
    + apply String.eqb_eq in E. subst a. intros [[= <- <-]|H]; auto.
    + intros [H|H]; [right; now left|]. destruct (IH H) as [?|?]; auto.
Qed.

Lemma sget_in {V} (d : list (string * V)) k v : sget d k = Some v -> In (k, v) d.
Proof. apply (dget_In String.eqb string_eqb_spec). Qed.

Section Total.
  Variable Nf : nat.
  Variable freqi : option nat.
  Hypothesis FI : forall i, freqi = Some i -> (i < Nf)%nat.

  (** a collected value of key c *)
  Definition good_row (c : string) (v : rval) : Prop :=
    if String.eqb c "v0" then exists x, v = VNum x
    else match freqi with
         | None => exists l, v = VList l /\ List.length l = Nf
         | Some _ => exists x, v = VNum x
         end.

  Definition good_entry (c : string) (v : cval) : Prop :=
    if String.eqb c "eventid" then exists ids, v = CIds ids
    else if String.eqb c "R" then
      exists d, v = CSites d /\ forall s rows, In (s, rows) d -> Forall (good_row "R") rows
    else exists rows, v = CRows rows /\ Forall (good_row c) rows.

  Definition good (col : list (string * cval)) : Prop :=
    forall c v, sget col c = Some v -> good_entry c v.

  Lemma good_dset col c v : good col -> good_entry c v -> good (dset String.eqb col c v).
  Proof.
    intros G E c' v' H. destruct (string_dec c' c) as [->|N].
    - rewrite sget_eq in H. congruence.
    - rewrite sget_neq in H by auto. now apply G.
  Qed.

  Lemma getter_list c l : c <> "v0" -> c <> "eventid" -> List.length l = Nf ->
    exists x, freq_getter freqi (VList l) c = Ok x /\ good_row c x.
  Proof.
    intros N1 N2 L. unfold freq_getter, good_row. cbn [inb existsb].
    apply String.eqb_neq in N1. apply String.eqb_neq in N2. rewrite N1, N2. cbn [orb].
    destruct freqi as [i|] eqn:F.
    - destruct (nth_error l i) as [x|] eqn:E; [eauto|].
      apply nth_error_None in E. specialize (FI i eq_refl). lia.
    - eauto.
  Qed.

  Lemma getter_num x : freq_getter freqi (VNum x) "v0" = Ok (VNum x) /\ good_row "v0" (VNum x).
  Proof. unfold freq_getter, good_row. split; [now destruct freqi|cbn; eauto]. Qed.

  Lemma append_row_good col c x :
    good col -> c <> "eventid" -> c <> "R" -> good_row c x ->
    exists col', append_row col c x = Ok col' /\ good col'.
  Proof.
    intros G N1 N2 X. unfold append_row.
    assert (GE : forall rows, Forall (good_row c) rows -> good_entry c (CRows rows)).
    { intros rows F. unfold good_entry. apply String.eqb_neq in N1. apply String.eqb_neq in N2.
      rewrite N1, N2. eauto. }
    destruct (sget col c) as [v|] eqn:E.
    - specialize (G c v E) as G2. unfold good_entry in G2.
      apply String.eqb_neq in N1. apply String.eqb_neq in N2. rewrite N1, N2 in G2.
      destruct G2 as (rows & -> & F). eexists. split; [reflexivity|].
      apply good_dset; auto. apply GE. apply Forall_app. auto.
    - eexists. split; [reflexivity|]. apply good_dset; auto.
  Qed.

  Lemma sites_good R : (forall sta l, In (sta, l) R -> List.length l = Nf) -> forall d,
    (forall s rows, In (s, rows) d -> Forall (good_row "R") rows) ->
    exists d', fold_left (site_step freqi) R (Ok d) = Ok d' /\
      forall s rows, In (s, rows) d' -> Forall (good_row "R") rows.
  Proof.
    induction R as [|[s l] R IH]; intros H d D; cbn [fold_left]; [eauto|].
    unfold site_step at 2. cbn [bind fst snd].
    destruct (getter_list "R" l ltac:(discriminate) ltac:(discriminate) (H s l (or_introl eq_refl)))
      as (x & E & X). rewrite E. cbn [bind]. apply IH.
    - intros. apply (H sta). now right.
    - intros s' rows I. unfold append_site in I. destruct (sget d s) as [rs|] eqn:G.
      + apply dset_in in I. destruct I as [[-> ->]|I]; [|eauto].
        apply Forall_app. split; [|auto]. apply (D s). now apply sget_in.
      + apply dset_in in I. destruct I as [[-> ->]|I]; [auto|eauto].
  Qed.

  Lemma key_good id r col c :
    well_formed Nf r -> good col -> (c = "R" -> sget col "R" <> None) ->
    exists col', collect_key freqi id r (Ok col) c = Ok col' /\ good col' /\
      (sget col "R" <> None -> sget col' "R" <> None).
  Proof.
    intros W G CR. unfold collect_key. cbn [bind].
    destruct (String.eqb c "eventid") eqn:C1.
    - apply String.eqb_eq in C1. subst c. unfold append_id.
      assert (GE : forall ids, good_entry "eventid" (CIds ids)) by (intros; cbn; eauto).
      destruct (sget col "eventid") as [v|] eqn:E.
      + destruct (G _ _ E) as (ids & ->). eexists. split; [reflexivity|].
        split; [now apply good_dset|]. intros H. now rewrite sget_neq.
      + eexists. split; [reflexivity|]. split; [now apply good_dset|].
        intros H. now rewrite sget_neq.
    - destruct (String.eqb c "R" && dmem String.eqb r "R") eqn:C2.
      + apply andb_true_iff in C2. destruct C2 as [C2 M]. apply String.eqb_eq in C2. subst c.
        unfold dmem in M. destruct (sget r "R") as [v|] eqn:RR; [|discriminate].
        destruct (W _ _ RR) as (R & -> & L). destruct (sget col "R") as [v|] eqn:CE;
          [|exfalso; now apply CR].
        destruct (G _ _ CE) as (d & -> & D).
        destruct (sites_good R L d D) as (d' & E & D').
        change (fold_left _ R (Ok d)) with (fold_left (site_step freqi) R (Ok d)).
        rewrite E. cbn [bind]. eexists. split; [reflexivity|]. split.
        * apply good_dset; auto. exists d'. auto.
        * intros _. rewrite sget_eq. discriminate.
      + destruct (sget r c) as [v|] eqn:RC; [|eauto].
        apply String.eqb_neq in C1.
        destruct (String.eqb c "R") eqn:C3.
        { apply String.eqb_eq in C3. subst c. unfold dmem in C2. rewrite RC in C2. discriminate. }
        specialize (W _ _ RC). rewrite C3 in W. apply String.eqb_neq in C3.
        assert (X : exists x, freq_getter freqi v c = Ok x /\ good_row c x).
        { destruct (String.eqb c "v0") eqn:C4.
          - apply String.eqb_eq in C4. subst c. destruct W as (x & ->).
            exists (VNum x). apply getter_num.
          - destruct W as (l & -> & L). apply String.eqb_neq in C4. now apply getter_list. }
        destruct X as (x & E & X). rewrite E. cbn [bind].
        destruct (append_row_good col c x G C1 C3 X) as (col' & A & G').
        exists col'. split; [exact A|]. split; [exact G'|].
        destruct (append_row_ok _ _ _ _ A) as [O _]. rewrite O by auto. auto.
  Qed.

  Lemma keys_good id r keys : well_formed Nf r -> forall col,
    good col -> (In "R" keys -> sget col "R" <> None) ->
    exists col', fold_left (collect_key freqi id r) keys (Ok col) = Ok col' /\ good col' /\
      (sget col "R" <> None -> sget col' "R" <> None).
  Proof.
    intros W. induction keys as [|k keys IH]; intros col G H; cbn [fold_left]; [eauto|].
    destruct (key_good id r col k W G) as (col1 & E & G1 & S).
    { intros ->. apply H. now left. }
    rewrite E. destruct (IH col1 G1) as (col2 & E2 & G2 & S2).
    { intros I. apply S. apply H. now right. }
    exists col2. auto.
  Qed.

  Lemma events_good keys evs :
    (forall id r, In (id, r) (with_result evs) -> well_formed Nf r) -> forall col,
    good col -> (In "R" keys -> sget col "R" <> None) ->
    exists col', fold_left (collect_event freqi keys) evs (Ok col) = Ok col' /\ good col'.
  Proof.
    induction evs as [|[id [r|]] evs IH]; intros W col G H; cbn [fold_left].
    - eauto.
    - unfold collect_event at 2. cbn [snd fst].
      destruct (keys_good id r keys (W id r (or_introl eq_refl)) col G H) as (col1 & E & G1 & S).
      rewrite E. apply IH; auto. intros id' r' I. apply (W id'). now right.
    - unfold collect_event at 2. cbn [snd]. apply IH; auto.
  Qed.

  Lemma to_array_good c rows : Forall (good_row c) rows -> to_array rows = Ok rows.
  Proof.
    intros F. unfold to_array. destruct rows as [|r rest]; auto.
    inversion F as [|? ? A B]; subst. rewrite Forall_forall in B. unfold good_row in A, B.
    assert (NUM : (exists x, r = VNum x) -> (forall r', In r' rest -> exists x, r' = VNum x) ->
                  forallb (fun r => match r with VNum _ => true | _ => false end) rest = true).
    { intros _ H. apply forallb_forall. intros y I. destruct (H y I) as (x & ->). reflexivity. }
    destruct (String.eqb c "v0").
    - destruct A as (x & ->). rewrite NUM; eauto.
    - destruct freqi as [i|].
      + destruct A as (x & ->). rewrite NUM; eauto.
      + destruct A as (l & -> & L).
        assert (H : forallb (fun r => match r with
                       | VList l' => Nat.eqb (List.length l') (List.length l)
                       | _ => false end) rest = true).
        { apply forallb_forall. intros y I. destruct (B y I) as (l' & -> & L').
          apply Nat.eqb_eq. congruence. }
        now rewrite H.
  Qed.

  Lemma sites_array_good d :
    (forall s rows, In (s, rows) d -> Forall (good_row "R") rows) ->
    mapM (fun sr : string * list rval => do a <- to_array (snd sr); Ok (fst sr, a)) d = Ok d.
  Proof.
    induction d as [|[s r] d IH]; intros H; auto. cbn [mapM snd fst].
    rewrite (to_array_good "R" r) by (apply (H s); now left). cbn [bind].
    rewrite IH by (intros; apply (H s0); now right). reflexivity.
  Qed.

  Lemma convert_good keys : forall col, good col ->
    exists col', fold_left convert_key keys (Ok col) = Ok col'.
  Proof.
    induction keys as [|k keys IH]; intros col G; cbn [fold_left]; [eauto|].
    unfold convert_key at 2. cbn [bind]. destruct (String.eqb k "eventid") eqn:K1; [auto|].
    destruct (sget col k) as [v|] eqn:E; [|auto].
    specialize (G k v E) as GE. unfold good_entry in GE. rewrite K1 in GE.
    destruct (String.eqb k "R") eqn:K2.
    - destruct GE as (d & -> & D). rewrite sites_array_good by auto. cbn [bind].
      apply IH. apply good_dset; auto.
    - destruct GE as (rows & -> & D). rewrite (to_array_good k) by auto. cbn [bind].
      apply IH. apply good_dset; auto.
  Qed.

  (** C45: no exception *)
  Lemma collect_total events only :
    (forall id r, In (id, r) (with_result events) -> well_formed Nf r) ->
    exists col, collect_results events only freqi = Ok col.
  Proof.
    intros W. unfold collect_results. fold (collected only).
    destruct (events_good (collected only) events W
      (if inb String.eqb "R" (collected only) then [("R", CSites [])] else [])) as (col & E & G).
    - intros c v H. destruct (inb _ _ _); [|discriminate]. cbn [dget] in H.
      destruct (String.eqb c "R") eqn:C; [|discriminate]. injection H as <-.
      apply String.eqb_eq in C. subst c. exists []. split; [reflexivity|]. intros s rows [].
    - intros I. assert (B : inb String.eqb "R" (collected only) = true)
        by now apply (inb_In String.eqb string_eqb_spec). rewrite B. discriminate.
    - rewrite E. cbn [bind]. now apply convert_good.
  Qed.
End Total.
