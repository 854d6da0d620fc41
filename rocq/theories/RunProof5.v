(** Lemmas about run: files that are written and drawn. *)
From Coq Require Import String Ascii List Bool ZArith Arith.
From Verif Require Import Base PyStr StatProof CmdProof RunModel RunSpec RunProof RunProof2 RunProof3 RunProof4 RunSpec2.
Import ListNotations.
Open Scope string_scope.
Open Scope list_scope.

Lemma jin_has r k b : jin r k = Ok b -> (b = true <-> has r k).
Proof.
  destruct r; cbn; try discriminate. intros H. injection H as <-. unfold dmem, has.
  destruct (get d k) as [v|] eqn:G; split; intros H; try reflexivity; try discriminate.
  - exists d, v. auto.
  - destruct H as (d2 & v & E & G2). injection E as <-. congruence.
Qed.

Lemma w_ok_has r b : w_ok r = Ok b -> (b = true <-> has_W r).
Proof.
  destruct r; cbn; try discriminate. intros H. unfold getd in H.
  assert (HW : dmem String.eqb d "W" = true <-> has (JDict d) "W").
  { exact (jin_has (JDict d) "W" _ eq_refl). }
  destruct (get d "events") as [ev|] eqn:G.
  - destruct ev as [| | | | |evs|]; try discriminate.
    destruct (mapM _ evs) as [l|] eqn:M; cbn [bind] in H; [|discriminate]. assert (E : b = (existsb (fun b => b) l || dmem String.eqb d "W")%bool) by congruence.
    rewrite E, orb_true_iff, HW. clear E H.
    assert (X : existsb (fun b => b) l = true <-> exists id e, In (id, e) evs /\ has e "W").
    { clear G HW. revert l M. induction evs as [|[id e] evs IH]; intros l M.
      - cbn in M. injection M as <-. cbn. split; [discriminate|]. intros (? & ? & [] & _).
      - cbn [mapM snd] in M. destruct (jin e "W") as [b1|] eqn:J; cbn [bind] in M; [|discriminate].
        destruct (mapM _ evs) as [l1|] eqn:M1; cbn [bind] in M; [|discriminate]. injection M as <-.
        cbn [existsb]. rewrite orb_true_iff, (IH _ eq_refl), (jin_has _ _ _ J). split.
        + intros [H|(i & x & I & H)]; [exists id, e; split; [now left|assumption]|exists i, x; split; [now right|assumption]].
        + intros (i & x & [I|I] & H); [injection I as -> ->; now left|right; eauto]. }
    rewrite X. unfold has_W. split.
    + intros [(i & x & I & H)|H]; [right; exists d, evs, i, x; auto|now left].
    + intros [H|(d2 & evs2 & i & x & E & G2 & I & H)]; [now right|]. injection E as <-.
      rewrite G in G2. injection G2 as <-. left. eauto.
  - cbn [mapM bind existsb orb] in H. assert (E : b = dmem String.eqb d "W") by congruence. rewrite E, HW. unfold has_W.
    split; [now left|]. intros [H1|(d2 & evs2 & i & x & E2 & G2 & _)]; [assumption|]. injection E2 as <-. congruence.
Qed.

Lemma getd_value args k x : getd args k x = value args k x.
Proof. reflexivity. Qed.

Section Plot.
  Context {E : Type} (w : world E).

  (** what a plot needs of its options *)
  Definition keywords_free (fixed options : dict) : Prop := forall k, In k (map fst fixed) -> get options k = None.

  Definition drawn_as (event : option string) (fixed : dict) (args : dict) (result : json) (name f : string) (o : dict) : Prop :=
    exists o0 f0, value args ("plot_" ++ name ++ "_options")%string (JDict []) = JDict o0 /\
      value o0 "fname" (JStr (pattern event name)) = JStr f0 /\
      f = match event with None => f0 | Some id => w_format w f0 id end /\
      keywords_free fixed (dpop String.eqb o0 "fname") /\
      o = fixed ++ dpop String.eqb o0 "fname" /\ w_image w name result f o = Ok tt.

  Lemma one_plot_drawn name event fixed result args e :
    one_plot w name event fixed result args = Ok e ->
    exists f o, e = [Plotted name f o] /\ drawn_as event fixed args result name f o.
  Proof.
    unfold one_plot. intros H. rewrite getd_value in H.
    destruct (value args _ _) as [| | | | |o0|] eqn:V; try discriminate. unfold popd in H.
    change (match event with Some _ => (name ++ "_{evid}.pdf")%string | None => (name ++ ".pdf")%string end) with (pattern event name) in H.
    rewrite getd_value in H. destruct (value o0 "fname" _) as [| | |f0| | |] eqn:F; try discriminate.
    destruct (existsb _ _) eqn:X; [discriminate|].
    destruct (w_image _ _ _ _ _) as [[]|] eqn:I; cbn [bind] in H; [|discriminate]. injection H as <-.
    eexists _, _. split; [reflexivity|]. exists o0, f0. repeat split; auto.
    intros k K. destruct (get (dpop String.eqb o0 "fname") k) eqn:G; [|reflexivity]. exfalso.
    assert (T : existsb (fun k => dmem String.eqb (dpop String.eqb o0 "fname") k) (dkeys fixed) = true).
    { apply existsb_exists. exists k. split; [exact K|]. unfold dmem. now rewrite G. }
    congruence.
  Qed.

  Lemma plot_if_drawn name ok event fixed result args e :
    plot_if w name ok event fixed result args = Ok e ->
    ((truthy (value args ("plot_" ++ name)%string (JBool false)) = true /\ ok = true) /\
      exists f o, e = [Plotted name f o] /\ drawn_as event fixed args result name f o) \/
    (~ (truthy (value args ("plot_" ++ name)%string (JBool false)) = true /\ ok = true) /\ e = []).
  Proof.
    unfold plot_if. rewrite getd_value. intros H. destruct (_ && _)%bool eqn:B.
    - apply andb_true_iff in B. left. split; [exact B|]. now apply one_plot_drawn.
    - right. split; [|now injection H as <-]. intros [A1 A2]. rewrite A1, A2 in B. discriminate.
  Qed.

  Definition keywords_of (result : json) (g0 ok : bool) (eventid : option string) (name : string) : dict :=
    match eventid with
    | None => []
    | Some id => ("title", title id) :: (if String.eqb name "eventresult" then [("quantities", quantities g0 ok)] else [])
    end.

  Lemma keywords_wished result g0 ok eventid args name f o :
    (g0 = true <-> has result "g0") -> (ok = true <-> has_W result) ->
    drawn_as eventid (keywords_of result g0 ok eventid name) args result name f o ->
    as_wished (w_format w) result eventid args name f o /\ w_image w name result f o = Ok tt.
  Proof.
    intros Hg Hw (o0 & f0 & V & F & Ef & Fr & Eo & I). split; [|exact I].
    exists o0, f0. split; [exact V|]. split; [exact F|]. split; [exact Ef|].
    assert (GP : forall k, k <> "fname" -> get (dpop String.eqb o0 "fname") k = get o0 k).
    { intros k K. now apply (dget_dpop_neq _ sspec). }
    split.
    - intros k v K G. rewrite Eo.
      assert (NK : ~ In k (map fst (keywords_of result g0 ok eventid name))).
      { intros J. specialize (Fr k J). rewrite GP in Fr by assumption. congruence. }
      clear Fr Eo I. induction (keywords_of result g0 ok eventid name) as [|[k1 v1] ks IH]; cbn [app].
      + now rewrite GP.
      + cbn [dget]. destruct (String.eqb_spec k k1) as [->|_].
        * exfalso. apply NK. now left.
        * apply IH. intros J. apply NK. now right.
    - destruct eventid as [id|]; [|exact Logic.I]. cbn [event_keywords]. rewrite Eo. split; [reflexivity|].
      intros ->. cbn [keywords_of]. streq. cbv iota. cbn [app dget]. streq. cbv iota.
      eexists. split; [reflexivity|]. intros k.
      assert (T : forall b (P : Prop) l, (b = true <-> P) -> (In k (map JStr (if b : bool then l else [])) <-> P /\ In k (map JStr l))).
      { intros [] P l H; split.
        - intros J. split; [now apply H|exact J].
        - intros [_ J]. exact J.
        - intros [].
        - intros [J _]. apply H in J. discriminate. }
      rewrite map_app, in_app_iff, (T _ _ _ Hg), map_app, in_app_iff, (T _ _ _ Hw). cbn [map In]. intuition congruence.
  Qed.

  (** what is drawn, for one plot *)
  Definition part (result : json) (g0 ok : bool) (eventid : option string) (args : dict) (name : string) (av : bool) (e : list effect) : Prop :=
    plot_if w name av eventid (keywords_of result g0 ok eventid name) result args = Ok e.

  Lemma part_in result g0 ok eventid args name av e (P : Prop) :
    (g0 = true <-> has result "g0") -> (ok = true <-> has_W result) -> (av = true <-> P) ->
    part result g0 ok eventid args name av e ->
    (forall x, In x e -> exists f o, x = Plotted name f o /\
       P /\ truthy (value args ("plot_" ++ name)%string (JBool false)) = true /\
       as_wished (w_format w) result eventid args name f o /\ w_image w name result f o = Ok tt) /\
    (P -> truthy (value args ("plot_" ++ name)%string (JBool false)) = true -> exists f o, In (Plotted name f o) e) /\
    (List.length e <= 1)%nat.
  Proof.
    intros Hg Hw Ha H. destruct (plot_if_drawn _ _ _ _ _ _ _ H) as [[[B1 B2] (f & o & -> & D)]|[N ->]].
    - destruct (keywords_wished _ _ _ _ _ _ _ _ Hg Hw D) as [D1 D2]. split; [|split].
      + intros x [<-|[]]. exists f, o. repeat split; auto. now apply Ha.
      + intros _ _. exists f, o. now left.
      + constructor.
    - split; [intros x []|]. split; [|auto]. intros HP HT. exfalso. apply N. split; [assumption|now apply Ha].
  Qed.

  Lemma one_plot_each (e : list effect) name : (List.length e <= 1)%nat ->
    (forall x, In x e -> exists f o, x = Plotted name f o) -> map plot_name e = [] \/ map plot_name e = [name].
  Proof.
    intros L H. destruct e as [|x [|y e]].
    - now left.
    - right. destruct (H x ltac:(now left)) as (f & o & ->). reflexivity.
    - cbn in L. inversion L as [|? L2]. inversion L2.
  Qed.

  Lemma plot_drawn result eventid args e :
    plot w result eventid args = Ok e ->
    (forall x, In x e -> exists name f o, x = Plotted name f o /\
       offered result eventid name /\ truthy (value args ("plot_" ++ name)%string (JBool false)) = true /\
       as_wished (w_format w) result eventid args name f o /\ w_image w name result f o = Ok tt) /\
    (forall name, offered result eventid name -> truthy (value args ("plot_" ++ name)%string (JBool false)) = true ->
       exists f o, In (Plotted name f o) e) /\
    NoDup (map plot_name e).
  Proof.
    intros H. unfold plot in H. destruct (_ || _)%bool; [discriminate|].
    destruct (w_ok result) as [ok|] eqn:WO; cbn [bind] in H; [|discriminate].
    destruct (jin result "g0") as [g0|] eqn:G; cbn [bind] in H; [|discriminate].
    destruct (jin result "R") as [R|] eqn:JR; cbn [bind] in H; [|discriminate].
    pose proof (w_ok_has _ _ WO) as Hw. pose proof (jin_has _ _ _ G) as Hg. pose proof (jin_has _ _ _ JR) as HR.
    destruct eventid as [id|].
    - destruct (plot_if w "eventresult" _ _ _ _ _) as [e1|] eqn:P1; cbn [bind] in H; [|discriminate].
      destruct (plot_if w "eventsites" _ _ _ _ _) as [e2|] eqn:P2; cbn [bind] in H; [|discriminate].
      assert (e = e1 ++ e2) by congruence. subst e. clear H.
      pose proof (part_in result g0 ok (Some id) args "eventresult" true e1 True Hg Hw ltac:(tauto) P1) as (A1 & B1 & C1).
      pose proof (part_in result g0 ok (Some id) args "eventsites" R e2 (has result "R") Hg Hw HR P2) as (A2 & B2 & C2).
      split; [|split].
      + intros x I. apply in_app_iff in I. destruct I as [I|I].
        * destruct (A1 x I) as (f & o & -> & _ & T & D). exists "eventresult", f, o. split; [reflexivity|]. split; [constructor|]. auto.
        * destruct (A2 x I) as (f & o & -> & Q & T & D). exists "eventsites", f, o. split; [reflexivity|]. split; [now constructor|]. auto.
      + intros name O T. inversion O; subst.
        * destruct (B1 Logic.I T) as (f & o & I). exists f, o. apply in_app_iff. now left.
        * destruct (B2 H0 T) as (f & o & I). exists f, o. apply in_app_iff. now right.
      + rewrite map_app.
        assert (M1 : forall x, In x e1 -> exists f o, x = Plotted "eventresult" f o) by (intros x I; destruct (A1 x I) as (f & o & -> & _); eauto).
        assert (M2 : forall x, In x e2 -> exists f o, x = Plotted "eventsites" f o) by (intros x I; destruct (A2 x I) as (f & o & -> & _); eauto).
        destruct (one_plot_each _ _ C1 M1) as [-> | ->]; destruct (one_plot_each _ _ C2 M2) as [-> | ->]; cbn [app];
          repeat constructor; cbn; intuition discriminate.
    - destruct (plot_if w "results" _ _ _ _ _) as [e1|] eqn:P1; cbn [bind] in H; [|discriminate].
      destruct (plot_if w "sites" _ _ _ _ _) as [e2|] eqn:P2; cbn [bind] in H; [|discriminate].
      destruct (plot_if w "sds" _ _ _ _ _) as [e3|] eqn:P3; cbn [bind] in H; [|discriminate].
      destruct (plot_if w "mags" _ _ _ _ _) as [e4|] eqn:P4; cbn [bind] in H; [|discriminate].
      assert (e = e1 ++ e2 ++ e3 ++ e4) by congruence. subst e. clear H.
      pose proof (part_in result g0 ok None args "results" g0 e1 _ Hg Hw Hg P1) as (A1 & B1 & C1).
      pose proof (part_in result g0 ok None args "sites" R e2 _ Hg Hw HR P2) as (A2 & B2 & C2).
      pose proof (part_in result g0 ok None args "sds" ok e3 _ Hg Hw Hw P3) as (A3 & B3 & C3).
      pose proof (part_in result g0 ok None args "mags" ok e4 _ Hg Hw Hw P4) as (A4 & B4 & C4).
      split; [|split].
      + intros x I. rewrite !in_app_iff in I. destruct I as [I|[I|[I|I]]].
        * destruct (A1 x I) as (f & o & -> & Q & T & D). exists "results", f, o. split; [reflexivity|]. split; [now constructor|]. auto.
        * destruct (A2 x I) as (f & o & -> & Q & T & D). exists "sites", f, o. split; [reflexivity|]. split; [now constructor|]. auto.
        * destruct (A3 x I) as (f & o & -> & Q & T & D). exists "sds", f, o. split; [reflexivity|]. split; [now constructor|]. auto.
        * destruct (A4 x I) as (f & o & -> & Q & T & D). exists "mags", f, o. split; [reflexivity|]. split; [now constructor|]. auto.
      + intros name O T. inversion O as [Q|Q|Q|Q| |]; subst.
        * destruct (B1 Q T) as (f & o & I). exists f, o. rewrite !in_app_iff. auto.
        * destruct (B2 Q T) as (f & o & I). exists f, o. rewrite !in_app_iff. auto.
        * destruct (B3 Q T) as (f & o & I). exists f, o. rewrite !in_app_iff. auto.
        * destruct (B4 Q T) as (f & o & I). exists f, o. rewrite !in_app_iff. auto.
      + rewrite !map_app.
        assert (M1 : forall x, In x e1 -> exists f o, x = Plotted "results" f o) by (intros x I; destruct (A1 x I) as (f & o & -> & _); eauto).
        assert (M2 : forall x, In x e2 -> exists f o, x = Plotted "sites" f o) by (intros x I; destruct (A2 x I) as (f & o & -> & _); eauto).
        assert (M3 : forall x, In x e3 -> exists f o, x = Plotted "sds" f o) by (intros x I; destruct (A3 x I) as (f & o & -> & _); eauto).
        assert (M4 : forall x, In x e4 -> exists f o, x = Plotted "mags" f o) by (intros x I; destruct (A4 x I) as (f & o & -> & _); eauto).
        destruct (one_plot_each _ _ C1 M1) as [-> | ->]; destruct (one_plot_each _ _ C2 M2) as [-> | ->];
        destruct (one_plot_each _ _ C3 M3) as [-> | ->]; destruct (one_plot_each _ _ C4 M4) as [-> | ->]; cbn [app];
          repeat constructor; cbn; intuition discriminate.
  Qed.

  (** an own title *)
  Lemma plot_title result id args o t :
    truthy (value args "plot_eventresult" (JBool false)) = true ->
    value args "plot_eventresult_options" (JDict []) = JDict o -> get o "title" = Some t ->
    forall e, plot w result (Some id) args <> Ok e.
  Proof.
    intros T V G e H. unfold plot in H. destruct (_ || _)%bool; [discriminate|].
    destruct (w_ok result) as [ok|]; cbn [bind] in H; [|discriminate].
    destruct (jin result "g0") as [g0|]; cbn [bind] in H; [|discriminate].
    destruct (jin result "R") as [R|]; cbn [bind] in H; [|discriminate].
    destruct (plot_if w "eventresult" _ _ _ _ _) as [e1|] eqn:P1; cbn [bind] in H; [|discriminate].
    destruct (plot_if_drawn _ _ _ _ _ _ _ P1) as [[_ (f & o1 & _ & (o0 & f0 & V2 & _ & _ & Fr & _))]|[N _]].
    - change ("plot_" ++ "eventresult" ++ "_options")%string with "plot_eventresult_options" in V2. rewrite V in V2.
      injection V2 as <-. specialize (Fr "title" ltac:(now left)). rewrite (dget_dpop_neq _ sspec) in Fr by discriminate. congruence.
    - apply N. split; [exact T|reflexivity].
  Qed.
End Plot.
