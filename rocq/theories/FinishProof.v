(** Lemmas on the plots at the end of an inversion. *)
From Coq Require Import String List Bool.
From Verif Require Import Base RunModel RunSpec RunProof RunSpec2 RunProof5 RunProof7 FinishModel FinishSpec.
Import ListNotations.
Open Scope string_scope.
Open Scope list_scope.

Lemma dset_twice (d : dict) k v v' : dset String.eqb (dset String.eqb d k v) k v' = dset String.eqb d k v'.
Proof.
  induction d as [|[k0 v0] d IH]; cbn [dset].
  - now rewrite String.eqb_refl.
  - destruct (String.eqb k k0) eqn:X; cbn [dset]; rewrite X; [reflexivity|]. now rewrite IH.
Qed.

Lemma dset_over (d : dict) a x x' b y y' : a <> b ->
  dset String.eqb (dset String.eqb (dset String.eqb (dset String.eqb d a x) b y) a x') b y' =
  dset String.eqb (dset String.eqb d a x') b y'.
Proof.
  intros N.
  assert (Nb : String.eqb b a = false) by (apply String.eqb_neq; auto).
  assert (Na : String.eqb a b = false) by (apply String.eqb_neq; auto).
  induction d as [|[k0 v0] d IH]; cbn [dset].
  - rewrite Nb. cbn [dset]. rewrite String.eqb_refl. cbn [dset]. now rewrite Nb, String.eqb_refl.
  - destruct (String.eqb a k0) eqn:A.
    + apply String.eqb_eq in A. subst k0. cbn [dset]. rewrite Nb. cbn [dset]. rewrite String.eqb_refl. cbn [dset]. rewrite Nb.
      now rewrite dset_twice.
    + cbn [dset]. destruct (String.eqb b k0) eqn:B.
      * cbn [dset]. rewrite A. cbn [dset]. rewrite B. apply String.eqb_eq in B. subst k0. now rewrite dset_twice.
      * cbn [dset]. rewrite A. cbn [dset]. rewrite B. now rewrite IH.
Qed.

Lemma add_twice (o : dict) m mo m' mo' :
  dupdate String.eqb (dupdate String.eqb o [("seismic_moment_method", m); ("seismic_moment_options", mo)])
    [("seismic_moment_method", m'); ("seismic_moment_options", mo')] =
  dupdate String.eqb o [("seismic_moment_method", m'); ("seismic_moment_options", mo')].
Proof. unfold dupdate. cbn [fold_left fst snd]. apply dset_over. discriminate. Qed.

Lemma dget_dset (d : dict) k v k' : dget String.eqb (dset String.eqb d k v) k' = if String.eqb k' k then Some v else dget String.eqb d k'.
Proof.
  induction d as [|[k0 v0] d IH]; cbn [dset dget].
  - destruct (String.eqb k' k) eqn:X; reflexivity.
  - destruct (String.eqb k k0) eqn:X; cbn [dget].
    + apply String.eqb_eq in X. subst k0. destruct (String.eqb k' k); reflexivity.
    + destruct (String.eqb k' k0) eqn:Y; [|exact IH].
      destruct (String.eqb k' k) eqn:Z; [|reflexivity]. apply String.eqb_eq in Y, Z. subst. rewrite String.eqb_refl in X. discriminate.
Qed.

Lemma add_with (o : dict) m mo :
  with_moment o m mo (dupdate String.eqb o [("seismic_moment_method", m); ("seismic_moment_options", mo)]).
Proof.
  unfold with_moment, dupdate. cbn [fold_left fst snd]. split; [|split]; [now rewrite !dget_dset..|].
  intros k A B. rewrite !dget_dset. apply String.eqb_neq in A, B. now rewrite A, B.
Qed.

Section Finish.
  Context {E : Type}.
  Variable w : world E.

  Lemma as_drawn result id args name f o g :
    value args ("plot_" ++ name ++ "_options")%string (JDict []) = JDict g ->
    as_wished (w_format w) result (Some id) args name f o -> drawn_for (w_format w) result id name g f o.
  Proof.
    intros V (o0 & f0 & V' & F & Ef & K & W). assert (o0 = g) by congruence. subst o0.
    split; [exists f0; split; [exact F|exact Ef]|]. split; [exact K|exact W].
  Qed.

  Section One.
    Variables (result : json) (id : string) (m mo : json) (s : plot_settings) (o : json).
    Hypothesis A : add_moment s m mo = Ok o.
    Let args : dict :=
      [("plot_eventresult", ps_event s); ("plot_eventresult_options", o);
       ("plot_eventsites", ps_sites s); ("plot_eventsites_options", ps_sites_options s)].

    Lemma event_drawn ok g0 e :
      w_ok result = Ok ok -> jin result "g0" = Ok g0 ->
      plot_if w "eventresult" true (Some id) [("title", title id); ("quantities", quantities g0 ok)] result args = Ok e ->
      (off (ps_event s) /\ e = []) \/
      exists f o', ~ off (ps_event s) /\ e = [Plotted "eventresult" f o'] /\
        wished (w_format w) result id m mo s (Plotted "eventresult" f o') /\ w_image w "eventresult" result f o' = Ok tt.
    Proof.
      intros WO G P. pose proof (w_ok_has _ _ WO) as Hw. pose proof (jin_has _ _ _ G) as Hg.
      destruct (plot_if_drawn w _ _ _ _ _ _ _ P) as [[[T _] (f & o' & -> & D)]|[N ->]].
      - right. change (value args ("plot_" ++ "eventresult") (JBool false)) with (ps_event s) in T.
        exists f, o'. destruct (keywords_wished w result g0 ok (Some id) args "eventresult" f o' Hg Hw D) as [W I].
        split; [now apply truthy_on|]. split; [reflexivity|]. split; [|exact I].
        unfold add_moment in A. rewrite T in A. destruct (ps_event_options s) as [| | | | |d|] eqn:EO; try discriminate. injection A as A'.
        refine (W_event _ _ _ _ _ _ d _ f o' _ EO (add_with d m mo) _); [now apply truthy_on|].
        refine (as_drawn _ _ _ _ _ _ _ _ W). cbn. now rewrite <- A'.
      - left. split; [|reflexivity]. change (value args ("plot_" ++ "eventresult") (JBool false)) with (ps_event s) in N.
        apply truthy_off. destruct (truthy (ps_event s)); [exfalso; now apply N|reflexivity].
    Qed.

    Lemma sites_drawn R e :
      jin result "R" = Ok R ->
      plot_if w "eventsites" R (Some id) [("title", title id)] result args = Ok e ->
      ((off (ps_sites s) \/ ~ has result "R") /\ e = []) \/
      exists f o', ~ off (ps_sites s) /\ e = [Plotted "eventsites" f o'] /\
        wished (w_format w) result id m mo s (Plotted "eventsites" f o') /\ w_image w "eventsites" result f o' = Ok tt.
    Proof.
      intros G P. pose proof (jin_has _ _ _ G) as HR.
      destruct (plot_if_drawn w _ _ _ _ _ _ _ P) as [[[T Tr] (f & o' & -> & D)]|[N ->]].
      - right. change (value args ("plot_" ++ "eventsites") (JBool false)) with (ps_sites s) in T.
        exists f, o'. destruct D as (o0 & f0 & V & F & Ef & Fr & Eo & I).
        split; [now apply truthy_on|]. split; [reflexivity|]. split; [|exact I].
        refine (W_sites _ _ _ _ _ _ o0 f o' _ _ V _); [now apply truthy_on|now apply HR|].
        split; [exists f0; split; [exact F|exact Ef]|]. subst o'. split.
        + intros k v K Gk. cbn [app dget]. destruct (String.eqb k "title") eqn:T'.
          * apply String.eqb_eq in T'. subst k. specialize (Fr "title" (or_introl eq_refl)).
            rewrite (dget_dpop_neq _ sspec) in Fr by exact K. congruence.
          * now rewrite (dget_dpop_neq _ sspec).
        + split; [reflexivity|discriminate].
      - left. split; [|reflexivity]. change (value args ("plot_" ++ "eventsites") (JBool false)) with (ps_sites s) in N.
        destruct (truthy (ps_sites s)) eqn:T; [|left; now apply truthy_off]. right. intros H. apply N. split; [reflexivity|now apply HR].
    Qed.

    Lemma event_plots_drawn plots logged :
      event_plots w result id args = (plots, logged) ->
      (forall x, In x plots -> wished (w_format w) result id m mo s x /\
         exists name f o', x = Plotted name f o' /\ w_image w name result f o' = Ok tt) /\
      NoDup (map plot_name plots) /\
      (logged = None ->
        (~ off (ps_event s) -> In "eventresult" (map plot_name plots)) /\
        (~ off (ps_sites s) -> has result "R" -> In "eventsites" (map plot_name plots))).
    Proof.
      unfold event_plots. destruct (w_ok result) as [ok|e] eqn:WO; cbn [bind];
        [|intros [= <- <-]; split; [intros x []|]; split; [constructor|discriminate]].
      destruct (jin result "g0") as [g0|e] eqn:G; cbn [bind]; [|intros [= <- <-]; split; [intros x []|]; split; [constructor|discriminate]].
      destruct (jin result "R") as [R|e] eqn:JR; cbn [bind]; [|intros [= <- <-]; split; [intros x []|]; split; [constructor|discriminate]].
      destruct (plot_if w "eventresult" _ _ _ _ _) as [e1|e] eqn:P1;
        [|intros [= <- <-]; split; [intros x []|]; split; [constructor|discriminate]].
      apply (event_drawn _ _ _ WO G) in P1.
      destruct (plot_if w "eventsites" _ _ _ _ _) as [e2|e] eqn:P2.
      - apply (sites_drawn _ _ JR) in P2. intros [= <- <-].
        destruct P1 as [[O1 ->]|(f1 & o1 & O1 & -> & W1 & I1)]; destruct P2 as [[O2 ->]|(f2 & o2 & O2 & -> & W2 & I2)]; cbn [app map plot_name].
        + split; [intros x []|]. split; [constructor|]. intros _. split; [intros N; now destruct N|intros N H; destruct O2; contradiction].
        + split; [intros x [<-|[]]; split; [exact W2|eauto]|]. split; [repeat constructor; auto|]. intros _.
          split; [intros N; now destruct N|intros _ _; now left].
        + split; [intros x [<-|[]]; split; [exact W1|eauto]|]. split; [repeat constructor; auto|]. intros _.
          split; [now left|intros N H; destruct O2; contradiction].
        + split; [intros x [<-|[<-|[]]]; split; [exact W1|eauto|exact W2|eauto]|].
          split; [constructor; [intros [X|[]]; discriminate|repeat constructor; auto]|]. intros _. split; [now left|right; now left].
      - intros [= <- <-]. destruct P1 as [[O1 ->]|(f1 & o1 & O1 & -> & W1 & I1)].
        + split; [intros x []|]. split; [constructor|discriminate].
        + split; [intros x [<-|[]]; split; [exact W1|eauto]|]. split; [repeat constructor; auto|discriminate].
    Qed.
  End One.

  (** a single event *)
  Lemma finish_drawn result id m mo s f :
    finish w result [id] m mo s = Ok f ->
    (forall x, In x (fi_plots f) -> wished (w_format w) result id m mo s x /\
       exists name fname o, x = Plotted name fname o /\ w_image w name result fname o = Ok tt) /\
    NoDup (map plot_name (fi_plots f)) /\
    (fi_logged f = None ->
      (~ off (ps_event s) -> In "eventresult" (map plot_name (fi_plots f))) /\
      (~ off (ps_sites s) -> has result "R" -> In "eventsites" (map plot_name (fi_plots f)))).
  Proof.
    unfold finish. destruct (add_moment s m mo) as [o|] eqn:A; cbn [bind]; [|discriminate].
    destruct (event_plots w result id _) as [p l] eqn:P. intros [= <-]. cbn [fi_plots fi_logged].
    exact (event_plots_drawn _ _ _ _ _ _ A _ _ P).
  Qed.

  (** the result is returned in any case *)
  Lemma finish_returned result ids m mo s o :
    ps_event_options s = JDict o -> exists f, finish w result ids m mo s = Ok f /\ fi_result f = result.
  Proof.
    intros O. unfold finish. destruct ids as [|id [|id2 ids]]; [eexists; split; reflexivity| |eexists; split; reflexivity].
    unfold add_moment. rewrite O. destruct (truthy _); cbn [bind]; destruct (event_plots w result id _) as [p l];
      (eexists; split; [reflexivity|reflexivity]).
  Qed.

  (** a joint inversion has no plots of an event *)
  Lemma finish_joint result ids m mo s f :
    List.length ids <> 1%nat -> finish w result ids m mo s = Ok f ->
    fi_result f = result /\ fi_plots f = [] /\ fi_logged f = None /\ fi_options f = ps_event_options s.
  Proof. unfold finish. destruct ids as [|id [|id2 ids]]; intros L; [intros [= <-]|cbn in L; contradiction|intros [= <-]]; auto. Qed.

  (** options used before *)
  Definition used (o o' : json) : Prop :=
    o' = o \/ exists d m mo, o = JDict d /\ o' = JDict (dupdate String.eqb d [("seismic_moment_method", m); ("seismic_moment_options", mo)]).

  Definition outcome (f : finished) : json * list effect * option exn := (fi_result f, fi_plots f, fi_logged f).

  Lemma add_used s s' m mo :
    same_but_options s s' -> used (ps_event_options s) (ps_event_options s') ->
    truthy (ps_event s) = true -> add_moment s' m mo = add_moment s m mo.
  Proof.
    intros (E1 & _ & _) U T. unfold add_moment. rewrite <- E1, T. destruct U as [->|(d & m' & mo' & -> & ->)]; [reflexivity|].
    now rewrite add_twice.
  Qed.

  Lemma event_plots_off result id pe o o' ps so :
    truthy pe = false ->
    event_plots w result id [("plot_eventresult", pe); ("plot_eventresult_options", o); ("plot_eventsites", ps); ("plot_eventsites_options", so)] =
    event_plots w result id [("plot_eventresult", pe); ("plot_eventresult_options", o'); ("plot_eventsites", ps); ("plot_eventsites_options", so)].
  Proof. intros T. unfold event_plots, plot_if, one_plot, getd. cbn. now rewrite T. Qed.

  Lemma finish_used result ids m mo s s' f' :
    same_but_options s s' -> used (ps_event_options s) (ps_event_options s') ->
    finish w result ids m mo s' = Ok f' ->
    used (ps_event_options s) (fi_options f') /\
    exists f, finish w result ids m mo s = Ok f /\ outcome f = outcome f'.
  Proof.
    intros B U. pose proof B as (E1 & E2 & E3). unfold finish. destruct ids as [|id [|id2 ids]];
      [intros [= <-]; split; [exact U|eexists; split; reflexivity]| |intros [= <-]; split; [exact U|eexists; split; reflexivity]].
    destruct (truthy (ps_event s)) eqn:T.
    - rewrite (add_used _ _ _ _ B U T). destruct (add_moment s m mo) as [o|] eqn:A; cbn [bind]; [|discriminate].
      rewrite <- E1, <- E2, <- E3. destruct (event_plots w result id _) as [p l]. intros [= <-]. cbn [fi_options]. split.
      + unfold add_moment in A. rewrite T in A. destruct (ps_event_options s) as [| | | | |d|] eqn:EO; try discriminate. injection A as <-.
        right. exists d, m, mo. split; reflexivity.
      + eexists. split; reflexivity.
    - assert (A : forall m mo, add_moment s m mo = Ok (ps_event_options s)) by (intros; unfold add_moment; now rewrite T).
      assert (A' : add_moment s' m mo = Ok (ps_event_options s')) by (unfold add_moment; now rewrite <- E1, T).
      rewrite A, A'. cbn [bind]. rewrite <- E1, <- E2, <- E3.
      rewrite (event_plots_off result id (ps_event s) (ps_event_options s') (ps_event_options s) _ _ T).
      destruct (event_plots w result id _) as [p l]. intros [= <-]. cbn [fi_options]. split; [exact U|]. eexists. split; reflexivity.
  Qed.

  (** sharing the options does not change the plots *)
  Lemma finish_all_used l : forall s s' fs,
    same_but_options s s' -> used (ps_event_options s) (ps_event_options s') ->
    finish_all w l s' = Ok fs ->
    Forall2 (fun x f' => let '(result, ids, m, mo) := x in
               exists f, finish w result ids m mo s = Ok f /\
                 fi_result f' = fi_result f /\ fi_plots f' = fi_plots f /\ fi_logged f' = fi_logged f) l fs.
  Proof.
    induction l as [|[[[result ids] m] mo] l IH]; intros s s' fs B U H; cbn [finish_all] in H.
    - injection H as <-. constructor.
    - destruct (finish w result ids m mo s') as [f'|] eqn:F; cbn [bind] in H; [|discriminate].
      destruct (finish_used _ _ _ _ _ _ _ B U F) as (U' & f & Ff & O).
      destruct (finish_all w l _) as [fs'|] eqn:FS; cbn [bind] in H; [|discriminate]. injection H as <-. constructor.
      + exists f. split; [exact Ff|]. unfold outcome in O. injection O as -> -> ->. auto.
      + refine (IH s _ fs' _ _ FS); [|exact U']. destruct B as (E1 & E2 & E3). split; [exact E1|]. split; [exact E2|exact E3].
  Qed.

  Lemma finish_shared l s fs :
    finish_all w l s = Ok fs ->
    Forall2 (fun x f' => let '(result, ids, m, mo) := x in
               exists f, finish w result ids m mo s = Ok f /\
                 fi_result f' = fi_result f /\ fi_plots f' = fi_plots f /\ fi_logged f' = fi_logged f) l fs.
  Proof. apply finish_all_used; [repeat split|now left]. Qed.

  (** a title among the options *)
  Lemma finish_title result id m mo s o t f :
    ~ off (ps_event s) -> ps_event_options s = JDict o -> dget String.eqb o "title" = Some t ->
    finish w result [id] m mo s = Ok f -> fi_plots f = [] /\ fi_logged f <> None /\ fi_result f = result.
  Proof.
    intros O EO T. unfold finish. destruct (add_moment s m mo) as [o1|] eqn:A; cbn [bind]; [|discriminate].
    destruct (event_plots w result id _) as [p l] eqn:P. intros [= <-]. cbn [fi_plots fi_logged fi_result].
    unfold add_moment in A. pose proof (proj2 (truthy_on _) O) as Tr. rewrite Tr, EO in A. injection A as <-.
    unfold event_plots in P. destruct (do ok <- w_ok result; _) as [[[ok g0] R]|e]; [|injection P as <- <-; repeat split; discriminate].
    destruct (plot_if w "eventresult" _ _ _ _ _) as [e1|e] eqn:P1; [|injection P as <- <-; repeat split; discriminate].
    exfalso. destruct (plot_if_drawn w _ _ _ _ _ _ _ P1) as [[_ (f & o' & _ & D)]|[N _]].
    - destruct D as (o0 & f0 & V & F & Ef & Fr & Eo & I). injection V as <-.
      specialize (Fr "title" (or_introl eq_refl)).
      rewrite (dget_dpop_neq _ sspec) in Fr by discriminate.
      destruct (add_with o m mo) as (_ & _ & K). rewrite K in Fr by discriminate. congruence.
    - apply N. split; [exact Tr|reflexivity].
  Qed.
End Finish.
