(** Proofs for ResponseProps.v. *)
From Coq Require Import String List Bool Reals Lra Lia Arith FinFun.
From Verif Require Import Base ResponseModel ResponseSpec.
Import ListNotations.
Open Scope string_scope.
Open Scope list_scope.

Lemma pair_eqb : forall p q : string * string,
  (String.eqb (fst p) (fst q) && String.eqb (snd p) (snd q))%bool = true <-> p = q.
Proof.
  intros [a b] [c d]. cbn. rewrite andb_true_iff, !String.eqb_eq. split; [intros [-> ->]; reflexivity | intros H; split; congruence].
Qed.

Lemma remove1_mid : forall p pre post, ~ In p pre -> remove1 p (pre ++ p :: post) = Ok (pre ++ post).
Proof.
  intros p. induction pre as [| q pre IH]; intros post N; cbn [app remove1].
  - rewrite (proj2 (pair_eqb p p) eq_refl). reflexivity.
  - destruct (_ && _)%bool eqn:E.
    + apply pair_eqb in E. subst. exfalso. apply N. left; reflexivity.
    + rewrite IH by (intros I; apply N; right; assumption). reflexivity.
Qed.

Section G.
  Variable inventory : string -> option response.
  Variable f : response -> itrace -> res (itrace * list string).
  Variable C : itrace -> itrace -> Prop.
  Variable F : itrace -> list string.
  Hypothesis Hok : forall tr tr' resp, inventory (i_id tr) = Some resp -> (C tr tr' <-> exists fs, f resp tr = Ok (tr', fs)).
  Hypothesis Hinv : forall tr tr', C tr tr' -> inventory (i_id tr) <> None.
  Hypothesis Hfiles : forall tr tr' resp fs, inventory (i_id tr) = Some resp -> f resp tr = Ok (tr', fs) -> fs = F tr.

  Lemma traces_ok : forall trs, (forall tr, In tr trs -> exists tr', C tr tr') ->
    exists trs', correct_traces inventory f trs = Ok (trs', flat_map F trs) /\ Forall2 C trs trs'.
  Proof.
    induction trs as [| tr trs IH]; intros H; [exists []; split; [reflexivity | constructor] |].
    destruct IH as [trs' [E FA]]; [intros; apply H; right; assumption |].
    destruct (H tr (or_introl eq_refl)) as [tr' Q]. assert (I := Hinv _ _ Q).
    cbn [correct_traces]. destruct (inventory (i_id tr)) as [resp |] eqn:R; [| congruence].
    destruct (proj1 (Hok _ _ _ R) Q) as [fs X]. rewrite X. cbn [bind]. rewrite E. cbn [bind fst snd].
    rewrite (Hfiles _ _ _ _ R X). exists (tr' :: trs'). split; [reflexivity | constructor; assumption].
  Qed.

  Lemma traces_fail : forall trs, ~ (forall tr, In tr trs -> exists tr', C tr tr') ->
    exists e, correct_traces inventory f trs = Err e.
  Proof.
    induction trs as [| tr trs IH]; intros H; [exfalso; apply H; intros ? [] |]. cbn [correct_traces].
    destruct (inventory (i_id tr)) as [resp |] eqn:R; [| exists AttributeError; reflexivity].
    destruct (f resp tr) as [[tr' fs] | e] eqn:X; [| exists e; reflexivity]. cbn [bind].
    assert (Q : C tr tr') by (apply (proj2 (Hok _ _ _ R)); exists fs; assumption).
    destruct IH as [e E].
    - intros A. apply H. intros t [<- | I]; [exists tr'; assumption | apply A; assumption].
    - rewrite E. exists e. reflexivity.
  Qed.

  Lemma traces_inv : forall trs trs' files, correct_traces inventory f trs = Ok (trs', files) ->
    Forall2 C trs trs' /\ files = flat_map F trs.
  Proof.
    induction trs as [| tr trs IH]; intros trs' files H; cbn [correct_traces] in H.
    - assert (trs' = []) by congruence. assert (files = []) by congruence. subst. split; [constructor | reflexivity].
    - destruct (inventory (i_id tr)) as [resp |] eqn:R; [| discriminate].
      destruct (f resp tr) as [[tr' fs] | e] eqn:X; [| discriminate]. cbn [bind] in H.
      destruct (correct_traces inventory f trs) as [[a b] | e]; [| discriminate]. cbn [bind fst snd] in H.
      destruct (IH a b eq_refl) as [A B]. assert (trs' = tr' :: a) by congruence. assert (files = fs ++ b) by congruence. subst trs' files.
      split.
      + constructor; [| assumption]. apply (proj2 (Hok _ _ _ R)). exists fs. assumption.
      + cbn [flat_map]. rewrite (Hfiles _ _ _ _ R X), B. reflexivity.
  Qed.

  Inductive keeps : list istream -> list istream -> list string -> Prop :=
    | ks_nil : keeps [] [] []
    | ks_keep s s' l l' fs : i_pair s' = i_pair s -> Forall2 C (i_traces s) (i_traces s') ->
        keeps l l' fs -> keeps (s :: l) (s' :: l') (flat_map F (i_traces s) ++ fs)
    | ks_skip s l l' fs : ~ (forall tr, In tr (i_traces s) -> exists tr', C tr tr') -> keeps l l' fs -> keeps (s :: l) l' fs.

  Lemma streams_ok : forall streams pre, NoDup (pre ++ map i_pair streams) ->
    exists ss fs, correct_streams inventory f streams (pre ++ map i_pair streams) = Ok (ss, pre ++ map i_pair ss, fs) /\
      keeps streams ss fs.
  Proof.
    induction streams as [| s streams IH]; intros pre N.
    - exists [], []. split; [reflexivity | constructor].
    - cbn [map] in *.
      assert (NP : ~ In (i_pair s) pre).
      { apply NoDup_remove_2 in N. intros I. apply N. apply in_or_app. left. assumption. }
      assert (N' : NoDup (pre ++ map i_pair streams)) by (eapply NoDup_remove_1; eassumption).
      assert (SK : ~ (forall tr, In tr (i_traces s) -> exists tr', C tr tr') ->
        exists ss fs, (do pairs <- remove1 (i_pair s) (pre ++ i_pair s :: map i_pair streams); correct_streams inventory f streams pairs)
          = Ok (ss, pre ++ map i_pair ss, fs) /\ keeps (s :: streams) ss fs).
      { intros Q. rewrite remove1_mid by assumption. cbn [bind]. destruct (IH pre N') as [ss [fs [E K]]].
        exists ss, fs. split; [assumption | constructor; assumption]. }
      cbn [correct_streams]. cbv zeta.
      destruct (forallb _ (i_traces s)) eqn:A; cbn [negb].
      + destruct (correct_traces inventory f (i_traces s)) as [[trs files] | e] eqn:T.
        * destruct (traces_inv _ _ _ T) as [P Q].
          assert (N2 : NoDup ((pre ++ [i_pair s]) ++ map i_pair streams)) by (rewrite <- app_assoc; exact N).
          destruct (IH (pre ++ [i_pair s]) N2) as [ss [fs [E K]]]. rewrite <- app_assoc in E. cbn [app] in E. rewrite E.
          cbn [bind]. exists ({| i_pair := i_pair s; i_traces := trs |} :: ss), (files ++ fs). split.
          -- rewrite <- app_assoc. reflexivity.
          -- rewrite Q. apply ks_keep; [reflexivity | exact P | assumption].
        * apply SK. intros X. destruct (traces_ok _ X) as [y [Y _]]. congruence.
      + apply SK. intros X. assert (B : forallb (fun tr => match inventory (i_id tr) with Some _ => true | None => false end) (i_traces s) = true).
        { apply forallb_forall. intros tr I. destruct (X tr I) as [tr' Q]. apply Hinv in Q. destruct (inventory (i_id tr)); [reflexivity | congruence]. }
        congruence.
  Qed.

  Lemma keeps_files : forall l l' fs, keeps l l' fs -> (forall tr tr', C tr tr' -> F tr' = F tr) ->
    fs = flat_map (fun s => flat_map F (i_traces s)) l'.
  Proof.
    intros l l' fs K Q. induction K as [| s s' l l' fs P A K IH | s l l' fs A K IH]; [reflexivity | | assumption].
    cbn [flat_map]. rewrite <- IH. f_equal. clear - A Q. induction A as [| a b m m' H A IH]; [reflexivity |].
    cbn [flat_map]. rewrite IH, (Q _ _ H). reflexivity.
  Qed.
End G.

Section R.
  Variable inventory : string -> option response.
  Variable deconvolve : response -> option string -> list R -> res (list R).


  Lemma full_ok : forall (plot : bool) evid fname (user : option string) tr tr' resp, inventory (i_id tr) = Some resp ->
    (corrected inventory deconvolve (fun id => if plot then Some (name_of fname evid id) else user) Full tr tr' <->
     exists fs, remove_one deconvolve plot evid fname user resp tr = Ok (tr', fs)).
  Proof.
    intros plot evid fname user tr tr' resp R. unfold remove_one. cbv zeta. split.
    - intros H. inversion H as [id x y resp' R' D E1 E2 |]. subst. cbn [i_id i_data] in *.
      assert (resp' = resp) by congruence. subst. rewrite D. eexists. reflexivity.
    - intros [fs H]. destruct (deconvolve _ _ _) as [y | e] eqn:D in H; [| discriminate]. cbn [bind] in H.
      assert (tr' = {| i_id := i_id tr; i_data := y |}) as -> by congruence.
      destruct tr as [id x]. cbn [i_id i_data] in *. econstructor; eassumption.
  Qed.

  Lemma sens_ok : sensitive inventory -> forall g tr tr' resp, inventory (i_id tr) = Some resp ->
    (corrected inventory deconvolve g Sensitivity tr tr' <-> exists fs, divide_one resp tr = Ok (tr', fs)).
  Proof.
    intros S g tr tr' resp R. unfold divide_one. split.
    - intros H. inversion H as [| id x y resp' v R' V L D E1 E2]. subst. cbn [i_id i_data] in *.
      assert (resp' = resp) by congruence. subst. rewrite V. exists []. f_equal. f_equal. f_equal.
      assert (N := S _ _ _ R V). clear - L D N. revert y L D. induction x as [| a x IH]; intros [| b y] L D; try discriminate; [reflexivity |].
      cbn [map]. f_equal.
      + assert (Q := D 0%nat a b eq_refl eq_refl). subst a. field. assumption.
      + apply IH; [cbn in L; congruence |]. intros k. exact (D (Datatypes.S k)).
    - intros [fs H]. destruct (i_value resp) as [v |] eqn:V; [| discriminate].
      assert (tr' = {| i_id := i_id tr; i_data := map (fun x => (x / v)%R) (i_data tr) |}) as -> by congruence.
      assert (N := S _ _ _ R V). destruct tr as [id x]. cbn [i_id i_data] in *.
      econstructor; [eassumption | eassumption | apply map_length |].
      intros k a b A B. rewrite (map_nth_error _ _ _ A) in B. assert (b = (a / v)%R) by congruence. subst. field. assumption.
  Qed.

  Definition files_of (file : option string) : list string := match file with Some x => [x] | None => [] end.

  Lemma keeps_kept : forall g how F streams ss fs,
    keeps (corrected inventory deconvolve g how) F streams ss fs -> kept inventory deconvolve g how streams ss.
  Proof. intros g how F streams ss fs K. induction K; [constructor | apply k_keep; assumption | apply k_skip; assumption]. Qed.

  Lemma corrected_inv : forall g how tr tr', corrected inventory deconvolve g how tr tr' -> inventory (i_id tr) <> None /\ i_id tr' = i_id tr.
  Proof. intros g how tr tr' H. destruct H; cbn [i_id]; split; congruence. Qed.

  (** The file of the plot of a channel *)
  Definition file_of (how : correction) (plot : bool) (o : roptions) (evid : string) (id : string) : option string :=
    match how with
    | Sensitivity => None
    | Full => if plot then Some (name_of (match ro_fname o with Some n => n | None => default_name end) evid id) else ro_plot o
    end.

  Lemma response_full : forall plot o evid streams pairs, one_each streams pairs ->
    exists ss fs, correct_response inventory deconvolve (Some Full) plot o evid streams pairs = Ok (ss, map i_pair ss, fs) /\
      kept inventory deconvolve (file_of Full plot o evid) Full streams ss /\
      fs = flat_map (fun s => flat_map (fun tr => files_of (file_of Full plot o evid (i_id tr))) (i_traces s)) ss.
  Proof.
    intros plot o evid streams pairs [N ->]. unfold correct_response. cbv zeta.
    set (fname := match ro_fname o with Some n => n | None => default_name end).
    set (g := fun id => if plot then Some (name_of fname evid id) else (if plot then None else ro_plot o)).
    assert (Q : forall tr tr' resp fs, inventory (i_id tr) = Some resp ->
              remove_one deconvolve plot evid fname (if plot then None else ro_plot o) resp tr = Ok (tr', fs) -> fs = files_of (g (i_id tr))).
    { intros tr tr' resp fs _ X. unfold remove_one in X. cbv zeta in X. destruct (deconvolve _ _ _) in X; [| discriminate].
      cbn [bind] in X. unfold g, files_of. destruct plot; congruence. }
    destruct (streams_ok inventory (remove_one deconvolve plot evid fname (if plot then None else ro_plot o))
      (corrected inventory deconvolve g Full) (fun tr => files_of (g (i_id tr)))
      (full_ok plot evid fname (if plot then None else ro_plot o))
      (fun tr tr' H => proj1 (corrected_inv _ _ _ _ H)) Q streams [] N) as [ss [fs [E K]]].
    cbn [app] in E.
    assert (G : g = file_of Full plot o evid) by (unfold g, file_of, fname; destruct plot; reflexivity).
    exists ss, fs. split; [assumption |]. rewrite <- G. split; [eapply keeps_kept; eassumption |].
    apply (keeps_files _ _ _ _ _ K). intros tr tr' X. rewrite (proj2 (corrected_inv _ _ _ _ X)). reflexivity.
  Qed.

  Lemma response_sensitivity : sensitive inventory -> forall plot o evid streams pairs g, one_each streams pairs ->
    exists ss, correct_response inventory deconvolve (Some Sensitivity) plot o evid streams pairs = Ok (ss, map i_pair ss, []) /\
      kept inventory deconvolve g Sensitivity streams ss.
  Proof.
    intros S plot o evid streams pairs g [N ->]. unfold correct_response. cbv zeta.
    assert (Q : forall tr tr' resp fs, inventory (i_id tr) = Some resp -> divide_one resp tr = Ok (tr', fs) -> fs = []).
    { intros tr tr' resp fs _ X. unfold divide_one in X. destruct (i_value resp); [congruence | discriminate]. }
    destruct (streams_ok inventory divide_one (corrected inventory deconvolve g Sensitivity) (fun _ => []) (sens_ok S g)
      (fun tr tr' H => proj1 (corrected_inv _ _ _ _ H)) Q streams [] N) as [ss [fs [E K]]].
    cbn [app] in E. exists ss. split; [| eapply keeps_kept; eassumption].
    rewrite E. f_equal. f_equal. rewrite (keeps_files _ _ _ _ _ K) by reflexivity.
    clear. induction ss as [| s ss IH]; [reflexivity |]. cbn [flat_map]. rewrite IH.
    induction (i_traces s) as [| t l IHl]; [reflexivity | exact IHl].
  Qed.
End R.

Lemma last_single : forall requested evid, (forall p, In p requested -> fst p = evid) -> last_event requested evid = evid.
Proof.
  intros requested evid. induction requested as [| p requested IH]; intros H; [reflexivity |]. cbn [last_event].
  rewrite (H p (or_introl eq_refl)). apply IH. intros; apply H; right; assumption.
Qed.

Lemma last_is : forall requested p evid, last_event (requested ++ [p]) evid = fst p.
Proof. induction requested as [| q requested IH]; intros p evid; cbn; [reflexivity | apply IH]. Qed.

(** The names of different channels differ *)
Lemma append_inj_l : forall a b c : string, (a ++ b = a ++ c)%string -> b = c.
Proof. induction a as [| x a IH]; cbn; intros b c H; [assumption |]. apply IH. congruence. Qed.

Lemma length_app : forall a b, String.length (a ++ b)%string = (String.length a + String.length b)%nat.
Proof. induction a as [| x a IH]; intros; cbn; [reflexivity | rewrite IH; reflexivity]. Qed.

Lemma append_inj_r : forall c a b : string, (a ++ c = b ++ c)%string -> a = b.
Proof.
  intros c. induction a as [| x a IH]; intros [| y b] H; cbn in H; try reflexivity.
  - apply (f_equal String.length) in H. cbn in H. rewrite length_app in H. lia.
  - apply (f_equal String.length) in H. cbn in H. rewrite length_app in H. lia.
  - assert (x = y) by congruence. subst. f_equal. apply IH. congruence.
Qed.

Lemma name_inj : forall evid id id', name_of default_name evid id = name_of default_name evid id' -> id = id'.
Proof.
  intros evid id id' H. unfold name_of, default_name in H. cbn [map String.concat] in H.
  apply append_inj_l in H. apply (append_inj_l "") in H. apply append_inj_l in H. apply (append_inj_l "") in H.
  apply append_inj_l in H. apply (append_inj_l "") in H. apply append_inj_r in H. assumption.
Qed.

Lemma append_empty : forall s, (s ++ "")%string = s.
Proof. induction s as [| a s IH]; cbn; congruence. Qed.

Lemma name_filled : forall n evid id, name_of n evid id = filled n evid id.
Proof.
  intros n evid id. unfold name_of. set (h := fun p : npart => match p with NLit s => s | NEvent => evid | NTrace => id end).
  assert (A : forall x l, String.concat "" (x :: l) = (x ++ String.concat "" l)%string).
  { intros x [| y l]; [cbn; rewrite append_empty; reflexivity | reflexivity]. }
  induction n as [| p n IH]; [reflexivity |]. cbn [map]. rewrite A, IH. destruct p; reflexivity.
Qed.

Lemma file_same : forall plot o evid id, file_of Full plot o evid id = plot_file plot o evid id.
Proof.
  intros plot o evid id. unfold file_of, plot_file. destruct plot; [| reflexivity]. destruct (ro_fname o) as [n |].
  - rewrite name_filled. reflexivity.
  - reflexivity.
Qed.

Lemma kept_ext : forall inventory deconvolve g g' how l l', (forall id, g id = g' id) ->
  kept inventory deconvolve g how l l' -> kept inventory deconvolve g' how l l'.
Proof.
  intros inventory deconvolve g g' how l l' G K.
  assert (A : forall h h' tr tr', (forall id, h id = h' id) -> corrected inventory deconvolve h how tr tr' -> corrected inventory deconvolve h' how tr tr').
  { intros h h' tr tr' H X. destruct X; [eapply c_full; [eassumption | rewrite <- H; assumption] | eapply c_sens; eassumption]. }
  induction K as [| s s' l l' P F K IH | s l l' N K IH].
  - constructor.
  - apply k_keep; [assumption | | assumption]. clear - F A G. induction F; constructor; eauto.
  - apply k_skip; [| assumption]. intros X. apply N. intros tr I. destruct (X tr I) as [tr' Y]. exists tr'.
    apply (A g' g); [intros; symmetry; apply G | assumption].
Qed.

Lemma response_full' : forall inventory deconvolve plot o evid streams pairs, one_each streams pairs ->
  exists ss, correct_response inventory deconvolve (Some Full) plot o evid streams pairs
      = Ok (ss, map i_pair ss, plot_files plot o evid ss) /\
    kept inventory deconvolve (plot_file plot o evid) Full streams ss.
Proof.
  intros inventory deconvolve plot o evid streams pairs H.
  destruct (response_full inventory deconvolve plot o evid streams pairs H) as [ss [fs [E [K F]]]].
  exists ss. split.
  - rewrite E, F. f_equal. f_equal. unfold plot_files. apply flat_map_ext. intros s. apply flat_map_ext. intros tr.
    rewrite file_same. reflexivity.
  - eapply kept_ext; [| exact K]. intros id. apply file_same.
Qed.

Lemma response_none : forall inventory deconvolve plot o evid streams pairs,
  correct_response inventory deconvolve None plot o evid streams pairs = Ok (streams, pairs, []).
Proof. reflexivity. Qed.

(** One event: every channel has a plot of its own with the name of the event *)
Lemma plots_single : forall requested evid0 evid o ss, requested <> [] -> (forall p, In p requested -> fst p = evid) ->
  ro_fname o = None ->
  plot_files true o (last_event requested evid0) ss =
    map (fun tr => ("remove_response_" ++ evid ++ "_" ++ i_id tr ++ ".png")%string) (flat_map i_traces ss).
Proof.
  intros requested evid0 evid o ss N H O.
  assert (E : last_event requested evid0 = evid).
  { destruct requested as [| p requested]; [congruence |]. cbn [last_event]. rewrite (H p (or_introl eq_refl)).
    apply last_single. intros; apply H; right; assumption. }
  rewrite E. unfold plot_files, plot_file. rewrite O. induction ss as [| s ss IH]; [reflexivity |].
  cbn [flat_map]. rewrite map_app, <- IH. reflexivity.
Qed.

Lemma plots_distinct : forall requested evid0 evid o ss, requested <> [] -> (forall p, In p requested -> fst p = evid) ->
  ro_fname o = None -> NoDup (map i_id (flat_map i_traces ss)) ->
  NoDup (plot_files true o (last_event requested evid0) ss).
Proof.
  intros requested evid0 evid o ss N H O D. rewrite (plots_single requested evid0 evid o ss N H O).
  rewrite <- (map_map i_id (fun id => ("remove_response_" ++ evid ++ "_" ++ id ++ ".png")%string)).
  apply Injective_map_NoDup; [| assumption]. intros a b X. exact (name_inj evid a b X).
Qed.
