(** Lemmas on the numbers in the main panel of plot_optimization. *)
From Coq Require Import String List Bool Reals Lra Lia Arith ZArith.
From Verif Require Import Base Pyf PyfOps FbModel LsqfbModel LsqfbSpec LsqfbProof LsqfbProof4 GridModel GridProof CurveModel StepModel StepSpec.
Import ListNotations.
Open Scope list_scope.

Lemma pyf_dec (x y : pyf) : {x = y} + {x <> y}.
Proof. destruct x as [| | |a], y as [| | |b]; try (right; discriminate); try (left; reflexivity). destruct (Req_EM_T a b) as [->|N]; [now left|right; congruence]. Qed.

Section S.
  Variable o : lopts.
  Variable st : wstate.

  (** each record of the optimisation has a cross *)
  Definition crossed (s : rstate) : Prop := forall r, In r (r_record s) -> In (f_err r, f_g0 r) (r_g0 s).

  Lemma add_crossed s f : l_plot_optimization o = true -> crossed s -> crossed (add_record o s f true).
  Proof.
    intros P C. unfold add_record. rewrite P. cbn [andb r_record r_g0].
    destruct (_ && _)%bool; intros r I; cbn [r_record r_g0] in *.
    - apply in_app_iff in I. apply in_app_iff. destruct I as [I|[<-|[]]]; [left; now apply C|right; now left].
    - apply in_app_iff. left. now apply C.
  Qed.

  Lemma minimize_crossed a bs rs p : l_plot_optimization o = true -> forall s s' x,
    minimize o st a bs rs p s = Ok (s', x) -> crossed s -> crossed s'.
  Proof.
    intros P. induction p as [x k IH|x|e]; intros s s' z H C; cbn [minimize] in H; [|injection H as <- <-; exact C|discriminate].
    destruct (lstsq_opt o st a bs rs s x) as [[s1 err]|] eqn:Q; [|discriminate]. cbn [bind] in H.
    apply (IH _ _ _ _ H). unfold lstsq_opt in Q. destruct (g0_outside o x); [injection Q as <- <-; exact C|].
    destruct (solve_at _ _ _ _ _ _ _ _) as [f|]; [|discriminate]. cbn [bind] in Q. injection Q as <- <-. now apply add_crossed.
  Qed.

  (** crosses carry the misfit of the inversion at their g0 *)
  Definition solved a bs rs (s : rstate) : Prop :=
    forall y g, In (y, g) (r_g0 s) -> exists f, solve_at o st a bs rs g None false = Ok f /\ f_err f = y.

  Lemma minimize_solved a bs rs p : l_plot_optimization o = true -> forall s s' x,
    minimize o st a bs rs p s = Ok (s', x) -> solved a bs rs s -> solved a bs rs s'.
  Proof.
    intros P. induction p as [x k IH|x|e]; intros s s' z H C; cbn [minimize] in H; [|injection H as <- <-; exact C|discriminate].
    destruct (lstsq_opt o st a bs rs s x) as [[s1 err]|] eqn:Q; [|discriminate]. cbn [bind] in H.
    apply (IH _ _ _ _ H). unfold lstsq_opt in Q. destruct (g0_outside o x); [injection Q as <- <-; exact C|].
    destruct (solve_at o st a bs rs x None false) as [f|] eqn:SF; [|discriminate]. cbn [bind] in Q. injection Q as <- <-.
    pose proof (solve_at_g0 _ _ _ _ _ _ _ _ _ SF) as G0.
    intros y g I. rewrite add_record_g0, P in I. apply in_app_iff in I. destruct I as [I|[[= <- <-]|[]]]; [now apply C|].
    exists f. split; [now rewrite G0|reflexivity].
  Qed.

  Lemma final_records s f :
    choose o st = Ok (Some (s, f)) -> l_fix o = false -> l_optimize o = true -> l_plot_optimization o = true ->
    forall r, In r (r_record s) -> In (f_err r, f_g0 r) (r_g0 s) \/ (r = f /\ ~ In (f_g0 f) (map snd (r_g0 s))).
  Proof.
    intros CH FX OP PL. unfold choose in CH. destruct (build o st) as [[[a bs] rs]|]; [|discriminate]. cbn [bind] in CH.
    rewrite FX, OP in CH. cbn [negb] in CH.
    destruct (minimize o st a bs rs (l_optim o) _) as [[s1 g]|] eqn:M; [|discriminate]. cbn [bind] in CH.
    destruct (lstsq o st a bs rs s1 g None false) as [[s2 f2]|] eqn:L; [|discriminate]. cbn [bind] in CH. injection CH as -> ->.
    pose proof (minimize_crossed _ _ _ _ PL _ _ _ M ltac:(intros r [])) as C.
    pose proof (minimize_solved _ _ _ _ PL _ _ _ M ltac:(intros y z [])) as SO.
    unfold lstsq in L. destruct (solve_at o st a bs rs g None false) as [f'|] eqn:SF; [|discriminate]. cbn [bind] in L. injection L as <- <-.
    pose proof (solve_at_g0 _ _ _ _ _ _ _ _ _ SF) as G0.
    intros r I. rewrite add_record_final_g0. unfold add_record in I. rewrite PL in I. cbn [andb] in I.
    destruct (_ && _)%bool; cbn [r_record] in I; [|left; now apply C].
    apply in_app_iff in I. destruct I as [I|[<-|[]]]; [left; now apply C|].
    destruct (in_dec pyf_dec (f_g0 f') (map snd (r_g0 s1))) as [H|H]; [left|right; split; [reflexivity|exact H]].
    apply in_map_iff in H. destruct H as ([y z] & E & H). cbn [snd] in E. destruct (SO _ _ H) as (f2 & S2 & Y).
    rewrite E, G0, SF in S2. injection S2 as <-. rewrite Y, <- E. exact H.
  Qed.
End S.

Lemma final_nonempty o st s f : choose o st = Ok (Some (s, f)) -> l_plot_optimization o = true -> r_record s <> [].
Proof.
  intros CH PL.
  assert (K : forall s0 g, r_record (add_record o s0 g false) <> []).
  { intros s0 g. unfold add_record. rewrite PL. cbn [andb negb]. rewrite orb_true_r, andb_true_r.
    destruct (existsb _ (r_record s0)) eqn:X; cbn [negb].
    - intros E. rewrite E in X. discriminate.
    - cbn [r_record]. destruct (r_record s0); discriminate. }
  assert (KL : forall a bs rs s0 g bf fs s' f', lstsq o st a bs rs s0 g bf fs = Ok (s', f') -> r_record s' <> []).
  { intros a bs rs s0 g bf fs s' f' L. unfold lstsq in L. destruct (solve_at _ _ _ _ _ _ _ _) as [f0|]; [|discriminate].
    cbn [bind] in L. injection L as <- <-. apply K. }
  unfold choose in CH. destruct (build o st) as [[[a bs] rs]|]; [|discriminate]. cbn [bind] in CH.
  destruct (l_fix o).
  - destruct (l_fix_params o) as [[[g|] [b|]]|]; try discriminate.
    destruct (lstsq o st a bs rs _ g (Some b) _) as [[s1 f1]|] eqn:L; [|discriminate]. cbn [bind] in CH.
    destruct (_ && _)%bool; [|discriminate]. injection CH as -> ->. exact (KL _ _ _ _ _ _ _ _ _ L).
  - destruct (l_optimize o); cbn [negb] in CH.
    + destruct (minimize o st a bs rs (l_optim o) _) as [[s1 g]|]; [|discriminate]. cbn [bind] in CH.
      destruct (lstsq o st a bs rs s1 g None false) as [[s2 f2]|] eqn:L; [|discriminate]. cbn [bind] in CH. injection CH as -> ->.
      exact (KL _ _ _ _ _ _ _ _ _ L).
    + destruct (l_g0_bounds o) as [[lo hi]|]; [|discriminate].
      match type of CH with bind ?x _ = _ => destruct x as [[s2 f2]|] eqn:L; [|discriminate] end. cbn [bind] in CH. injection CH as -> ->.
      exact (KL _ _ _ _ _ _ _ _ _ L).
Qed.

Section Labels.
  Variables (num : nat) (ym : pyf) (g0s : list (pyf * pyf)).
  Let label (x : ((nat * nat) * option nat) * fit) : list (nat * (pyf * pyf)) :=
    match snd (fst x) with Some k => [(k, (f_g0 (snd x), shown_err ym g0s (snd x)))] | None => [] end.

  Lemma labels_from record : (3 <= num)%nat -> forall a,
    let ls := flat_map label (combine (map (step_place ((num + 1) / 2) num) (seq a (List.length record))) record) in
    List.length ls = Nat.min (List.length record) (num - 1 - a) /\
    forall i r, (a + i < num - 1)%nat -> nth_error record i = Some r ->
      nth_error ls i = Some (S (a + i), (f_g0 r, shown_err ym g0s r)).
  Proof.
    intros H. pose proof (Nat.div_mod (num + 1) 2 ltac:(lia)) as D. pose proof (Nat.mod_upper_bound (num + 1) 2 ltac:(lia)) as B.
    set (n := ((num + 1) / 2)%nat) in *.
    induction record as [|r0 record IH]; intros a; cbn [List.length seq map combine flat_map].
    - split; [reflexivity|]. intros [|i] r; discriminate.
    - destruct (IH (S a)) as [L N]. cbn zeta in L, N. set (rest := flat_map label _) in *.
      cbv zeta. fold rest. destruct (lt_dec a (num - 1)) as [A|A].
      + assert (E : label (step_place n num a, r0) = [(S a, (f_g0 r0, shown_err ym g0s r0))]).
        { unfold label, step_place. cbn [fst snd]. destruct (Nat.ltb_spec a n); [cbn [snd]; now rewrite Nat.add_1_r|].
          destruct (Nat.ltb_spec (S a) num); [cbn [snd]; now rewrite Nat.add_1_r|lia]. }
        rewrite E. cbn [app List.length]. split; [rewrite L; lia|].
        intros [|i] r K J; cbn [nth_error] in J |- *; [injection J as <-; now rewrite Nat.add_0_r|].
        assert (K' : (S a + i < num - 1)%nat) by lia. rewrite (N i r K' J). f_equal. f_equal. lia.
      + assert (E : label (step_place n num a, r0) = []).
        { unfold label, step_place. cbn [fst snd]. destruct (Nat.ltb_spec a n); [lia|].
          destruct (Nat.ltb_spec (S a) num); [lia|reflexivity]. }
        rewrite E. cbn [app]. split; [rewrite L; lia|]. intros i r K. lia.
  Qed.
End Labels.

Lemma labels_ok num ym record g0s : (3 <= num)%nat -> record <> [] ->
  exists ls, main_labels num ym record g0s = Ok ls /\ List.length ls = Nat.min (List.length record) (num - 1) /\
    forall i r, (i < num - 1)%nat -> nth_error record i = Some r ->
      nth_error ls i = Some (S i, (f_g0 r, shown_err ym g0s r)).
Proof.
  intros H N. unfold main_labels.
  assert (1 <= List.length record)%nat as N1 by (destruct record; [contradiction|cbn; lia]).
  rewrite (plot_optimization_ok num (List.length record) H N1).
  cbn [bind snd]. eexists. split; [reflexivity|]. destruct (labels_from num ym g0s record H 0) as [L K]. rewrite Nat.sub_0_r in L.
  split; [exact L|exact K].
Qed.

(** ** numbers at the crosses *)
Lemma labels_crosses o st s f p num ym :
  choose o st = Ok (Some (s, f)) -> l_fix o = false -> l_optimize o = true -> l_plot_optimization o = true ->
  plot_misfit (r_g0 s) = Ok p -> (forall t, In t (r_g0 s) -> fst t <> FNInf) -> (3 <= num)%nat ->
  exists ls, main_labels num ym (r_record s) (r_g0 s) = Ok ls /\
    List.length ls = Nat.min (List.length (r_record s)) (num - 1) /\
    forall i r, (i < num - 1)%nat -> nth_error (r_record s) i = Some r ->
      exists y, nth_error ls i = Some (S i, (f_g0 r, y)) /\ (f_err r <> FPInf -> y = f_err r) /\
        (at_cross p ym (f_g0 r) y \/ (r = f /\ ~ In (f_g0 f) (map snd (r_g0 s)))).
Proof.
  intros CH FX OP PL PM NI H3.
  destruct (labels_ok num ym (r_record s) (r_g0 s) H3 (final_nonempty _ _ _ _ CH PL)) as (ls & E & L & K).
  exists ls. split; [exact E|]. split; [exact L|]. intros i r Hi J. exists (shown_err ym (r_g0 s) r).
  split; [now apply K|]. split.
  - intros N. unfold shown_err. assert (is_inf (f_err r) = false) as -> by (destruct (f_err r); congruence || reflexivity).
    now destruct (existsb _ _).
  - destruct (final_records o st s f CH FX OP PL r (nth_error_In _ _ J)) as [I|R]; [left|right; exact R].
    unfold plot_misfit in PM. destruct (r_g0 s) as [|t0 ts] eqn:EG; [destruct I|]. rewrite <- EG in *. cbn zeta in PM. injection PM as <-.
    unfold at_cross. cbn [m_all m_inf]. unfold shown_err. destruct (is_inf (f_err r)) eqn:IR.
    + assert (f_err r = FPInf) as EF by (destruct (f_err r); try discriminate; reflexivity).
      assert (existsb (fun x : pyf * pyf => is_inf (fst x)) (r_g0 s) = true) as ->.
      { apply existsb_exists. exists (f_err r, f_g0 r). split; [exact I|]. exact IR. }
      right. split; [|reflexivity]. apply (in_map snd _ (f_err r, f_g0 r)). apply filter_In. split; [exact I|exact IR].
    + assert (forallb (fun x : pyf * pyf => fisinf (fst x)) (r_g0 s) = false) as ->.
      { destruct (forallb _ _) eqn:Q; [|reflexivity]. rewrite forallb_forall in Q. specialize (Q _ I). cbn [fst] in Q.
        specialize (NI _ I). cbn [fst] in NI. destruct (f_err r); discriminate || contradiction. }
      cbn [negb]. left.
      assert ((if existsb (fun x : pyf * pyf => is_inf (fst x)) (r_g0 s) then f_err r else f_err r) = f_err r) as -> by now destruct (existsb _ _).
      change (f_g0 r, f_err r) with ((fun x : pyf * pyf => (snd x, fst x)) (f_err r, f_g0 r)). now apply in_map.
Qed.
