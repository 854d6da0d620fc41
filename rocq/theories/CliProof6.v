(** Lemmas about the help and the errors of a command line. *)
From Coq Require Import String Ascii List Bool ZArith Arith Lia.
From Verif Require Import Base PyStr RunModel CliModel CliSpec CliProof CliProof2 CliProof3 CliProof4.
Import ListNotations.
Open Scope string_scope.
Open Scope list_scope.

Lemma take_help loads int_of st a v x : take_action loads int_of st a v = inl x -> x = CliModel.Help -> a_kind a = KHelp.
Proof.
  unfold take_action. destruct (match a_group a with Some _ => _ | None => _ end); [congruence|].
  destruct (a_kind a), v as [v|]; try congruence; try discriminate.
  - destruct (loads v); congruence.
  - destruct (int_of v); congruence.
Qed.

Lemma take_not_unrecognized loads int_of st a v : take_action loads int_of st a v <> inl Unrecognized.
Proof.
  unfold take_action. destruct (match a_group a with Some _ => _ | None => _ end); [congruence|].
  destruct (a_kind a), v as [v|]; try congruence.
  - destruct (loads v); congruence.
  - destruct (int_of v); congruence.
Qed.

Lemma parse_stopped cmd table loads int_of ss us1 u us2 : documented cmd table ->
  reading table ss (us1 ++ u :: us2) -> usable table loads int_of us1 -> ~ usable table loads int_of (us1 ++ [u]) ->
  (forall k, used table u k CliSpec.Help -> parse loads int_of cmd ss = inl CliModel.Help) /\
  ((forall k, ~ used table u k CliSpec.Help) -> parse loads int_of cmd ss = inl Usage).
Proof.
  intros D R U N. destruct (known_parser _ _ D) as (acts & P & K).
  destruct (reading_consumed K loads int_of _ _ R) as (ws & l & C & CM & CO).
  apply Forall2_app_inv_l in CM as (l1 & l2 & C1 & C2 & ->).
  inversion C2 as [|u0 [a v] us0 l3 F C3]; subst.
  destruct (usable_uses K loads int_of [] _ _ _ (after_start K loads int_of) C1 U) as [st T].
  pose proof (after_uses K loads int_of [] _ _ _ _ (after_start K loads int_of) C1 T) as A. cbn [app] in A.
  assert (PA : parse loads int_of cmd ss = match take_action loads int_of st a v with
                 | inl x => inl x
                 | inr st => match take_actions loads int_of st l3 with inl x => inl x | inr st => if s_extra st then inl Unrecognized else inr (s_args st) end end).
  { unfold parse. rewrite P, C. fold (@start cmd acts). rewrite CO, take_actions_app, T. cbn [take_actions].
    destruct (take_action loads int_of st a v); reflexivity. }
  destruct (take_action loads int_of st a v) as [x|st1] eqn:TA.
  2:{ exfalso. destruct (after_step K loads int_of _ _ _ _ _ _ A F TA) as [_ US _ _ _]. exact (N US). }
  pose proof (used_fits K _ _ F) as UF. cbn [fst] in UF. rewrite PA. split.
  - intros k H. apply UF in H as [_ H]. assert (KH : a_kind a = KHelp) by (destruct (a_kind a); try discriminate; reflexivity).
    pose proof (fits_acts K _ _ F) as IA. cbn [fst] in IA. destruct A as [_ _ SE _ _].
    assert (UB : forall b, In b (s_seen st) -> In b acts).
    { intros b I. apply SE in I as (w & y & _ & FW). exact (fits_acts K _ _ FW). }
    pose proof (conflict_opposite K a _ IA UB) as CF. unfold conflicts in CF.
    revert TA. unfold take_action. rewrite CF. assert (X : existsb (opposite a) (s_seen st) = false).
    { destruct (existsb (opposite a) (s_seen st)) eqn:X; [|reflexivity]. apply existsb_exists in X as (b & _ & O).
      apply opposite_sorts in O as [_ [[O _]|[O _]]]; congruence. }
    rewrite X, KH. intros E. now injection E as <-.
  - intros NH. destruct x; [|reflexivity|now destruct (take_not_unrecognized _ _ _ _ _ TA)].
    exfalso. pose proof (take_help _ _ _ _ _ _ TA eq_refl) as KH. apply (NH (a_dest a)). apply UF. now rewrite KH.
Qed.

Lemma cmdline_stopped {E} (w : world E) loads int_of cmd table ss us1 u us2 : documented cmd table ->
  reading table ss (us1 ++ u :: us2) -> usable table loads int_of us1 -> ~ usable table loads int_of (us1 ++ [u]) ->
  (forall k, used table u k CliSpec.Help -> run_cmdline loads int_of w (cmd :: ss) = Information) /\
  ((forall k, ~ used table u k CliSpec.Help) -> run_cmdline loads int_of w (cmd :: ss) = Error (Some cmd)).
Proof.
  intros D R U N. destruct (parse_stopped _ _ _ _ _ _ _ _ D R U N) as [H1 H2]. split.
  - intros k UH. unfold run_cmdline. rewrite (H1 k UH). destruct D; reflexivity.
  - intros NH. unfold run_cmdline. rewrite (H2 NH). destruct D; reflexivity.
Qed.

Lemma cmdline_information {E} (w : world E) loads int_of s ss : In s ["-h"; "--help"; "--version"] ->
  run_cmdline loads int_of w (s :: ss) = Information.
Proof. intros [<-|[<-|[<-|[]]]]; reflexivity. Qed.
