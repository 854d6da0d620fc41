(** Lemmas on the quantities in the plot of results (C114). *)
From Coq Require Import String List Bool Reals Lra Lia.
From Verif Require Import Base Pyf StatModel StatProof CollectModel CollectSpec CollectProof WrapModel DepModel PanelModel PanelSpec PanelProof PanelProof2.
Import ListNotations.
Open Scope string_scope.
Open Scope list_scope.

Lemma keys_other freqi id r keys c : ~ In c keys -> forall col col',
  fold_left (collect_key freqi id r) keys (Ok col) = Ok col' -> dget String.eqb col' c = dget String.eqb col c.
Proof.
  induction keys as [|k keys IH]; intros N col col' E; [cbn in E; congruence|]. cbn [fold_left] in E.
  destruct (collect_key freqi id r (Ok col) k) as [col1|x] eqn:K; [|rewrite key_err in E; discriminate].
  rewrite (IH (fun I => N (or_intror I)) col1 col' E). apply (key_other freqi id r col k col1 c K). intros ->. apply N. now left.
Qed.

Lemma events_other freqi keys c : ~ In c keys -> forall events col col',
  fold_left (collect_event freqi keys) events (Ok col) = Ok col' -> dget String.eqb col' c = dget String.eqb col c.
Proof.
  intros N. induction events as [|[id [r|]] events IH]; intros col col' E; [cbn in E; congruence| |]; cbn [fold_left] in E; unfold collect_event in E at 2; cbn [snd fst] in E.
  - destruct (fold_left (collect_key freqi id r) keys (Ok col)) as [col1|x] eqn:K; [|rewrite event_err in E; discriminate].
    rewrite (IH col1 col' E). exact (keys_other freqi id r keys c N col col1 K).
  - exact (IH col col' E).
Qed.

Lemma uncollected events c col : ~ In c ["g0"; "b"; "error"; "v0"] ->
  collect_results events (Some ["g0"; "b"; "error"; "v0"]) None = Ok col -> dget String.eqb col c = None.
Proof.
  intros N H. destruct (collect_stages None events _ col H) as (col1 & F & G). rewrite G.
  change (collected (Some ["g0"; "b"; "error"; "v0"])) with ["g0"; "b"; "error"; "v0"] in F.
  rewrite (events_other None _ c N events _ _ F). reflexivity.
Qed.

Lemma results_known rlm events freq v0 conf mean quantities ps :
  plot_results rlm events freq v0 conf mean quantities = Ok ps ->
  forall q, In q quantities -> q = "nobs" \/ exists c, calculated_from q c.
Proof.
  intros H q I. destruct (results_stages rlm events freq v0 conf mean quantities ps H) as (col & a & ws & C & _ & _ & M).
  destruct (In_nth_error _ _ I) as [k K]. destruct (mapM_at _ _ _ k q M K) as (p & _ & P). unfold result_panel in P.
  destruct (String.eqb_spec q "nobs") as [->|NQ]; [now left|]. right.
  destruct (dget String.eqb DEPMAP q) as [c|] eqn:D; [|discriminate]. apply (dget_In _ string_eqb_spec) in D.
  assert (T : dget String.eqb col c <> None). { intros T. unfold collected_table in P. rewrite T in P. discriminate. }
  unfold DEPMAP in D. repeat destruct D as [[= <- <-]|D]; try (exists "g0"; cbn; now auto 12); try (exists "b"; cbn; now auto 12); try (exists "error"; cbn; now auto 12);
    elim T; apply (uncollected events _ col); trivial; cbn; intuition discriminate.
Qed.
