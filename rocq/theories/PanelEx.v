(** Concrete cases for the contents of the plots of results (C114). *)
From Coq Require Import String List Bool Reals Lra Lia Arith.
From Verif Require Import Base Pyf PyfOps StatModel StatSpec StatProof CollectModel CollectSpec
  WrapModel WrapSpec DepModel DepSpec DepProof PanelModel PanelSpec PanelProof PanelProof2 PanelProof3.
Import ListNotations.
Open Scope string_scope.
Open Scope list_scope.
Open Scope R_scope.

(** results of an event at one frequency *)
Definition ex_event (g0 b error : pyf) : evdict :=
  [("g0", VList [g0]); ("b", VList [b]); ("error", VList [error]); ("v0", VNum (FNum 3000))].

(** two events with results, one without at this frequency, and a failed one *)
Definition ex_panel_events : list (string * option evdict) :=
  [("e1", Some (ex_event (FNum 2) (FNum 1) (FNum 1))); ("e2", None); ("e3", Some (ex_event (FNum 8) (FNum 1) (FNum 1)));
   ("e4", Some (ex_event FNan FNan FNan))].

Definition ex_panel_freq : list R := [3].

Lemma ex_full : full 1 (with_result ex_panel_events).
Proof.
  split; [discriminate|]. intros id r I. cbn in I.
  destruct I as [[= <- <-]|[[= <- <-]|[[= <- <-]|[]]]]; (split; [|exists 3000; reflexivity]);
    intros c [<-|[<-|[<-|[]]]]; eexists; (split; [reflexivity|reflexivity]).
Qed.

Lemma ex_quantities : forall q, In q ["g0"; "lsc"; "Qsc"; "b"; "li"; "Qi"; "error"; "nobs"] ->
  q = "nobs" \/ exists c, calculated_from q c.
Proof.
  intros q I. cbn in I. destruct I as [<-|[<-|[<-|[<-|[<-|[<-|[<-|[<-|[]]]]]]]]]; [right..|now left].
  1-3: exists "g0"; cbn; tauto. 1-3: exists "b"; cbn; tauto. exists "error"; cbn; tauto.
Qed.

Lemma ex_valid : valid_data (at_freq 0 (lists_of "g0" (with_result ex_panel_events))) = [2; 8].
Proof. cbn. destruct (Rlt_dec 0 2); [|lra]. destruct (Rlt_dec 0 8); [|lra]. reflexivity. Qed.

Lemma ex_positive : errors_positive (at_freq 0 (lists_of "g0" (with_result ex_panel_events)))
  (at_freq 0 (lists_of "error" (with_result ex_panel_events))).
Proof.
  intros [|[|[|i]]] x V; cbn in V |- *.
  - exists 1. split; [reflexivity|lra].
  - exists 1. split; [reflexivity|lra].
  - discriminate.
  - now destruct i.
Qed.

Lemma ex_weighted : valid_weighted (at_freq 0 (lists_of "g0" (with_result ex_panel_events)))
  (weights_at (at_freq 0 (lists_of "error" (with_result ex_panel_events)))) = [(1 / 1, 2); (1 / 1, 8)].
Proof. cbn. destruct (Rlt_dec 0 2); [|lra]. destruct (Rlt_dec 0 8); [|lra]. reflexivity. Qed.

Lemma ex_plot rlm mean : exists ps, plot_results rlm ex_panel_events ex_panel_freq None (Some 3500) mean ["g0"; "Qsc"; "nobs"] = Ok ps.
Proof.
  destruct (results_total rlm ex_panel_events ex_panel_freq ex_full None (Some 3500) mean ["g0"; "Qsc"; "nobs"]) as (ps & H & _); [|eauto].
  intros q I. cbn in I. destruct I as [<-|[<-|[<-|[]]]]; [right; exists "g0"; cbn; tauto..|now left].
Qed.

Lemma ex_velocity : forall id r, In (id, r) (with_result ex_panel_events) -> velocity_for None (Some 3500) r 3500.
Proof. intros id r _. right. left. split; [now left|]. split; [reflexivity|lra]. Qed.

(** the error bar is lost *)
Lemma ex_lost rlm : exists ps dots means p m, plot_results rlm ex_panel_events ex_panel_freq None (Some 3500) (Some "weighted") ["g0"; "Qsc"; "nobs"] = Ok ps /\
  nth_error ps 0 = Some (PMeans dots means) /\ nth_error means 0 = Some (3, p) /\ mp_mean p = Some m /\ mp_error p = None.
Proof.
  destruct (ex_plot rlm (Some "weighted")) as (ps & H).
  destruct (results_lost rlm ex_panel_events ex_panel_freq ex_full None (Some 3500) _ ps 0 "g0" "g0" 0 3 H eq_refl) as (dots & means & p & N & NP & E);
    [cbn; tauto|reflexivity|cbn; tauto|].
  destruct (results_derived rlm ex_panel_events ex_panel_freq ex_full None (Some 3500) _ _ ps 0 "g0" "g0" 0 3 3500 H eq_refl)
    as (dots' & means' & p' & N' & NP' & _ & D); [cbn; tauto|reflexivity|lra|lra|exact ex_velocity|].
  assert (means' = means) by congruence. subst means'. assert (p' = p) by congruence. subst p'.
  destruct (D eq_refl ex_positive) as (y & Y & _); [rewrite ex_weighted; discriminate|].
  exists ps, dots, means, p, y. auto.
Qed.

(** the means that are stored *)
Lemma ex_stored rlm : exists items l, add_means (C := string) rlm None {| ws_freq := None; ws_events := with_result ex_panel_events |} = Ok (Some items) /\
  dget String.eqb items "g0" = Some (TMean l).
Proof. eexists. eexists. split; reflexivity. Qed.
