(** Example for the error bars of weighted means. *)
From Coq Require Import String List Bool Reals Lra Lia.
From Verif Require Import Base Pyf StatModel StatSpec CollectModel CollectSpec WrapModel WrapSpec DepModel DepSpec
  PanelModel PanelSpec PanelProof PanelProof2 PanelProof3 PanelEx.
Import ListNotations.
Open Scope string_scope.
Open Scope list_scope.
Open Scope R_scope.

Definition two_events : list (string * option evdict) :=
  [("e1", Some (ex_event (FNum 2) (FNum 1) (FNum 1))); ("e2", None); ("e3", Some (ex_event (FNum 8) (FNum 1) (FNum 2)))].

Lemma two_full : full 1 (with_result two_events).
Proof.
  split; [discriminate|]. intros id r I. cbn in I.
  destruct I as [[= <- <-]|[[= <- <-]|[]]]; (split; [|exists 3000; reflexivity]);
    intros c [<-|[<-|[<-|[]]]]; eexists; (split; [reflexivity|reflexivity]).
Qed.

Lemma two_errors e : In e (at_freq 0 (lists_of "error" (with_result two_events))) -> exists x, e = FNum x /\ 0 < x.
Proof. cbn. intros [<-|[<-|[]]]; eexists; (split; [reflexivity|lra]). Qed.

Lemma two_plot rlm : exists ps, plot_results rlm two_events ex_panel_freq None (Some 3500) (Some "weighted") ["g0"; "Qsc"; "nobs"] = Ok ps.
Proof.
  destruct (results_total rlm two_events ex_panel_freq two_full None (Some 3500) (Some "weighted") ["g0"; "Qsc"; "nobs"]) as (ps & H & _); [|exists ps; exact H].
  intros q I. apply ex_quantities. cbn in I |- *. tauto.
Qed.
