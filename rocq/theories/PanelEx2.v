(** Concrete cases for the plot of site responses (C115). *)
From Coq Require Import String List Bool Reals Lra Lia Arith.
From Verif Require Import Base Pyf PyfOps StatModel StatSpec StatProof CollectModel CollectSpec
  WrapModel WrapSpec DepSpec GridModel PanelModel PanelSpec PanelProof PanelProof4 PanelProof5 PanelProof6.
Import ListNotations.
Open Scope string_scope.
Open Scope list_scope.
Open Scope R_scope.

(** the site responses of an event at two frequencies *)
Definition ex_sites (d : list (string * list pyf)) : evdict := [("error", VList [FNum 1; FNum 1]); ("R", VSites d)].

(** station A in both events, station B in the first only, station C without values *)
Definition ex_site_events : list (string * option evdict) :=
  [("e1", Some (ex_sites [("B", [FNum 1; FNum 1]); ("A", [FNum 2; FNan]); ("C", [FNan; FNan])]));
   ("e2", None); ("e3", Some (ex_sites [("A", [FNum 8; FNum 3]); ("C", [FNan; FNan])]))].

Definition ex_site_freq : list R := [3; 6].

Lemma ex_full_sites : full_sites (List.length ex_site_freq) (with_result ex_site_events).
Proof.
  split; [discriminate|]. intros id r I. cbn in I.
  destruct I as [[= <- <-]|[[= <- <-]|[]]]; (split; [eexists; split; reflexivity|]); eexists; (split; [reflexivity|]).
  - split; [cbn; repeat constructor; cbn; intuition discriminate|]. intros sta l [[= <- <-]|[[= <- <-]|[[= <- <-]|[]]]]; reflexivity.
  - split; [cbn; repeat constructor; cbn; intuition discriminate|]. intros sta l [[= <- <-]|[[= <- <-]|[]]]; reflexivity.
Qed.

Lemma ex_value_A : has_value "A" (with_result ex_site_events).
Proof. exists [FNum 2; FNan], (FNum 2). repeat split; [now left|now left|discriminate]. Qed.

Lemma ex_value_B : has_value "B" (with_result ex_site_events).
Proof. exists [FNum 1; FNum 1], (FNum 1). repeat split; [now left|now left|discriminate]. Qed.

Lemma ex_value_C : site_lists "C" (with_result ex_site_events) <> [] /\ ~ has_value "C" (with_result ex_site_events).
Proof.
  split; [discriminate|]. intros (l & x & I & J & N). cbn in I. destruct I as [<-|[<-|[]]]; cbn in J; destruct J as [<-|[<-|[]]]; congruence.
Qed.

Lemma ex_site_plot rlm mean se : mean <> Some "weighted" ->
  exists fig, PanelModel.plot_sites rlm ex_site_events ex_site_freq mean None (Some "viridis_r") se = Ok fig.
Proof.
  intros M. apply (sites_total rlm ex_site_events ex_site_freq ex_full_sites None ltac:(discriminate) "A" ex_value_A). congruence.
Qed.

(** results whose station B is not in all events have no plot of weighted means *)
Lemma ex_site_weighted : full_sites (List.length ex_site_freq) (with_result ex_site_events) /\
  has_value "A" (with_result ex_site_events) /\ forall rlm fig,
  PanelModel.plot_sites rlm ex_site_events ex_site_freq (Some "weighted") None (Some "viridis_r") true <> Ok fig.
Proof.
  split; [exact ex_full_sites|]. split; [exact ex_value_A|]. intros rlm.
  apply (sites_weighted_fail rlm ex_site_events ex_site_freq ex_full_sites None ltac:(discriminate) "A" ex_value_A (Some "viridis_r") true "B" ex_value_B).
  cbn. discriminate.
Qed.

Lemma ex_site_cmap : full_sites (List.length ex_site_freq) (with_result ex_site_events) /\
  has_value "A" (with_result ex_site_events) /\ forall rlm fig,
  PanelModel.plot_sites rlm ex_site_events ex_site_freq None None None true <> Ok fig.
Proof.
  split; [exact ex_full_sites|]. split; [exact ex_value_A|]. intros rlm.
  apply (sites_none rlm ex_site_events ex_site_freq ex_full_sites). now right.
Qed.

(** both events have station A only: weighted means are plotted *)
Definition ex_site_events2 : list (string * option evdict) :=
  [("e1", Some (ex_sites [("A", [FNum 2; FNan])])); ("e3", Some (ex_sites [("A", [FNum 8; FNum 3])]))].

Lemma ex_full_sites2 : full_sites (List.length ex_site_freq) (with_result ex_site_events2) /\ has_value "A" (with_result ex_site_events2) /\
  forall sta, has_value sta (with_result ex_site_events2) -> List.length (site_lists sta (with_result ex_site_events2)) = List.length (with_result ex_site_events2).
Proof.
  split; [|split].
  - split; [discriminate|]. intros id r I. cbn in I.
    destruct I as [[= <- <-]|[[= <- <-]|[]]]; (split; [eexists; split; reflexivity|]); eexists; (split; [reflexivity|]);
      (split; [cbn; repeat constructor; cbn; intuition discriminate|]); intros sta l [[= <- <-]|[]]; reflexivity.
  - exists [FNum 2; FNan], (FNum 2). repeat split; [now left|now left|discriminate].
  - intros sta (l & x & I & _). cbn in *. unfold site_of in *. cbn in *. destruct (String.eqb sta "A"); [reflexivity|]. cbn in I. destruct I.
Qed.

Lemma ex_site_weighted2 : exists events freq, full_sites (List.length freq) (with_result events) /\
  (exists sta, has_value sta (with_result events)) /\
  forall rlm fig, PanelModel.plot_sites rlm events freq (Some "weighted") None (Some "viridis_r") true <> Ok fig.
Proof. exists ex_site_events, ex_site_freq. destruct ex_site_weighted as (H1 & H2 & H3). split; [exact H1|]. split; [now exists "A"|exact H3]. Qed.

Lemma ex_site_cmap2 : exists events freq, full_sites (List.length freq) (with_result events) /\
  (exists sta, has_value sta (with_result events)) /\
  forall rlm fig, PanelModel.plot_sites rlm events freq None None None true <> Ok fig.
Proof. exists ex_site_events, ex_site_freq. destruct ex_site_cmap as (H1 & H2 & H3). split; [exact H1|]. split; [now exists "A"|exact H3]. Qed.
