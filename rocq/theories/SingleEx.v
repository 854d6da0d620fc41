(** Concrete cases for the plots of the result of one inversion. *)
From Coq Require Import String List Bool Reals Lra Lia Arith.
From Verif Require Import Base Pyf PyfOps PySort DepModel DepSpec GridModel PanelModel PanelSpec SingleModel SingleSpec SingleProof SingleProof2.
Import ListNotations.
Open Scope string_scope.
Open Scope list_scope.

(** two frequencies, one event *)
Definition freq_s : list R := [1; 2]%R.
Definition no_pars_s : pars := {| p_M0 := None; p_fc := None; p_n := None; p_gamma := None |}.
Definition event_s : evalues :=
  {| ev_lists := [("W", [FNum 5; FNum 6]); ("sds", [FNum 7; FNan])];
     ev_pars := {| p_M0 := Some 7%R; p_fc := Some 3%R; p_n := None; p_gamma := None |}; ev_nst := Some [2; 0]%nat |}.
Definition result_s (v : option R) : eresult :=
  {| er_lists := [("g0", [FNum 1; FNan]); ("b", [FNum 2; FNan]); ("error", [FNum 3; FNan])]; er_v0 := v; er_conf := None;
     er_events := Some [("e1", event_s); ("e2", event_s)] |}.

Lemma joint_s v : joint 2 (result_s v) event_s.
Proof.
  split; [|split; [|split; [|split; [|split]]]].
  - intros k l. unfold stored. cbn [result_s er_lists dget fst snd]. destruct (String.eqb k "g0"); [intros [= <-]; reflexivity|].
    destruct (String.eqb k "b"); [intros [= <-]; reflexivity|]. destruct (String.eqb k "error"); [intros [= <-]; reflexivity|discriminate].
  - intros k K. cbn in K. destruct K as [<-|[<-|[<-|[]]]]; reflexivity.
  - intros k K. cbn in K. destruct K as [<-|[<-|[]]]; eexists; split; reflexivity.
  - intros l [= <-]. reflexivity.
  - cbn. repeat (constructor; [cbn; intuition discriminate|]). constructor.
  - do 2 eexists. reflexivity.
Qed.

Definition nine : list string := ["g0"; "lsc"; "Qsc"; "b"; "li"; "Qi"; "error"; "W"; "sds"].

Lemma quantities_s v : event_quantities (result_s v) = nine.
Proof. reflexivity. Qed.

Lemma available_s v : available (result_s v) nine.
Proof.
  intros q I. cbn in I. unfold calculated_from.
  repeat (destruct I as [<-|I]; [first [left; reflexivity | right; left; reflexivity |
    right; right; do 2 eexists; split; [cbn; intuition reflexivity | reflexivity]]|]). destruct I.
Qed.

Lemma velocity_s : velocity_of_plot None (result_s (Some 3%R)) 3.
Proof. right. left. split; [now left|]. split; [reflexivity|lra]. Qed.

Lemma total_s : exists fig, plot_eventresult freq_s (result_s (Some 3%R)) None nine (Some "fit") (Some no_pars_s) = Ok fig.
Proof.
  destruct (single_total 2 _ _ (joint_s (Some 3%R)) freq_s None nine (Some "fit") no_pars_s eq_refl 3%R) as (fig & E & _);
    try discriminate; [exact (available_s _)|exact velocity_s|eauto].
Qed.

Lemma velocity_wrong : exists nf r e freq quantities, joint nf r e /\ List.length freq = nf /\ nf <> 0%nat /\ quantities <> [] /\
  (forall q, In q quantities -> In q ["g0"; "b"; "error"]) /\ available r quantities /\
  forall v0 method smo fig, missing v0 -> plot_eventresult freq r v0 quantities method smo <> Ok fig.
Proof.
  exists 2%nat, (result_s None), event_s, freq_s, ["g0"; "b"; "error"]. split; [apply joint_s|]. split; [reflexivity|]. split; [discriminate|].
  split; [discriminate|]. split; [auto|]. split.
  - intros q I. apply (available_s None). cbn in I |- *. tauto.
  - intros v0 method smo fig M. apply single_velocity with (q := "g0"); [exact M|now left|reflexivity|now left|discriminate].
Qed.

Lemma mean_wrong : exists nf r e freq v, joint nf r e /\ List.length freq = nf /\ nf <> 0%nat /\ velocity_of_plot None r v /\
  available r (event_quantities r) /\ p_M0 (ev_pars e) <> None /\
  forall v0 smo fig, plot_eventresult freq r v0 (event_quantities r) (Some "mean") smo <> Ok fig.
Proof.
  exists 2%nat, (result_s (Some 3%R)), event_s, freq_s, 3%R. split; [apply joint_s|]. split; [reflexivity|]. split; [discriminate|].
  split; [exact velocity_s|]. rewrite quantities_s. split; [exact (available_s _)|]. split; [discriminate|].
  intros v0 smo fig. apply (single_mean 2 _ _ (joint_s (Some 3%R))) with (l := [FNum 7; FNan]) (x := FNum 7);
    [cbn; tauto|reflexivity|now left|discriminate].
Qed.

(** two stations, one without values *)
Definition sites_s : list (string * list (option R)) := [("B", [Some 2; Some 3]); ("A", [None; None])]%R.

Lemma sites_value_s : exists x, site_value sites_s x.
Proof. exists 2%R. exists "B", [Some 2; Some 3]%R. split; now left. Qed.

Lemma sites_lengths_s sta l : In (sta, l) sites_s -> List.length l = List.length freq_s.
Proof. intros [[= <- <-]|[[= <- <-]|[]]]; reflexivity. Qed.

Lemma nothing_wrong : exists freq sites, sites <> [] /\ freq <> [] /\
  (forall sta l, In (sta, l) sites -> List.length l = List.length freq) /\ forall fig, plot_eventsites freq sites <> Ok fig.
Proof.
  exists freq_s, [("A", [None; None])]. split; [discriminate|]. split; [discriminate|].
  split; [intros sta l [[= <- <-]|[]]; reflexivity|]. intros fig. apply sites_nothing.
  intros x (sta & l & [[= <- <-]|[]] & I); cbn in I; intuition discriminate.
Qed.
