(** Concrete cases for the plot of all source displacement spectra (C116). *)
From Coq Require Import String List Bool Reals Lra Lia Arith.
From Verif Require Import Base Pyf PyfOps DepModel DepSpec GridModel SpectraModel SpectraSpec SpectraProof SpectraProof2 SpectraProof3.
Import ListNotations.
Open Scope string_scope.
Open Scope list_scope.
Open Scope R_scope.

Definition ex_sp_pars : pars := {| p_M0 := Some 100; p_fc := Some 5; p_n := Some 2; p_gamma := None |}.
Definition ex_sp_none : pars := {| p_M0 := None; p_fc := None; p_n := None; p_gamma := None |}.

(** three events; the last one has no value *)
Definition ex_spectra : list (string * sevent) :=
  [("e1", {| se_sds := Some [FNum 100; FNum 30]; se_pars := ex_sp_pars; se_nst := Some [3; 2]%nat |});
   ("e2", {| se_sds := Some [FNum 50; FNan]; se_pars := ex_sp_none; se_nst := Some [5; 0]%nat |});
   ("e3", {| se_sds := Some [FNan; FNan]; se_pars := ex_sp_none; se_nst := Some [0; 0]%nat |})].

Lemma ex_full_spectra only : only = None \/ only = Some ["e2"; "e1"] -> full_spectra 2 (choose_events ex_spectra only).
Proof.
  intros [->| ->]; (split; [discriminate|]); intros id e I; cbn in I.
  - destruct I as [[= <- <-]|[[= <- <-]|[[= <- <-]|[]]]]; split; eexists; split; reflexivity.
  - destruct I as [[= <- <-]|[[= <- <-]|[]]]; split; eexists; split; reflexivity.
Qed.

Lemma ex_most only : only = None \/ only = Some ["e2"; "e1"] -> most_stations (choose_events ex_spectra only) 5.
Proof.
  intros [->| ->]; (split; [exists "e2"; eexists; exists [5; 0]%nat; cbn; intuition|]);
    intros id e l k I N K; cbn in I; repeat destruct I as [[= <- <-]|I]; try (destruct I; fail); cbn in N; injection N as <-; cbn in K; intuition lia.
Qed.

Lemma ex_spectra_plot only : only = None \/ only = Some ["e2"; "e1"] ->
  exists fig, plot_all [3; 6] ex_spectra None (Some "fit") None (Some (Some ex_sp_none)) only None (Some "viridis_r") None true = Ok fig /\ sf_colourbar fig <> None.
Proof.
  intros O. destruct (spectra_total [3; 6] ex_spectra None (Some "fit") None (Some (Some ex_sp_none)) only None "viridis_r" true ex_sp_none
    (ex_full_spectra only O)) as (fig & H & _ & B); [discriminate..|reflexivity|]. exists fig. split; [exact H|]. apply B.
  intros M. destruct (ex_most only O) as [(i & e & l & A1 & A2 & A3) _]. destruct M as [_ M]. specialize (M i e l 5%nat A1 A2 A3). lia.
Qed.

Lemma ex_e3 : ~ spectrum_value {| se_sds := Some [FNan; FNan]; se_pars := ex_sp_none; se_nst := Some [0; 0]%nat |}.
Proof. intros (l & x & E & I & N). cbn in E. injection E as <-. cbn in I. intuition. Qed.

(** the colour bar belongs to nothing *)
Lemma ex_bar_lost : exists evs freq fig cell, full_spectra (List.length freq) evs /\ (exists id e, In (id, e) evs /\ spectrum_value e) /\
  plot_all freq evs None (Some "fit") None (Some (Some ex_sp_none)) None None (Some "viridis_r") None true = Ok fig /\
  sf_colourbar fig = Some (cell, None).
Proof.
  exists ex_spectra, [3; 6]. destruct (ex_spectra_plot None (or_introl eq_refl)) as (fig & H & B).
  destruct (sf_colourbar fig) as [[cell pts]|] eqn:C; [|congruence]. exists fig, cell.
  assert (F := ex_full_spectra None (or_introl eq_refl)). split; [exact F|]. split.
  - exists "e1". eexists. split; [now left|]. exists [FNum 100; FNum 30], (FNum 100). repeat split; [now left|discriminate].
  - split; [exact H|]. rewrite C.
    destruct (spectra_bar [3; 6] ex_spectra None (Some "fit") None (Some (Some ex_sp_none)) None None "viridis_r" true fig cell pts F H C "e3" _ [0; 0]%nat
      [("e1", {| se_sds := Some [FNum 100; FNum 30]; se_pars := ex_sp_pars; se_nst := Some [3; 2]%nat |});
       ("e2", {| se_sds := Some [FNum 50; FNan]; se_pars := ex_sp_none; se_nst := Some [5; 0]%nat |})] eq_refl eq_refl) as [_ N].
    now rewrite (N ex_e3).
Qed.

Lemma ex_mean_method : exists evs freq, full_spectra (List.length freq) evs /\ (exists id e, In (id, e) evs /\ spectrum_value e) /\
  forall fig, plot_all freq evs None (Some "mean") None (Some (Some ex_sp_pars)) None None (Some "viridis_r") None true <> Ok fig.
Proof.
  exists ex_spectra, [3; 6]. assert (V : exists id e, In (id, e) ex_spectra /\ spectrum_value e).
  { exists "e1". eexists. split; [now left|]. exists [FNum 100; FNum 30], (FNum 100). repeat split; [now left|discriminate]. }
  split; [exact (ex_full_spectra None (or_introl eq_refl))|]. split; [exact V|].
  apply (spectra_mean [3; 6] ex_spectra None (Some "mean") None (Some (Some ex_sp_pars)) None None); [reflexivity|exact V].
Qed.

(** given colours; the event without a value has none *)
Lemma ex_entries : one_entry (Colour_dict [("e1", "C0"); ("e2", "C1")]).
Proof. cbn. repeat constructor; cbn; intuition discriminate. Qed.

Lemma ex_all_given id e : In (id, e) (choose_events ex_spectra None) -> spectrum_value e ->
  exists x, colour_given (Colour_dict [("e1", "C0"); ("e2", "C1")]) id x.
Proof.
  intros [[= <- <-]|[[= <- <-]|[[= <- <-]|[]]]] V; [exists "C0"; now left|exists "C1"; right; now left|elim (ex_e3 V)].
Qed.

Lemma ex_all_spectra id e : In (id, e) (choose_events ex_spectra None) -> exists l, se_sds e = Some l /\ List.length l = List.length [3; 6].
Proof. intros [[= <- <-]|[[= <- <-]|[[= <- <-]|[]]]]; eexists; split; reflexivity. Qed.

Lemma ex_given_plot : exists fig, plot_all [3; 6] ex_spectra None (Some "fit") None (Some (Some ex_sp_none)) None None (Some "viridis_r")
  (Some (Colour_dict [("e1", "C0"); ("e2", "C1")])) true = Ok fig.
Proof.
  apply (spectra_total_given _ _ _ _ _ _ _ _ _ _ _ ex_sp_none); [discriminate|exact ex_all_spectra|discriminate..|reflexivity|].
  split; [exact ex_entries|exact ex_all_given].
Qed.

Lemma ex_black_plot : exists fig, plot_all [3; 6] ex_spectra None (Some "fit") None (Some (Some ex_sp_none)) None None None None true = Ok fig /\ sf_events fig <> [].
Proof.
  destruct (spectra_total_given [3; 6] ex_spectra None (Some "fit") None (Some (Some ex_sp_none)) None None None true None ex_sp_none) as [fig F];
    [discriminate|exact ex_all_spectra|discriminate..|reflexivity|now left|].
  exists fig. split; [exact F|]. apply spectra_events in F. intros E. now rewrite E in F.
Qed.

Lemma ex_method_used m : method_used None (Some "fit") m -> m <> Some "mean".
Proof. intros [_ H]. now rewrite (H eq_refl). Qed.

Lemma ex_options_used o : options_used None (Some (Some ex_sp_none)) o -> o <> None.
Proof. intros (_ & H & _). now rewrite (H eq_refl _ eq_refl). Qed.
