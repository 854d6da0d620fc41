(** Concrete cases for C143. *)
From Coq Require Import String List Bool Reals Arith Lia Lra Permutation Relation_Operators.
From Verif Require Import Base StatModel SiteModel SiteSpec SiteProof4 SiteProof5 SiteProof6 SiteProof7 SiteEx DriftEx GaugeSpec OrderSpec OrderProof OrderProof2.
Import ListNotations.
Open Scope list_scope.
Open Scope string_scope.
Open Scope R_scope.

(** the events of C140 in another order, the stations of e1 exchanged *)
Definition or_A := {| evW := [ENum 6]; evR := [("S2", [ENum (33 / 10)]); ("S1", [ENum 2])] |}.
Definition or_events : list (string * option evres) := [("e0", None); ("e1", Some or_A); ("e2", Some drB)].

Lemma or_reordered : reordered dr_events or_events.
Proof.
  exists [("e0", None); ("e1", Some drA); ("e2", Some drB)]. split.
  - unfold dr_events. apply Permutation_sym. apply perm_trans with [("e0", None); ("e2", Some drB); ("e1", Some drA)].
    + apply perm_skip, perm_swap.
    + apply perm_swap.
  - repeat apply Forall2_cons; [| | |apply Forall2_nil]; (split; [reflexivity|]); cbn.
    + exact I.
    + split; [reflexivity|apply perm_swap].
    + split; reflexivity.
Qed.

Lemma or_ids : NoDup (map fst dr_events).
Proof. cbn. repeat (constructor; [cbn; intuition discriminate|]). constructor. Qed.

Lemma or_ok : exists out Rm' out2 Rm2,
  align_site_responses pick_first plain_rlm site_solver dr_events None StaNone (RScalar 2) None = Ok (out, Rm') /\
  align_site_responses pick_first plain_rlm site_solver or_events None StaNone (RScalar 2) None = Ok (out2, Rm2).
Proof.
  destruct (dr_ok plain_rlm) as (out & Rm' & E).
  destruct (order_returns pick_first plain_rlm site_solver pick_first_member site_solver_least dr_events or_events None StaNone (RScalar 2) None 1
    or_ids or_reordered dr_wf dr_good out Rm' E pick_first plain_rlm site_solver None pick_first_member) as (out2 & Rm2 & E2).
  exists out, Rm', out2, Rm2. auto.
Qed.
