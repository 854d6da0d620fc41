(** Concrete cases for C141. *)
From Coq Require Import String List Bool Reals Arith Lia Lra.
From Verif Require Import Base StatModel SiteModel SiteSpec SiteProof4 SiteProof5 SiteProof6 SiteProof7 SiteEx DriftEx GaugeSpec GaugeProof GaugeProof3.
Import ListNotations.
Open Scope list_scope.
Open Scope string_scope.
Open Scope R_scope.

(** event e2 three times as large at the first frequency *)
Definition gg_a (id : string) (i : nat) : R := if String.eqb id "e2" then 3 else 1.
Lemma gg_pos id i : 0 < gg_a id i.
Proof. unfold gg_a. destruct (String.eqb id "e2"); lra. Qed.

Lemma gg_ok rlm : exists out Rm', align_site_responses pick_first rlm site_solver (regauged_events gg_a dr_events) None StaNone (RScalar 2) None = Ok (out, Rm').
Proof.
  apply (align_ok pick_first rlm site_solver pick_first_member (regauged_events gg_a dr_events) None StaNone (RScalar 2) None 1
    (wf_two dr_events 1 dr_wf gg_a)).
  - discriminate.
  - intros. eexists. reflexivity.
  - intros i a Hi ((_ & Hn & _) & _). destruct a as [|s a]; [congruence|]. exists s. split; [now left|reflexivity].
  - intros i Hi HN. assert (i = 0)%nat as -> by lia. exfalso. apply (HN "S1"). split; [intros []|].
    exists (regauged (gg_a "e1") drA). split; [cbn; auto|]. rewrite response_regauged. discriminate.
Qed.
