(** Concrete cases for C142. *)
From Coq Require Import String List Bool Reals Arith Lia Lra.
From Verif Require Import Base StatModel SiteModel SiteSpec SiteProof4 SiteProof5 SiteProof6 SiteProof7 SiteEx DriftEx GaugeSpec TwiceSpec TwiceProof.
Import ListNotations.
Open Scope list_scope.
Open Scope string_scope.
Open Scope R_scope.

Lemma tw_ok : exists out Rm' out2 Rm2,
  align_site_responses pick_first plain_rlm site_solver dr_events None StaNone (RScalar 2) None = Ok (out, Rm') /\
  align_site_responses pick_first plain_rlm site_solver (as_input out) (Some Rm') StaNone (RScalar 2) None = Ok (out2, Rm2).
Proof.
  destruct (dr_ok plain_rlm) as (out & Rm' & E).
  destruct (again_returns pick_first plain_rlm site_solver pick_first_member site_solver_least dr_events None StaNone (RScalar 2) None 1 dr_wf dr_good
    out Rm' E pick_first plain_rlm site_solver (Some Rm') pick_first_member) as (out2 & Rm2 & E2).
  exists out, Rm', out2, Rm2. auto.
Qed.
