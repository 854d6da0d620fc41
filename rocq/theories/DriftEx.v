(** Concrete case for C140: two events with two stations, one response 10 % too large. *)
From Coq Require Import String List Bool Reals Arith Lia Lra Permutation Relation_Operators.
From Verif Require Import Base StatModel SiteModel SiteSpec MergeProof SiteProof SiteProof2 SiteProof3 SiteProof4 SiteProof5 SiteProof6 SiteProof7 SiteEx
  NoiseSpec DriftSpec DriftProof DriftProof2.
Import ListNotations.
Open Scope list_scope.
Open Scope string_scope.
Open Scope R_scope.

Definition drA := {| evW := [ENum 6]; evR := [("S1", [ENum 2]); ("S2", [ENum (33 / 10)])] |}.
Definition drB := {| evW := [ENum 10]; evR := [("S2", [ENum 12]); ("S1", [ENum 8])] |}.
Definition dr_events : list (string * option evres) := [("e2", Some drB); ("e0", None); ("e1", Some drA)].
Definition dr_c (id : string) : R := if String.eqb id "e2" then 4 else 1.
Definition dr_rs (s : string) : R := if String.eqb s "S1" then 2 else 3.

Lemma dr_wf : Forall (well_formed 1) (map snd (present_events dr_events)).
Proof.
  cbn. repeat (apply Forall_cons; [split; [|split; [reflexivity|repeat (apply Forall_cons; [reflexivity|]); apply Forall_nil]]|]);
  [| |apply Forall_nil]; cbn; repeat (constructor; [cbn; intuition discriminate|]); constructor.
Qed.

Lemma dr_response ev s v : response_of ev 0 s = Some v -> ev = drA \/ ev = drB ->
  (ev = drA /\ (s = "S1" /\ v = 2 \/ s = "S2" /\ v = 33 / 10)) \/ (ev = drB /\ (s = "S1" /\ v = 8 \/ s = "S2" /\ v = 12)).
Proof.
  intros H [->| ->]; unfold response_of in H; cbn [drA drB evR dget] in H.
  - left. split; [reflexivity|]. destruct (String.eqb_spec s "S1") as [->|_]; [left; split; [reflexivity|cbn in H; congruence]|].
    destruct (String.eqb_spec s "S2") as [->|_]; [right; split; [reflexivity|cbn in H; congruence]|discriminate].
  - right. split; [reflexivity|]. destruct (String.eqb_spec s "S2") as [->|_]; [right; split; [reflexivity|cbn in H; congruence]|].
    destruct (String.eqb_spec s "S1") as [->|_]; [left; split; [reflexivity|cbn in H; congruence]|discriminate].
Qed.

Lemma dr_complete : complete 0 (map snd (present_events dr_events)).
Proof. intros ev s [<-|[<-|[]]] _; discriminate. Qed.

Lemma dr_near : forall id ev s v, In (id, ev) (present_events dr_events) -> response_of ev 0 s = Some v ->
  up_to (1 / 10) v (dr_c id * dr_rs s).
Proof.
  intros id ev s v H Hr.
  pose proof (exp_ineq1 (1 / 10) ltac:(lra)) as E. pose proof (exp_pos (- (1 / 10))) as P.
  assert (E1 : exp (- (1 / 10)) < 1) by (pose proof (exp_increasing (- (1 / 10)) 0 ltac:(lra)) as Q; rewrite exp_0 in Q; exact Q).
  assert (X : ev = drA \/ ev = drB) by (cbn in H; destruct H as [H|[H|[]]]; injection H as _ <-; auto).
  pose proof (dr_response ev s v Hr X) as Y.
  destruct H as [H|[H|[]]]; injection H as <- <-; clear Hr X;
  destruct Y as [(F & [(-> & ->)|(-> & ->)])|(F & [(-> & ->)|(-> & ->)])]; try discriminate F;
  unfold up_to, dr_c, dr_rs; cbn [String.eqb Ascii.eqb Bool.eqb]; lra.
Qed.

Lemma dr_ok rlm : exists out Rm', align_site_responses pick_first rlm site_solver dr_events None StaNone (RScalar 2) None = Ok (out, Rm').
Proof.
  apply (align_ok pick_first rlm site_solver pick_first_member dr_events None StaNone (RScalar 2) None 1 dr_wf).
  - discriminate.
  - intros. eexists. reflexivity.
  - intros i a Hi ((_ & Hn & _) & _). destruct a as [|s a]; [congruence|]. exists s. split; [now left|reflexivity].
  - intros i Hi HN. assert (i = 0)%nat as -> by lia. exfalso. apply (HN "S1"). split; [intros []|].
    exists drA. split; [cbn; auto|]. discriminate.
Qed.

Lemma dr_steps : steps (map snd (present_events dr_events)) None 0 1 "S1" "S2".
Proof.
  econstructor; [|constructor]. split; [intros []|]. split; [intros []|]. exists drA. split; [cbn; auto|]. split; discriminate.
Qed.

Lemma dr_number : number_of_responses (map snd (present_events dr_events)) 0 = 4%nat.
Proof. reflexivity. Qed.

Definition dr_E (id : string) : R := if String.eqb id "e2" then 38 else 6.
Lemma dr_energy : forall id ev w, In (id, ev) (present_events dr_events) -> energy_of ev 0 = Some w -> up_to (1 / 10) w (dr_E id / dr_c id).
Proof.
  intros id ev w H Hw.
  pose proof (exp_ineq1 (1 / 10) ltac:(lra)) as E.
  assert (E1 : exp (- (1 / 10)) < 1) by (pose proof (exp_increasing (- (1 / 10)) 0 ltac:(lra)) as Q; rewrite exp_0 in Q; exact Q).
  destruct H as [H|[H|[]]]; injection H as <- <-; cbn in Hw; injection Hw as <-;
  unfold up_to, dr_c, dr_E; cbn [String.eqb Ascii.eqb Bool.eqb]; lra.
Qed.

Definition plain_rlm (v : list R) : R * R := (rsum v / INR (List.length v), 0).
Lemma plain_between : between_data plain_rlm.
Proof. intros v N. exact (mean_between v N). Qed.

Lemma dr_good : forall i, (i < 1)%nat -> complete i (map snd (present_events dr_events)) /\ positive_responses i (map snd (present_events dr_events)).
Proof.
  intros i Hi. assert (i = 0)%nat as -> by lia. split; [exact dr_complete|].
  intros ev s r H Hr. assert (X : ev = drA \/ ev = drB) by (cbn in H; destruct H as [H|[H|[]]]; auto).
  pose proof (dr_response ev s r Hr X) as Y.
  destruct Y as [(_ & [(_ & ->)|(_ & ->)])|(_ & [(_ & ->)|(_ & ->)])]; lra.
Qed.
