(** Concrete cases for the command "qopen rt". *)
From Coq Require Import String List Bool Reals Lra Lia.
From Verif Require Import Base RtModel RtSpec RtProof4 CmdModel CmdSpec CmdProof.
Import ListNotations.
Open Scope R_scope.

Lemma calc_hyps : In "rt2d"%string documented_types /\ (forall l, In l [1000; 2000] -> l <> 0) /\ Some 1 <> Some 0.
Proof.
  split; [cbn; tauto|]. split; [cbn; intros l [<-|[<-|[]]]; lra|]. intros H. assert (1 = 0) by congruence. lra.
Qed.

Lemma direct_hyps : In "rt3d"%string ["rt1d"; "rt2d"; "rt3d"]%string /\ (forall l, In l [1000; 2000] -> 0 < l).
Proof. split; [cbn; tauto|]. cbn. intros l [<-|[<-|[]]]; lra. Qed.

Lemma no_direct_hyps : ~ In "diff3d"%string ["rt1d"; "rt2d"; "rt3d"]%string /\ [1000] <> [].
Proof. split; [cbn; intuition discriminate|discriminate]. Qed.

Lemma types_hyps : length ["rt2d"; "rt3d"]%string <> 1%nat.
Proof. cbn. lia. Qed.

Lemma missing_ex : main Calc ["rt3d"%string] (Some 1) None 3 [1000] None false = Err TypeError.
Proof. apply calc_missing; [now right|discriminate|]. cbn. intros l [<-|[]]. lra. Qed.

Lemma curves_ex : exists out,
  main PlotR ["rt2d"; "diff2d"]%string (Some 2) (Some 1) 1 [1; 2] None false = Ok out.
Proof.
  unfold main. cbn [andb mapM]. rewrite !inverse_ok by lra. cbn [bind negb].
  destruct (plot_r_ok 1 (1 / 1) 1 2 samples true None "rt2d") as (p1 & ->); [cbn; tauto|unfold samples; lia|]. cbn [bind].
  destruct (plot_r_ok 1 (1 / 1) 1 2 samples true None "diff2d") as (p2 & ->); [cbn; tauto|unfold samples; lia|]. cbn [bind].
  destruct (plot_r_ok 1 (1 / 2) 1 2 samples true None "rt2d") as (p3 & ->); [cbn; tauto|unfold samples; lia|]. cbn [bind].
  destruct (plot_r_ok 1 (1 / 2) 1 2 samples true None "diff2d") as (p4 & ->); [cbn; tauto|unfold samples; lia|]. cbn [bind].
  eexists. reflexivity.
Qed.

Lemma times_ex : 1 / 1 + / 1000 < 2 /\ exists pts, plot_t 1 1 (Some 1) (Some 2) 3 false None "rt2d" = Ok pts.
Proof. split; [lra|]. apply plot_t_ok. cbn; tauto. Qed.

Lemma distances_ex : exists pts, plot_r 1 1 (Some 1) (Some 2) 3 false None "rt2d" = Ok pts.
Proof. apply plot_r_ok; [cbn; tauto|lia]. Qed.

Lemma distance_defaults_ex : 11 / 10 * (2 * 5) = 11 /\ 10 / 11 * (10 / 2) * (11 / 10) = 10 / 2.
Proof. split; lra. Qed.

Lemma mesh_ex : exists pts, plot_rt 1 1 (Some 2) (Some 2) 3 (Some 5) "diff3d" = Ok pts /\ In (1, 2) (map fst pts).
Proof.
  destruct (plot_rt_points 1 1 2 2 3 (Some 5) "diff3d") as (pts & E & M & _); [cbn; tauto|lra|lia|].
  exists pts. split; [exact E|]. apply M. exists 1%nat, 2%nat. repeat split; try lia; cbn; lra.
Qed.
