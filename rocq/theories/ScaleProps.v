(** Property C125: scaled curves of the Green's functions.  Theorems only. *)
From Coq Require Import String List Bool Reals Lra Lia.
From Verif Require Import Base Pyf RtModel RtSpec ScaleModel ScaleSpec ScaleProof.
Import ListNotations.
Open Scope R_scope.

(** C125: a scaled curve over time is the curve divided by one positive number; its
    values are between 0 and 1 and it reaches 1, with and without direct wave and
    absorption. *)
Theorem C125_time : forall c g0 r t N d la ty,
  In ty documented_types -> 0 < c -> 0 < g0 -> 0 < r -> r / c + / 1000 < t -> (1 <= N)%nat ->
  exists pts out, plot_t c g0 (Some r) (Some t) N d la ty = Ok pts /\
    plot_t_shown c g0 (Some r) (Some t) N d la ty true = Ok out /\ proportional pts out /\ unit_curve out.
Proof. exact time_scaled. Qed.
Print Assumptions C125_time.

Example C125_time_ex : In "rt3d"%string documented_types /\ 1 / 1 + / 1000 < 2.
Proof. split; [cbn; tauto|lra]. Qed.

(** C125: the same for curves over distance, if no sample is just at the front. *)
Theorem C125_distance : forall c g0 r t N d la ty,
  In ty documented_types -> 0 < c -> 0 < g0 -> 0 < r -> 0 < t -> (2 <= N)%nat ->
  (forall k, (k < N)%nat -> r * INR k / INR (N - 1) <> c * t) ->
  exists pts out, plot_r c g0 (Some t) (Some r) N d la ty = Ok pts /\
    plot_r_shown c g0 (Some t) (Some r) N d la ty true = Ok out /\ proportional pts out /\ unit_curve out.
Proof. exact dist_scaled. Qed.
Print Assumptions C125_distance.

Example C125_distance_ex : forall k, (k < 3)%nat -> 3 * INR k / INR (3 - 1) <> 1 * 2.
Proof. exact dist_points. Qed.

(** C125: without the option the curves are drawn as they are. *)
Theorem C125_unscaled : forall c g0 r t N d la ty,
  plot_t_shown c g0 r t N d la ty false = (do pts <- plot_t c g0 r t N d la ty; Ok (map (fun p => (fst p, FNum (snd p))) pts)) /\
  plot_r_shown c g0 t r N d la ty false = (do pts <- plot_r c g0 t r N d la ty; Ok (map (fun p => (fst p, FNum (snd p))) pts)).
Proof. exact unscaled. Qed.
Print Assumptions C125_unscaled.

(** C125: a scaled curve over distance does not depend on the absorption (all its
    points have the same time). *)
Theorem C125_distance_absorption : forall c g0 r t N d la ty,
  plot_r_shown c g0 (Some t) (Some r) N d (Some la) ty true = plot_r_shown c g0 (Some t) (Some r) N d None ty true.
Proof. exact dist_absorption. Qed.
Print Assumptions C125_distance_absorption.

(** C125: absorption lowers the late values of a scaled curve over time against the
    early ones - false, the curve is the same with and without absorption. *)
Theorem C125_time_absorption_refuted : exists c g0 r t N la ty out,
  0 < c /\ 0 < g0 /\ 0 < la /\ r / c + / 1000 < t /\ (2 <= N)%nat /\ In ty documented_types /\ unit_curve out /\
  plot_t_shown c g0 (Some r) (Some t) N false (Some la) ty true = Ok out /\
  plot_t_shown c g0 (Some r) (Some t) N false None ty true = Ok out.
Proof. exact time_absorption_lost. Qed.
Print Assumptions C125_time_absorption_refuted.

(** C125: this is so for all scaled curves over time. *)
Theorem C125_time_absorption : forall c g0 r t N d la ty,
  plot_t_shown c g0 r (Some t) N d (Some la) ty true = plot_t_shown c g0 r (Some t) N d None ty true.
Proof. exact time_absorption. Qed.
Print Assumptions C125_time_absorption.
