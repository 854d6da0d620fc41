(** Proofs about the velocity used by the plots (C93) and the plot of an event (C85). *)
From Coq Require Import String List Bool ZArith Reals.
From Verif Require Import Base Pyf RunModel DepModel ShowModel ShowSpec.
Import ListNotations.
Open Scope string_scope.
Open Scope list_scope.

Lemma num_truthy z : z <> 0%Z -> truthy (JNum z) = true.
Proof. intros Z0. cbn. apply Z.eqb_neq in Z0. now rewrite Z0. Qed.

Lemma velocity_truthy d v : velocity_in d v -> getd d "v0" JNull = v /\ truthy v = true.
Proof. intros (z & Z0 & -> & G). unfold getd. rewrite G. split; [reflexivity|]. now apply num_truthy. Qed.

Lemma no_velocity_falsy d : no_velocity d -> truthy (getd d "v0" JNull) = false.
Proof. unfold getd. intros [-> | [-> | ->]]; reflexivity. Qed.

Lemma parts_unfold result e evs conf v0 : parts result e evs conf ->
  plot_results_v0 v0 result =
  let v := jor v0 (getd conf "v0" JNull) in
  if dmem String.eqb e "g0" then
    (do v <- (if truthy v then Ok v else collected_v0 result); Ok (v, result))
  else
    (do v <- (if truthy v then Ok v else jget (JDict result) "v0"); Ok (v, dpop String.eqb result "v0")).
Proof.
  intros ((id & rest & ->) & E & C). unfold plot_results_v0, first_event. cbn [jget]. rewrite E. cbn [bind jin].
  rewrite C. reflexivity.
Qed.

Lemma v0_given result e evs conf z : parts result e evs conf -> z <> 0%Z ->
  exists r, plot_results_v0 (JNum z) result = Ok (JNum z, r).
Proof.
  intros P Z0. rewrite (parts_unfold _ _ _ _ _ P). unfold jor. cbv zeta.
  pose proof (num_truthy z Z0) as T. rewrite !T. destruct (dmem _ _ _); cbn [bind]; eexists; reflexivity.
Qed.

Lemma v0_config result e evs conf v : parts result e evs conf -> velocity_in conf v ->
  exists r, plot_results_v0 JNull result = Ok (v, r).
Proof.
  intros P H. destruct (velocity_truthy _ _ H) as [G T]. rewrite (parts_unfold _ _ _ _ _ P). unfold jor. cbv zeta.
  rewrite G. cbn [truthy]. rewrite !T. destruct (dmem _ _ _); cbn [bind]; eexists; reflexivity.
Qed.

Lemma collected_all evs l : event_velocities evs l ->
  flat_map (fun kv : string * json => match snd kv with
                      | JDict e => match dget String.eqb e "v0" with Some v => [v] | None => [] end
                      | _ => []
                      end) evs = l.
Proof.
  induction 1 as [|kv v evs l (e & E & G) F IH]; [reflexivity|]. cbn [flat_map]. rewrite E, G, IH. reflexivity.
Qed.

Lemma v0_separate result e evs conf l : parts result e evs conf -> no_velocity conf ->
  dmem String.eqb e "g0" = true -> event_velocities evs l ->
  plot_results_v0 JNull result = Ok (JList l, result).
Proof.
  intros P N G V. rewrite (parts_unfold _ _ _ _ _ P). unfold jor. cbv zeta. cbn [truthy].
  rewrite (no_velocity_falsy _ N), G. unfold collected_v0. cbn [jget]. destruct P as ((id & rest & Q) & E & _). rewrite E. cbn [bind].
  rewrite (collected_all _ _ V). destruct l as [|v l]; [|reflexivity]. inversion V. congruence.
Qed.

Lemma v0_simultaneous result e evs conf v : parts result e evs conf -> no_velocity conf ->
  dmem String.eqb e "g0" = false -> velocity_in result v ->
  exists r, plot_results_v0 JNull result = Ok (v, r).
Proof.
  intros P N G (z & _ & -> & V). rewrite (parts_unfold _ _ _ _ _ P). unfold jor. cbv zeta. cbn [truthy].
  rewrite (no_velocity_falsy _ N), G. cbn [jget]. rewrite V. cbn [bind]. eauto.
Qed.

Lemma flat_none evs : (forall id x, In (id, JDict x) evs -> dget String.eqb x "v0" = None) ->
  flat_map (fun kv : string * json => match snd kv with
                      | JDict e => match dget String.eqb e "v0" with Some v => [v] | None => [] end
                      | _ => []
                      end) evs = [].
Proof.
  induction evs as [|[id x] evs IH]; intros V; [reflexivity|]. cbn [flat_map snd].
  rewrite IH by (intros i y I; apply (V i); now right).
  destruct x; try reflexivity. now rewrite (V id d (or_introl eq_refl)).
Qed.

Lemma v0_missing result e evs conf : parts result e evs conf -> no_velocity conf ->
  (dmem String.eqb e "g0" = true /\ forall id x, In (id, JDict x) evs -> dget String.eqb x "v0" = None) \/
  (dmem String.eqb e "g0" = false /\ dget String.eqb result "v0" = None) ->
  plot_results_v0 JNull result = Err KeyError.
Proof.
  intros P N H. rewrite (parts_unfold _ _ _ _ _ P). unfold jor. cbv zeta. cbn [truthy].
  rewrite (no_velocity_falsy _ N). destruct H as [[-> V]|[-> V]].
  - unfold collected_v0. cbn [jget]. destruct P as (_ & E & _). rewrite E. cbn [bind]. now rewrite (flat_none _ V).
  - cbn [jget]. now rewrite V.
Qed.

(** ** One event *)

Lemma event_v0 d :
  (forall z r, z <> 0%Z -> eventresult_v0 (JNum z) r = Ok (JNum z)) /\
  (forall v, velocity_in d v -> eventresult_v0 JNull (JDict d) = Ok v) /\
  (forall conf v, no_velocity d -> dget String.eqb d "config" = Some (JDict conf) -> velocity_in conf v ->
     eventresult_v0 JNull (JDict d) = Ok v) /\
  (no_velocity d -> (dget String.eqb d "config" = None \/ exists conf, dget String.eqb d "config" = Some (JDict conf) /\ no_velocity conf) ->
     exists v, eventresult_v0 JNull (JDict d) = Ok v /\ (v = JNull \/ v = JNum 0)).
Proof.
  split; [|split; [|split]].
  - intros z r Z0. unfold eventresult_v0. now rewrite num_truthy.
  - intros v H. destruct (velocity_truthy _ _ H) as [G T]. unfold eventresult_v0. cbn [truthy]. now rewrite G, T.
  - intros conf v N C H. destruct (velocity_truthy _ _ H) as [G T]. unfold eventresult_v0. cbn [truthy].
    rewrite (no_velocity_falsy _ N). unfold getd at 1. now rewrite C, G.
  - intros N H. unfold eventresult_v0. cbn [truthy]. rewrite (no_velocity_falsy _ N).
    destruct H as [C|(conf & C & N2)]; unfold getd at 1; rewrite C; [eauto|].
    unfold getd. destruct N2 as [-> | [-> | ->]]; eauto.
Qed.

(** without velocity none of the quantities is drawn *)
Lemma event_first d : dget String.eqb d "events" = Some (JDict []) -> eventresult_values true (JDict d) = Err IndexError.
Proof. intros E. unfold eventresult_values. now rewrite E. Qed.

Lemma event_kept d : eventresult_values false (JDict d) = Ok d.
Proof. reflexivity. Qed.
