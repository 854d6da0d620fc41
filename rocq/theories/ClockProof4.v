(** C135: unevenly sampled windows. *)
From Coq Require Import String List Bool Reals Lra Lia ZArith Arith.
From Verif Require Import Base Pyf PyfOps StatModel SmoothModel SmoothSpec RtModel RtSpec RtProof RtProof4 SmoothProof GreenModel GreenEx.
Import ListNotations.
Open Scope string_scope.
Open Scope list_scope.
Open Scope R_scope.

Definition steps (dt : R) (t : list R) : list R := map (fun p => Rabs (snd p - fst p - dt)) (combine t (tl t)).

Lemma steps_nonneg dt t : 0 <= rsum (steps dt t).
Proof.
  unfold steps. induction (combine t (tl t)) as [|p l IH]; [cbn; lra|]. pose proof (Rabs_pos (snd p - fst p - dt)).
  change (0 <= Rabs (snd p - fst p - dt) + rsum (map (fun p => Rabs (snd p - fst p - dt)) l)). lra.
Qed.

Lemma steps_even dt t : forall x, rsum (steps dt (x :: t)) = 0 -> evenly_spaced (x :: t) x dt.
Proof.
  induction t as [|y t IH]; intros x H.
  - intros [|i] I; cbn in *; [ring|lia].
  - change (rsum (steps dt (x :: y :: t))) with (Rabs (y - x - dt) + rsum (steps dt (y :: t))) in H.
    pose proof (steps_nonneg dt (y :: t)) as A1. pose proof (Rabs_pos (y - x - dt)) as A2.
    assert (H2 : rsum (steps dt (y :: t)) = 0) by lra. assert (H1 : Rabs (y - x - dt) = 0) by lra.
    assert (E : y = x + dt). { destruct (Req_dec (y - x - dt) 0) as [Z|Z]; [lra|]. apply Rabs_no_R0 in Z. lra. }
    specialize (IH y H2). intros [|i] I; [cbn; ring|]. change (nth i (y :: t) 0 = x + INR (S i) * dt). rewrite IH by (cbn in *; lia). rewrite E, S_INR. ring.
Qed.

Lemma steps_scaled k dt t : 0 < k -> rsum (steps (k * dt) (map (Rmult k) t)) = k * rsum (steps dt t).
Proof.
  intros K. destruct t as [|x t]; [cbn; ring|]. revert x. induction t as [|y t IH]; intros x; [cbn; ring|].
  change (Rabs (k * y - k * x - k * dt) + rsum (steps (k * dt) (map (Rmult k) (y :: t))) = k * (Rabs (y - x - dt) + rsum (steps dt (y :: t)))).
  rewrite IH. replace (k * y - k * x - k * dt) with (k * (y - x - dt)) by ring. rewrite Rabs_mult, (Rabs_pos_eq k) by lra. ring.
Qed.

Lemma uneven_rejected : forall ty r t v0 g sm window, ~ (exists t0 dt, evenly_spaced t t0 dt) ->
  exists k0, 0 < k0 /\ forall k, k0 < k ->
  coda_greens ty (option_map (Rmult k) (Some sm)) window (v0 / k) r (map (Rmult k) t) (FNum g) = Err ValueError.
Proof.
  intros ty r t v0 g sm window NE. destruct t as [|x [|y t]].
  - exfalso. apply NE. exists 0, 0. intros i I. cbn in I. lia.
  - exfalso. apply NE. exists x, 0. intros [|i] I; cbn in *; [ring|lia].
  - set (s := rsum (steps (y - x) (x :: y :: t))).
    assert (P : 0 < s).
    { pose proof (steps_nonneg (y - x) (x :: y :: t)) as Q. fold s in Q. destruct (Req_dec s 0) as [Z|Z]; [|lra].
      exfalso. apply NE. exists x, (y - x). exact (steps_even _ _ _ Z). }
    assert (KP : 0 < / s / 100000) by (apply Rmult_lt_0_compat; [now apply Rinv_0_lt_compat|lra]).
    exists (/ s / 100000). split; [exact KP|]. intros k K.
    assert (B : 1 / 100000 < k * s).
    { apply (Rmult_lt_compat_r s) in K; [|exact P]. unfold Rdiv in K. rewrite (Rmult_comm (/ s)), Rmult_assoc, Rinv_l in K by lra. lra. }
    cbn [coda_greens]. unfold Gsmooth, smooth_func_array. cbn [option_map map].
    change (map (fun p => Rabs (snd p - fst p - (k * y - k * x))) (combine (k * x :: k * y :: map (Rmult k) t) (tl (k * x :: k * y :: map (Rmult k) t))))
      with (steps (k * y - k * x) (map (Rmult k) (x :: y :: t))).
    replace (k * y - k * x) with (k * (y - x)) by ring. rewrite steps_scaled by lra. fold s.
    destruct (Rlt_dec (1 / 100000) (k * s)); [reflexivity|contradiction].
Qed.

(** ** a concrete case: the last sample is late by 1e-6 *)
Definition t_uneven : list R := [20; 21; 22; 23 + 1 / 1000000].

Lemma uneven_t : ~ (exists t0 dt, evenly_spaced t_uneven t0 dt).
Proof.
  intros (t0 & dt & H). pose proof (H 0%nat ltac:(cbn; lia)) as H0. pose proof (H 1%nat ltac:(cbn; lia)) as H1.
  pose proof (H 3%nat ltac:(cbn; lia)) as H3. unfold t_uneven in *. cbn in H0, H1, H3. lra.
Qed.

Lemma uneven_smoothed : exists l, coda_greens "rt3d" (Some 3) "flat" 1 10 t_uneven (FNum (1 / 5)) = Ok l.
Proof.
  cbn [coda_greens]. unfold Gsmooth, smooth_func_array, t_uneven.
  match goal with |- context [rsum ?l] => assert (B : ~ 1 / 100000 < rsum l) end.
  { cbn. replace (21 - 20 - (21 - 20)) with 0 by ring. replace (22 - 21 - (21 - 20)) with 0 by ring. rewrite Rabs_R0.
    rewrite Rabs_pos_eq by lra. lra. }
  destruct (Rlt_dec _ _) as [Q|_]; [contradiction|]. clear B. destruct (Req_EM_T (21 - 20) 0) as [Q|_]; [lra|].
  assert (N : py_round (3 / (21 - 20)) = 3%Z).
  { apply py_round_nearest. replace (3 / (21 - 20)) with (IZR 3 / 1) by (f_equal; ring). apply nearest_green. }
  rewrite N. cbv zeta. change ((3 - 1) / 2)%Z with 1%Z. change (3 / 2)%Z with 1%Z. change (Z.to_nat 1) with 1%nat. cbn [seq map app last].
  unfold G_plugin. match goal with |- context [G_times _ _ ?t _ _ _] => set (ts := t) end.
  destruct (G_times_spec "rt3d" 10 ts 1 (1 / 5) true) as (gs & _ & _ & E & _ & L & _).
  - cbn; auto.
  - lra.
  - unfold ts. cbn. lia.
  - intros i j [I J]. unfold ts in *. cbn in J. do 6 (destruct i as [|i]; [do 6 (destruct j as [|j]; [cbn; (lia || lra)|]); lia|]). lia.
  - rewrite E. cbn [bind]. unfold smooth. rewrite L. unfold ts. cbn [List.length]. cbn. eauto.
Qed.

Lemma uneven_both : ~ (exists t0 dt, evenly_spaced t_uneven t0 dt) /\
  exists l, coda_greens "rt3d" (Some 3) "flat" 1 10 t_uneven (FNum (1 / 5)) = Ok l.
Proof. split; [exact uneven_t|exact uneven_smoothed]. Qed.
