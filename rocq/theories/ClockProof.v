(** Lemmas for C135: the Green's functions with another unit of time. *)
From Coq Require Import String List Bool Reals Lra Lia ZArith Arith.
From Verif Require Import Base Pyf PyfOps StatModel SmoothModel SmoothSpec RtModel RtSpec FbModel LsqfbModel GreenModel UnitSpec UnitProof ClockSpec.
Import ListNotations.
Open Scope string_scope.
Open Scope list_scope.
Open Scope R_scope.

Section U.
  Variable k : R.
  Hypothesis K : 0 < k.

  Let KI : k * / k = 1.
  Proof. apply Rinv_r. lra. Qed.

  Ltac units := unfold Rdiv; cbn [pow]; rewrite ?Rmult_1_r; repeat rewrite Rinv_mult; repeat rewrite Rinv_inv; ring [KI].

  Lemma path c t : c / k * (k * t) = c * t.
  Proof. units. Qed.
  Lemma path_neg c t : - (c / k) * (k * t) = - c * t.
  Proof. units. Qed.
  Lemma path_sq c t : (c / k) ^ 2 * (k * t) ^ 2 = c ^ 2 * t ^ 2.
  Proof. units. Qed.

  Lemma ticks1 r t c g : rt1d_coda r (k * t) (c / k) g = rt1d_coda r t c g.
  Proof. unfold rt1d_coda. now rewrite path_sq, path, path_neg. Qed.
  Lemma ticks2 r t c g : rt2d_coda r (k * t) (c / k) g = rt2d_coda r t c g.
  Proof.
    unfold rt2d_coda. rewrite path_sq, path. replace (r ^ 2 / (c / k) ^ 2 / (k * t) ^ 2) with (r ^ 2 / c ^ 2 / t ^ 2) by units.
    set (l := 1 / g). replace (2 * PI * l * (c / k) * (k * t)) with (2 * PI * l * c * t) by units. reflexivity.
  Qed.
  Lemma ticks3 r t c g : rt3d_coda r (k * t) (c / k) g = rt3d_coda r t c g.
  Proof. unfold rt3d_coda. now replace (k * t * (c / k)) with (t * c) by units. Qed.

  Lemma direct_ticks1 t c g : rt1d_direct (k * t) (c / k) g = rt1d_direct t c g.
  Proof. unfold rt1d_direct. now rewrite path_neg. Qed.
  Lemma direct_ticks2 t c g : rt2d_direct (k * t) (c / k) g = rt2d_direct t c g.
  Proof. unfold rt2d_direct. rewrite path_neg. now replace (2 * PI * (c / k) * (k * t)) with (2 * PI * c * t) by units. Qed.
  Lemma direct_ticks3 t c g : rt3d_direct (k * t) (c / k) g = rt3d_direct t c g.
  Proof. unfold rt3d_direct. rewrite path_neg. now replace (4 * PI * (c / k) ^ 2 * (k * t) ^ 2) with (4 * PI * c ^ 2 * t ^ 2) by units. Qed.

  Lemma diff_ticks d r t c g : diff d r (k * t) (c / k) g = diff d r t c g.
  Proof.
    unfold diff. replace (4 * PI * (c / k / (INR d * g)) * (k * t)) with (4 * PI * (c / (INR d * g)) * t) by units.
    now replace (4 * (c / k / (INR d * g)) * (k * t)) with (4 * (c / (INR d * g)) * t) by units.
  Qed.
  Lemma diffapprox_ticks d r t c g : diffapprox d r (k * t) (c / k) g = diffapprox d r t c g.
  Proof. unfold diffapprox. now replace (4 * PI * (c / k / (INR d * g)) * (k * t)) with (4 * PI * (c / (INR d * g)) * t) by units. Qed.

  Lemma select_ticks ty : In ty documented_types -> exists Gc Gd, select ty = Some (Gc, Gd) /\
    (forall r t c g, Gc r (k * t) (c / k) g = Gc r t c g) /\
    (forall t c g, Gd (k * t) (c / k) g = Gd t c g).
  Proof.
    intros T. cbn in T. repeat destruct T as [<-|T]; try contradiction T; do 2 eexists; (split; [reflexivity|]); split; intros;
    first [reflexivity|apply ticks3|apply ticks2|apply ticks1|apply direct_ticks3|apply direct_ticks2|apply direct_ticks1|apply diff_ticks|apply diffapprox_ticks].
  Qed.

  Lemma filter_ticks p q (l : list R) : (forall t, p (k * t) = q t) -> List.length (filter p (map (Rmult k) l)) = List.length (filter q l).
  Proof. intros E. induction l as [|t l IH]; [reflexivity|]. cbn [map filter]. rewrite E. destruct (q t); cbn [List.length]; now rewrite IH. Qed.

  Lemma times_ticks ty r ts c g b : In ty documented_types ->
    G_times ty r (map (Rmult k) ts) (c / k) g b = G_times ty r ts c g b.
  Proof.
    intros T. destruct (select_ticks ty T) as (Gc & Gd & S & HC & HD). unfold G_times.
    destruct ts as [|t0 [|t1 ts]]; [reflexivity..|].
    change (map (Rmult k) (t0 :: t1 :: ts)) with (k * t0 :: k * t1 :: map (Rmult k) ts). cbv iota. rewrite S.
    change (k * t0 :: k * t1 :: map (Rmult k) ts) with (map (Rmult k) (t0 :: t1 :: ts)).
    assert (E : count_nonzero (fun t => ltb0 (c / k * t - r)) (map (Rmult k) (t0 :: t1 :: ts)) = count_nonzero (fun t => ltb0 (c * t - r)) (t0 :: t1 :: ts)).
    { unfold count_nonzero. apply filter_ticks. intros t. now rewrite path. }
    rewrite E. set (i := count_nonzero _ _). rewrite firstn_map, skipn_map, !map_map, map_length.
    rewrite (map_ext (fun t => Gc r (k * t) (c / k) g) (fun t => Gc r t c g)) by (intros; apply HC).
    replace (r / (c / k)) with (k * (r / c)) by units. rewrite HD.
    replace (Gd (r / c) c g / (k * t1 - k * t0) / (c / k)) with (Gd (r / c) c g / (t1 - t0) / c).
    2:{ replace (k * t1 - k * t0) with (k * (t1 - t0)) by ring. set (e := t1 - t0). set (y := Gd _ _ _). units. }
    reflexivity.
  Qed.

  Lemma last_ticks l : last (map (Rmult k) l) 0 = k * last l 0.
  Proof.
    induction l as [|x l IH]; [cbn; ring|]. destruct l as [|y l]; [reflexivity|].
    change (map (Rmult k) (x :: y :: l)) with (k * x :: map (Rmult k) (y :: l)). cbn [last map] in *. exact IH.
  Qed.

  Lemma steps_even t t0 dt : evenly_spaced t t0 dt -> (2 <= List.length t)%nat ->
    rsum (map (fun p => Rabs (snd p - fst p - dt)) (combine t (tl t))) = 0.
  Proof.
    intros EV L. assert (Z : forall l u, (forall i, (i < List.length l)%nat -> nth i l 0 = u + INR i * dt) ->
      rsum (map (fun p => Rabs (snd p - fst p - dt)) (combine l (tl l))) = 0).
    { clear. induction l as [|x l IH]; intros u H; [reflexivity|]. cbn [tl]. destruct l as [|y l]; [reflexivity|].
      unfold rsum in *. cbn [combine map fold_right fst snd]. pose proof (H 0%nat ltac:(cbn; lia)) as H0. pose proof (H 1%nat ltac:(cbn; lia)) as H1.
      cbn [nth] in H0, H1. change (INR 0) with 0 in H0. change (INR 1) with 1 in H1.
      replace (y - x - dt) with 0 by lra. rewrite Rabs_R0, Rplus_0_l. apply (IH (u + dt)).
      intros i I. pose proof (H (S i) ltac:(cbn [List.length] in *; lia)) as Q. cbn [nth] in Q. rewrite S_INR in Q. cbn [nth]. lra. }
    apply (Z t t0). exact EV.
  Qed.

  Lemma Gsmooth_ticks ty r t c g sm window : In ty documented_types ->
    sm = None \/ (exists t0 dt, evenly_spaced t t0 dt) ->
    Gsmooth (G_plugin ty) r (map (Rmult k) t) (c / k) g (option_map (Rmult k) sm) window = Gsmooth (G_plugin ty) r t c g sm window.
  Proof.
    intros T EV. unfold Gsmooth, smooth_func_array, G_plugin. destruct sm as [wl|]; [|now apply times_ticks]. cbn [option_map].
    destruct EV as [|(t0 & dt & EV)]; [discriminate|].
    destruct t as [|u0 [|u1 t]]; [reflexivity..|].
    change (map (Rmult k) (u0 :: u1 :: t)) with (k * u0 :: k * u1 :: map (Rmult k) t). cbv iota.
    change (k * u0 :: k * u1 :: map (Rmult k) t) with (map (Rmult k) (u0 :: u1 :: t)).
    pose proof (EV 0%nat ltac:(cbn; lia)) as H0. pose proof (EV 1%nat ltac:(cbn; lia)) as H1. cbn [nth] in H0, H1.
    change (INR 0) with 0 in H0. change (INR 1) with 1 in H1. cbv zeta.
    replace (k * u1 - k * u0) with (k * (u1 - u0)) by ring. assert (DT : u1 - u0 = dt) by lra. rewrite DT.
    rewrite (steps_even _ _ _ EV) by (cbn; lia).
    rewrite (steps_even (map (Rmult k) (u0 :: u1 :: t)) (k * t0) (k * dt)).
    2:{ intros i I. rewrite map_length in I. rewrite (nth_indep _ _ (k * 0)) by now rewrite map_length. rewrite map_nth, (EV i I). ring. }
    2:{ cbn. lia. }
    destruct (Rlt_dec (1 / 100000) 0) as [?|_]; [lra|].
    destruct (Req_EM_T (k * dt) 0) as [Z|Z], (Req_EM_T dt 0) as [Z'|Z']; [reflexivity| | |].
    { exfalso. apply Rmult_integral in Z. destruct Z; lra. }
    { exfalso. apply Z. rewrite Z'. ring. }
    replace (k * wl / (k * dt)) with (wl / dt) by units. set (n := py_round (wl / dt)).
    match goal with |- bind (G_times ty r ?a _ _ _) _ = bind (G_times ty r ?b _ _ _) _ =>
      replace a with (map (Rmult k) b); [now rewrite times_ticks|] end.
    rewrite !map_app, !map_map, last_ticks. f_equal; [|f_equal]; apply map_ext; intros i; ring.
  Qed.

  Lemma coda_ticks ty r t c g sm window : In ty documented_types ->
    sm = None \/ (exists t0 dt, evenly_spaced t t0 dt) ->
    coda_greens ty (option_map (Rmult k) sm) window (c / k) r (map (Rmult k) t) g = coda_greens ty sm window c r t g.
  Proof.
    intros T EV. destruct g; cbn [coda_greens]; try (rewrite map_map; reflexivity). now rewrite Gsmooth_ticks.
  Qed.

  Lemma linspace_ticks a b n : linspace (k * a) (k * b) n = map (Rmult k) (linspace a b n).
  Proof. unfold linspace. rewrite map_map. apply map_ext. intros i. unfold Rdiv. ring. Qed.

  Lemma bulk_ticks ty r w c g num : In ty documented_types ->
    bulk_greens ty num (c / k) r (k * fst w, k * snd w) g = bulk_greens ty num c r w g.
  Proof.
    intros T. destruct g; cbn [bulk_greens]; try reflexivity. unfold bulk_green, G_plugin. cbn [fst snd].
    rewrite linspace_ticks. now rewrite times_ticks.
  Qed.
End U.
