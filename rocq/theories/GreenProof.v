From Coq Require Import String List Bool Reals Lra Lia ZArith Arith.
From Verif Require Import Base Pyf StatModel SmoothModel SmoothSpec SmoothProof RtModel RtSpec RtProof RtProof4 RtProof2 GreenModel GreenSpec.
Import ListNotations.
Open Scope string_scope.
Open Scope list_scope.
Open Scope R_scope.

Lemma plugin_values ty r ts c g0 : In ty documented_types -> 0 <= r -> 0 < c -> 0 < g0 -> (2 <= List.length ts)%nat ->
  increasing ts -> r / c < nth 0 ts 0 ->
  exists gs, G_plugin ty r ts c g0 = Ok gs /\ List.length gs = List.length ts /\ nth 0 gs 0 = 0 /\
    forall k, (0 < k < List.length ts)%nat -> 0 < nth k gs 0 /\ G_scalar ty r (nth k ts 0) c g0 = Ok (nth k gs 0).
Proof.
  intros T HR C G L I F.
  destruct (G_times_spec ty r ts c g0 true T C L I) as (gs & Gc & Gd & E & S & LE & _ & A & _ & Z).
  exists gs. split; [exact E|]. split; [exact LE|]. split; [apply Z; lra|]. intros k K.
  assert (FK : r / c < nth k ts 0) by (pose proof (I 0%nat k ltac:(lia)); lra).
  assert (FK' : r / c <= nth (k - 1) ts 0).
  { destruct (Nat.eq_dec (k - 1) 0) as [Q|Q]; [rewrite Q; lra|]. pose proof (I 0%nat (k - 1)%nat ltac:(lia)). lra. }
  destruct (G_scalar_pos ty r (nth k ts 0) c g0 T HR C G FK) as (v & V & P).
  assert (E2 : G_scalar ty r (nth k ts 0) c g0 = Ok (nth k gs 0)).
  { rewrite (A k K FK'). unfold G_scalar. rewrite S. destruct (Rlt_dec _ _); [lra|reflexivity]. }
  split; [|exact E2]. rewrite E2 in V. injection V as ->. exact P.
Qed.

Lemma green_plain ty r t c g0 window : In ty documented_types -> 0 <= r -> 0 < c -> 0 < g0 -> (2 <= List.length t)%nat ->
  increasing t -> r / c < nth 0 t 0 ->
  exists gs, Gsmooth (G_plugin ty) r t c g0 None window = Ok gs /\ List.length gs = List.length t /\ nth 0 gs 0 = 0 /\
    forall k, (0 < k < List.length t)%nat -> 0 < nth k gs 0 /\ G_scalar ty r (nth k t 0) c g0 = Ok (nth k gs 0).
Proof. exact (plugin_values ty r t c g0). Qed.

(** the extended times *)
Lemma array_unfold f t t0 dt wl window n :
  evenly_spaced t t0 dt -> (2 <= List.length t)%nat -> dt <> 0 -> nearest_int (wl / dt) n ->
  exists t_, smooth_func_array f t (Some wl) window = (do y <- f t_; smooth y (Some n) window None) /\
    List.length t_ = (Z.to_nat ((n - 1) / 2) + List.length t + Z.to_nat (n / 2))%nat /\
    ((n <= 1)%Z -> t_ = t) /\
    ((1 <= n)%Z -> evenly_spaced t_ (t0 - IZR ((n - 1) / 2) * dt) dt).
Proof.
  intros Ht L Hd Hn. destruct (even_first t t0 dt Ht L) as (t1 & r & E & Ed).
  cbn [smooth_func_array]. rewrite E. rewrite <- E. rewrite Ed.
  rewrite (spaced_diffs t t0 dt Ht). destruct (Rlt_dec (1 / 100000) 0); [lra|].
  destruct (Req_EM_T dt 0); [contradiction|].
  rewrite (py_round_nearest _ _ Hn).
  eexists. split; [reflexivity|].
  assert (Lf : List.length (map (fun a => t0 - IZR ((n - 1) / 2) * dt + a) (map (fun i => INR i * dt) (seq 0 (Z.to_nat ((n - 1) / 2)))) ++ t ++
     map (fun a => last t 0 + dt + a) (map (fun i => INR i * dt) (seq 0 (Z.to_nat (n / 2)))))
    = (Z.to_nat ((n - 1) / 2) + List.length t + Z.to_nat (n / 2))%nat).
  { rewrite !app_length, !map_length, !seq_length. lia. }
  split; [exact Lf|]. split.
  - intros Hle. assert ((n - 1) / 2 <= 0)%Z by (apply Z.div_le_upper_bound; lia).
    assert (n / 2 < 1)%Z by (apply Z.div_lt_upper_bound; lia).
    replace (Z.to_nat ((n - 1) / 2)) with O by lia. replace (Z.to_nat (n / 2)) with O by lia. cbn [seq map app].
    now rewrite app_nil_r.
  - intros Hge i Hi. rewrite Lf in Hi. rewrite extended_times; auto; try lia; try (apply Z.div_pos; lia). lra.
Qed.

Lemma spaced_increasing t t0 dt : evenly_spaced t t0 dt -> 0 < dt -> increasing t.
Proof.
  intros E D i j [I J]. rewrite !E by lia. apply lt_INR in I. apply Rplus_lt_compat_l. now apply Rmult_lt_compat_r.
Qed.

Lemma green_short ty r t t0 dt wl n c g0 window : In ty documented_types -> 0 <= r -> 0 < c -> 0 < g0 -> (2 <= List.length t)%nat ->
  evenly_spaced t t0 dt -> 0 < dt -> nearest_int (wl / dt) n -> (n <= 1)%Z -> r / c < t0 ->
  Gsmooth (G_plugin ty) r t c g0 (Some wl) window = Gsmooth (G_plugin ty) r t c g0 None window.
Proof.
  intros T HR C G L E D N N1 F. unfold Gsmooth.
  destruct (array_unfold (fun t_ => G_plugin ty r t_ c g0) t t0 dt wl window n E L ltac:(lra) N) as (t_ & -> & _ & Q & _).
  rewrite Q by assumption. cbn [smooth_func_array].
  destruct (plugin_values ty r t c g0 T HR C G L (spaced_increasing _ _ _ E D)) as (gs & -> & LG & _).
  { rewrite E by lia. cbn. lra. }
  cbn [bind]. apply smooth_small; lia.
Qed.

Lemma green_smoothed ty r t t0 dt wl n c g0 window g : In ty documented_types -> 0 <= r -> 0 < c -> 0 < g0 -> (2 <= List.length t)%nat ->
  evenly_spaced t t0 dt -> 0 < dt -> nearest_int (wl / dt) n -> (3 <= n)%Z ->
  In window ["flat"; "hanning"; "hamming"; "bartlett"; "blackman"] -> green_values ty r c g0 g ->
  r / c < t0 - IZR ((n - 1) / 2) * dt ->
  exists gs w, Gsmooth (G_plugin ty) r t c g0 (Some wl) window = Ok gs /\ List.length gs = List.length t /\
    named_window window n w /\
    nth 0 gs 0 = mean_around n w g dt t0 - w 0%nat * g (t0 - IZR ((n - 1) / 2) * dt) /\
    forall k, (0 < k < List.length t)%nat -> nth k gs 0 = mean_around n w g dt (nth k t 0).
Proof.
  intros T HR C G L E D N N3 W GV F. unfold Gsmooth.
  destruct (array_unfold (fun t_ => G_plugin ty r t_ c g0) t t0 dt wl window n E L ltac:(lra) N) as (t_ & -> & LT & _ & ET).
  specialize (ET ltac:(lia)). assert (HS := half_split n ltac:(lia)).
  destruct (plugin_values ty r t_ c g0 T HR C G ltac:(lia) (spaced_increasing _ _ _ ET D)) as (ys & -> & LY & Z & V).
  { rewrite ET by lia. cbn. lra. }
  cbn [bind]. destruct (smooth_ok ys n window None W ltac:(lia) ltac:(lia)) as (out & SO & _).
  destruct (smooth_mean _ _ _ _ N3 SO) as (w & Hw & Hc & Hj).
  assert (Lo := smooth_length_none _ _ _ _ N3 SO).
  exists out, w. split; [exact SO|]. split; [lia|]. split; [split; assumption|].
  assert (VY : forall k, (0 < k < List.length t_)%nat -> nth k ys 0 = g (t0 + (INR k - IZR ((n - 1) / 2)) * dt)).
  { intros k K. destruct (V k K) as [_ V2]. rewrite ET in V2 by lia. rewrite GV in V2.
    - injection V2 as <-. f_equal. lra.
    - assert (0 < INR k) by (apply lt_0_INR; lia). assert (0 < INR k * dt) by (now apply Rmult_lt_0_compat). lra. }
  split.
  - rewrite Hj by lia. unfold window_mean, mean_around. destruct (Z.to_nat n) as [|m] eqn:M; [lia|].
    rewrite !total_shift. cbn [Nat.add]. rewrite Z. change (INR 0) with 0.
    replace (t0 + (0 - IZR ((n - 1) / 2)) * dt) with (t0 - IZR ((n - 1) / 2) * dt) by lra.
    rewrite (total_ext m _ (fun k => w (S k) * g (t0 + (INR (S k) - IZR ((n - 1) / 2)) * dt))).
    + lra.
    + intros k K. now rewrite VY by lia.
  - intros k K. rewrite Hj by lia. unfold window_mean, mean_around. apply total_ext. intros j J.
    rewrite VY by lia. rewrite E by lia. do 2 f_equal. rewrite plus_INR. lra.
Qed.

(** the outer weights of three windows are zero *)
Lemma outer_zero window n w : (3 <= n)%Z -> named_window window n w -> In window ["hanning"; "bartlett"; "blackman"] -> w 0%nat = 0.
Proof.
  intros N [_ (c & W)] I. rewrite W by lia. change (INR 0) with 0. unfold Rdiv. rewrite Rmult_0_l.
  cbn in I. destruct I as [<-|[<-|[<-|[]]]]; unfold window_shape; cbn [String.eqb Ascii.eqb Bool.eqb].
  - rewrite Rmult_0_r, sin_0. lra.
  - rewrite Rmult_0_r, Rminus_0_l, Rabs_Ropp, Rabs_R1. lra.
  - rewrite !Rmult_0_r, cos_0. lra.
Qed.

Lemma outer_positive window n w : (3 <= n)%Z -> named_window window n w -> In window ["flat"; "hamming"] -> 0 < w 0%nat.
Proof.
  intros N [(P & S & _) (c & W)] I. rewrite W by lia. change (INR 0) with 0. unfold Rdiv. rewrite Rmult_0_l.
  assert (C : 0 < c).
  { destruct (Rlt_dec 0 c) as [|NC]; [assumption|]. exfalso.
    assert (total (Z.to_nat n) w <= total (Z.to_nat n) (fun _ => 0)).
    { apply total_le. intros k K. rewrite W by assumption.
      set (x := INR k / (IZR n - 1)). assert (0 <= window_shape window x).
      { cbn in I. destruct I as [<-|[<-|[]]]; unfold window_shape; cbn [String.eqb Ascii.eqb Bool.eqb]; [lra|].
        pose proof (pow2_ge_0 (sin (PI * x))). lra. }
      assert (c * window_shape window x <= 0 * window_shape window x) by (apply Rmult_le_compat_r; lra). lra. }
    assert (Z0 : forall m, total m (fun _ => 0) = 0) by (clear; induction m; cbn [total]; lra).
    rewrite Z0 in *. lra. }
  cbn in I. destruct I as [<-|[<-|[]]]; unfold window_shape; cbn [String.eqb Ascii.eqb Bool.eqb]; [lra|].
  rewrite Rmult_0_r, sin_0. apply Rmult_lt_0_compat; [exact C|lra].
Qed.

Lemma mean_positive n w g dt t window : (3 <= n)%Z -> named_window window n w ->
  (forall k, (k < Z.to_nat n)%nat -> 0 < g (t + (INR k - IZR ((n - 1) / 2)) * dt)) -> 0 < mean_around n w g dt t.
Proof.
  intros N [(P & S & _) _] G. unfold mean_around.
  assert (NZ : forall m, (m <= Z.to_nat n)%nat -> 0 < total m w ->
    0 < total m (fun k => w k * g (t + (INR k - IZR ((n - 1) / 2)) * dt))).
  { induction m as [|m IH]; intros M T; cbn [total] in *; [lra|].
    assert (0 <= w m) by (apply P; lia). assert (0 < g (t + (INR m - IZR ((n - 1) / 2)) * dt)) by (apply G; lia).
    assert (0 <= total m (fun k => w k * g (t + (INR k - IZR ((n - 1) / 2)) * dt))).
    { apply total_nonneg. intros k K. apply Rmult_le_pos; [apply P; lia|left; apply G; lia]. }
    destruct (Rlt_dec 0 (w m)) as [WM|WM].
    - assert (0 < w m * g (t + (INR m - IZR ((n - 1) / 2)) * dt)) by (now apply Rmult_lt_0_compat). lra.
    - assert (w m = 0) as -> by lra. assert (0 < total m (fun k => w k * g (t + (INR k - IZR ((n - 1) / 2)) * dt))) by (apply IH; [lia|lra]). lra. }
  apply NZ; [lia|]. rewrite S. lra.
Qed.

Lemma green_exact ty r t t0 dt wl n c g0 window g : In ty documented_types -> 0 <= r -> 0 < c -> 0 < g0 -> (2 <= List.length t)%nat ->
  evenly_spaced t t0 dt -> 0 < dt -> nearest_int (wl / dt) n -> (3 <= n)%Z ->
  In window ["hanning"; "bartlett"; "blackman"] -> green_values ty r c g0 g ->
  r / c < t0 - IZR ((n - 1) / 2) * dt ->
  exists gs w, Gsmooth (G_plugin ty) r t c g0 (Some wl) window = Ok gs /\ List.length gs = List.length t /\
    named_window window n w /\
    forall k, (k < List.length t)%nat -> nth k gs 0 = mean_around n w g dt (nth k t 0) /\ 0 < nth k gs 0.
Proof.
  intros T HR C G L E D N N3 W GV F.
  destruct (green_smoothed ty r t t0 dt wl n c g0 window g T HR C G L E D N N3) as (gs & w & A & B & NW & Z & V); auto.
  { cbn in W |- *. tauto. }
  exists gs, w. split; [exact A|]. split; [exact B|]. split; [exact NW|].
  assert (V' : forall k, (k < List.length t)%nat -> nth k gs 0 = mean_around n w g dt (nth k t 0)).
  { intros k K. destruct k as [|k]; [|apply V; lia]. rewrite Z, (outer_zero window n w N3 NW W), E by lia. change (INR 0) with 0.
    replace (t0 + 0 * dt) with t0 by lra. lra. }
  intros k K. split; [now apply V'|]. rewrite V' by assumption. apply (mean_positive n w g dt (nth k t 0) window N3 NW).
  intros j J. set (x := nth k t 0 + (INR j - IZR ((n - 1) / 2)) * dt).
  assert (FX : r / c < x).
  { unfold x. rewrite E by assumption. assert (0 <= INR k * dt) by (apply Rmult_le_pos; [apply pos_INR|lra]).
    assert (0 <= INR j * dt) by (apply Rmult_le_pos; [apply pos_INR|lra]). lra. }
  destruct (G_scalar_pos ty r x c g0 T HR C G FX) as (v & EV & PV). rewrite GV in EV by assumption. injection EV as ->. exact PV.
Qed.

Lemma green_first_low ty r t t0 dt wl n c g0 window g : In ty documented_types -> 0 <= r -> 0 < c -> 0 < g0 -> (2 <= List.length t)%nat ->
  evenly_spaced t t0 dt -> 0 < dt -> nearest_int (wl / dt) n -> (3 <= n)%Z ->
  In window ["flat"; "hamming"] -> green_values ty r c g0 g ->
  r / c < t0 - IZR ((n - 1) / 2) * dt ->
  exists gs w, Gsmooth (G_plugin ty) r t c g0 (Some wl) window = Ok gs /\ named_window window n w /\
    nth 0 gs 0 < mean_around n w g dt t0.
Proof.
  intros T HR C G L E D N N3 W GV F.
  destruct (green_smoothed ty r t t0 dt wl n c g0 window g T HR C G L E D N N3) as (gs & w & A & B & NW & Z & V); auto.
  { cbn in W |- *. tauto. }
  exists gs, w. split; [exact A|]. split; [exact NW|]. rewrite Z. pose proof (outer_positive window n w N3 NW W) as P.
  destruct (G_scalar_pos ty r _ c g0 T HR C G F) as (v & EV & PV). rewrite GV in EV by assumption. injection EV as ->.
  assert (0 < w 0%nat * v) by (now apply Rmult_lt_0_compat). lra.
Qed.
