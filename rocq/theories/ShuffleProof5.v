(** The built-in Green's functions meet the conditions of C131 to C133. *)
From Coq Require Import String List Bool Reals Lra Lia ZArith Arith.
From Verif Require Import Base Pyf PyfOps StatModel SmoothModel SmoothSpec SmoothProof RtModel RtSpec RtProof RtProof2 RtProof4 FbModel LsqfbModel LsqfbSpec GreenModel GreenSpec GreenProof GreenProof2 GreenEx GainSpec ShuffleSpec.
Import ListNotations.
Open Scope string_scope.
Open Scope list_scope.
Open Scope R_scope.

Lemma rest_positive n w h window : (3 <= n)%Z -> named_window window n w ->
  In window ["flat"; "hanning"; "hamming"; "bartlett"; "blackman"] ->
  (forall k, (0 < k < Z.to_nat n)%nat -> 0 < h k) ->
  0 < total (Z.to_nat n) (fun k => w k * h k) - w 0%nat * h 0%nat.
Proof.
  intros N NW I H. pose proof NW as [(P & S & Y) _]. destruct (Z.to_nat n) as [|m] eqn:M; [lia|].
  rewrite total_shift. replace (w 0%nat * h 0%nat + total m (fun k => w (Datatypes.S k) * h (Datatypes.S k)) - w 0%nat * h 0%nat)
    with (total m (fun k => w (Datatypes.S k) * h (Datatypes.S k))) by ring.
  assert (NN : forall k, (k < m)%nat -> 0 <= w (Datatypes.S k) * h (Datatypes.S k)).
  { intros k K. apply Rmult_le_pos; [apply P; lia|left; apply H; lia]. }
  destruct (Rlt_dec 0 (w 0%nat)) as [W|W].
  - apply (total_pos m _ (m - 1) NN); [lia|]. rewrite (Y 0%nat) in W by lia.
    replace (Datatypes.S m - 1 - 0)%nat with (Datatypes.S (m - 1)) in W by lia. apply Rmult_lt_0_compat; [exact W|apply H; lia].
  - assert (E : 0 < total m (fun k => w (Datatypes.S k))).
    { rewrite total_shift in S. pose proof (P 0%nat ltac:(lia)). lra. }
    assert (X : exists k, (k < m)%nat /\ 0 < w (Datatypes.S k)).
    { clear - E P. assert (Q : forall k, (k < m)%nat -> 0 <= w (Datatypes.S k)) by (intros k K; apply P; lia). clear P.
      induction m as [|m IH]; cbn [total] in E; [lra|]. destruct (Rlt_dec 0 (w (Datatypes.S m))) as [|NP]; [eauto|].
      destruct IH as (k & K & KP); [lra|intros; apply Q; lia|]. exists k. split; [lia|exact KP]. }
    destruct X as (k & K & KP). apply (total_pos m _ k NN K). apply Rmult_lt_0_compat; [exact KP|apply H; lia].
Qed.

Lemma coda_positive ty r t t0 dt wl n c g0 window : In ty documented_types -> 0 <= r -> 0 < c -> 0 < g0 -> (2 <= List.length t)%nat ->
  evenly_spaced t t0 dt -> 0 < dt -> nearest_int (wl / dt) n -> (3 <= n)%Z ->
  In window ["flat"; "hanning"; "hamming"; "bartlett"; "blackman"] -> r / c < t0 - IZR ((n - 1) / 2) * dt ->
  exists gs, Gsmooth (G_plugin ty) r t c g0 (Some wl) window = Ok gs /\ List.length gs = List.length t /\
    forall k, (k < List.length t)%nat -> 0 < nth k gs 0.
Proof.
  intros T HR C G L E D N N3 W F. destruct (green_at_spec ty r c g0 T HR C G) as [GV GP].
  destruct (green_smoothed ty r t t0 dt wl n c g0 window _ T HR C G L E D N N3 W GV F) as (gs & w & A & B & NW & Z & V).
  exists gs. split; [exact A|]. split; [exact B|]. intros k K.
  assert (PO : forall k j, (k < List.length t)%nat -> 0 < green_at ty r c g0 (nth k t 0 + (INR j - IZR ((n - 1) / 2)) * dt)).
  { intros i j I. apply GP. rewrite E by assumption. assert (0 <= INR i * dt) by (apply Rmult_le_pos; [apply pos_INR|lra]).
    assert (0 <= INR j * dt) by (apply Rmult_le_pos; [apply pos_INR|lra]). lra. }
  destruct k as [|k].
  - rewrite Z. unfold mean_around.
    replace (t0 - IZR ((n - 1) / 2) * dt) with (t0 + (INR 0 - IZR ((n - 1) / 2)) * dt) by (change (INR 0) with 0; lra).
    apply (rest_positive n w (fun k => green_at ty r c g0 (t0 + (INR k - IZR ((n - 1) / 2)) * dt)) window N3 NW W).
    intros j _. specialize (PO 0%nat j K). rewrite E in PO by assumption. change (INR 0) with 0 in PO.
    replace (t0 + 0 * dt) with t0 in PO by lra. exact PO.
  - rewrite V by lia. apply (mean_positive n w _ dt _ window N3 NW). intros j _. now apply PO.
Qed.

Lemma bulk_positive ty r t1 t2 num c g0 x : In ty ["rt3d"; "rt2d"; "rt1d"] -> 0 < r -> 0 < c -> 0 < g0 -> (2 <= num)%nat ->
  t1 < r / c -> r / c <= t2 -> bulk_greens ty num c r (t1, t2) (FNum g0) = Ok x -> exists y, x = FNum y /\ 0 < y.
Proof.
  intros T HR C G N F1 F2 H.
  assert (TD : In ty documented_types) by (cbn in T |- *; tauto).
  destruct (green_at_spec ty r c g0 TD ltac:(lra) C G) as [GV GP].
  destruct (bulk_used ty r t1 t2 num c g0 _ TD HR C G N F1 F2 GV) as (k & y & E & ((K1 & K2) & K3) & S).
  rewrite E in H. injection H as <-. exists y. split; [reflexivity|].
  set (dt := (t2 - t1) / INR (num - 1)) in *.
  assert (NN : 0 < INR (num - 1)) by (apply lt_0_INR; lia).
  assert (DT : 0 < dt) by (apply Rdiv_lt_0_compat; lra).
  assert (Q : 0 < y * INR num).
  { rewrite S. apply Rplus_lt_le_0_compat.
    - apply Rdiv_lt_0_compat; [|exact C]. apply Rdiv_lt_0_compat; [|exact DT].
      assert (CR : 0 < c * (r / c)) by (apply Rmult_lt_0_compat; [exact C|now apply Rdiv_lt_0_compat]).
      pose proof PI_RGT_0. unfold direct_energy. cbn in T. destruct T as [<-|[<-|[<-|[]]]]; cbn [String.eqb Ascii.eqb Bool.eqb].
      + apply Rdiv_lt_0_compat; [apply exp_pos|]. apply Rmult_lt_0_compat; [lra|now apply pow_lt].
      + apply Rdiv_lt_0_compat; [apply exp_pos|]. apply Rmult_lt_0_compat; [lra|exact CR].
      + apply Rdiv_lt_0_compat; [apply exp_pos|lra].
    - apply total_nonneg. intros j J. left. apply GP. apply (Rle_lt_trans _ _ _ K2). apply Rplus_lt_compat_l.
      apply Rmult_lt_compat_r; [exact DT|]. apply lt_INR. lia. }
  assert (IN : 0 < INR num) by (apply lt_0_INR; lia).
  replace y with (y * INR num / INR num) by (field; lra). now apply Rdiv_lt_0_compat.
Qed.

Lemma builtin_greens o st ty wl window num v0 : In ty ["rt3d"; "rt2d"; "rt1d"] -> 0 < v0 -> (2 <= num)%nat ->
  In window ["flat"; "hanning"; "hamming"; "bartlett"; "blackman"] ->
  l_gcoda o = coda_greens ty (Some wl) window v0 -> l_gbulk o = bulk_greens ty num v0 ->
  coda_behind st wl v0 -> bulk_around st v0 ->
  positive_greens o st /\ greens_lengths o st.
Proof.
  intros T V NM W GC GB CB BA. unfold positive_greens, greens_lengths. rewrite GC, GB.
  assert (TD : In ty documented_types) by (cbn in T |- *; tauto).
  assert (K : forall r t x gs, coda_of st r t -> 0 < x -> coda_greens ty (Some wl) window v0 r t (FNum x) = Ok gs ->
    Forall (fun g => exists y, g = FNum y /\ 0 < y) gs /\ List.length gs = List.length t).
  { intros r t x gs CO X H. destruct (CB r t CO) as (t0 & dt & n & HR & L & E & D & N & N3 & F).
    destruct (coda_positive ty r t t0 dt wl n v0 x window TD HR V X L E D N N3 W F) as (ys & EQ & LY & P).
    unfold coda_greens in H. rewrite EQ in H. cbn [bind] in H. injection H as <-. split; [|now rewrite map_length].
    apply Forall_forall. intros g I. apply in_map_iff in I. destruct I as (y & <- & I). exists y. split; [reflexivity|].
    apply (In_nth _ _ 0) in I. destruct I as (k & KL & <-). apply P. lia. }
  split; [split|].
  - intros r t x gs CO X H. now destruct (K r t x gs CO X H).
  - intros r [t1 t2] x g BO X H. destruct (BA r (t1, t2) BO) as (HR & F1 & F2).
    exact (bulk_positive ty r t1 t2 num v0 x g T HR V X NM F1 F2 H).
  - intros r t x gs CO X H. now destruct (K r t x gs CO X H).
Qed.
