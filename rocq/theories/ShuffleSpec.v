(** Specification for C132: the pairs of events and stations in another order. *)
From Coq Require Import String List Bool Reals Permutation.
From Verif Require Import Base Pyf PyfOps FbModel LsqfbModel SmoothSpec LsqfbSpec GainSpec.
Import ListNotations.
Open Scope list_scope.
Open Scope R_scope.

(** the observations of one pair: the trace, times and energies of the coda, time, energy and
    weight of the bulk window *)
Record observed := {
  ob_trace : etrace; ob_times : list R; ob_energies : list pyf;
  ob_tbulk : pyf; ob_ebulk : pyf; ob_weight : R }.

(** the lists of the band hold these observations, in this order *)
Definition arranged (bulk : bool) (l : list observed) (st : wstate) : Prop :=
  w_energies st = map ob_trace l /\ w_tcoda st = map ob_times l /\ w_ecoda st = map ob_energies l /\
  if bulk then w_tbulk st = map ob_tbulk l /\ w_ebulk st = map ob_ebulk l /\ w_weights st = map ob_weight l
  else w_tbulk st = [] /\ w_ebulk st = [].

(** the same observations in another order *)
Definition reordered (bulk : bool) (st st2 : wstate) : Prop :=
  (exists l l2, Permutation l l2 /\ arranged bulk l st /\ arranged bulk l2 st2) /\
  (forall p, dget pair_eqb (w_distances st2) p = dget pair_eqb (w_distances st) p) /\
  (forall p, dget pair_eqb (w_tbulk_window st2) p = dget pair_eqb (w_tbulk_window st) p).

(** the Green's functions of the coda windows have one value per time *)
Definition greens_lengths (o : lopts) (st : wstate) : Prop :=
  forall r t x gs, coda_of st r t -> 0 < x -> l_gcoda o r t (FNum x) = Ok gs -> List.length gs = List.length t.

(** n unknowns are determined by the equations *)
Definition independent (n : nat) (rows : list (list R)) : Prop :=
  forall x, List.length x = n -> Forall (fun row => dotr row x = 0) rows -> Forall (fun y => y = 0) x.

(** For determined unknowns, the solver returns a minimiser of the weighted sum and this sum
    divided by the degrees of freedom, which depend on the number of equations and unknowns. *)
Definition least_squares_full
    (wls : list pyf -> list (list pyf) -> option (list R) -> res (list pyf * pyf))
    (dof : nat -> nat -> R) : Prop :=
  forall n rows b ws c mse,
    Forall (fun row => List.length row = n) rows -> List.length b = List.length rows -> independent n rows ->
    wls (map FNum b) (map (map FNum) rows) ws = Ok (c, mse) ->
    let w := match ws with None => repeat 1 (List.length rows) | Some w => w end in
    exists c', c = map FNum c' /\ List.length c' = n /\
      (forall x, List.length x = n -> sse rows b w c' <= sse rows b w x) /\
      mse = FNum (sse rows b w c' / dof (List.length rows) n).

(** two results with the same values for all events and stations *)
Definition same_result (st : wstate) (r r2 : fbresult) : Prop :=
  fb_g0 r2 = fb_g0 r /\ fb_b r2 = fb_b r /\ fb_error r2 = fb_error r /\
  fb_nstations r2 = fb_nstations r /\ fb_v0 r2 = fb_v0 r /\
  exists source site W W2 Rs Rs2,
    positive_on (map fst (pairs st)) source /\ positive_on (map snd (pairs st)) site /\
    fb_W r = Some W /\ table (map fst (pairs st)) source W /\
    fb_W r2 = Some W2 /\ table (map fst (pairs st)) source W2 /\
    fb_R r = Some Rs /\ table (map snd (pairs st)) site Rs /\
    fb_R r2 = Some Rs2 /\ table (map snd (pairs st)) site Rs2.

(** the same with given site responses *)
Definition same_sources (st : wstate) (r r2 : fbresult) : Prop :=
  fb_error r2 = fb_error r /\ fb_nstations r2 = fb_nstations r /\ fb_v0 r2 = fb_v0 r /\
  fb_R r = None /\ fb_R r2 = None /\
  exists source W W2,
    positive_on (map fst (pairs st)) source /\
    fb_W r = Some W /\ table (map fst (pairs st)) source W /\
    fb_W r2 = Some W2 /\ table (map fst (pairs st)) source W2.

(** each coda window is evenly sampled, and all of its samples widened by the smoothing over n >= 3
    samples are behind the wave front *)
Definition coda_behind (st : wstate) (wl v0 : R) : Prop :=
  forall r t, coda_of st r t -> exists t0 dt n, 0 <= r /\ (2 <= List.length t)%nat /\ evenly_spaced t t0 dt /\ 0 < dt /\
    nearest_int (wl / dt) n /\ (3 <= n)%Z /\ r / v0 < t0 - IZR ((n - 1) / 2) * dt.

(** each bulk window contains the arrival of the wave *)
Definition bulk_around (st : wstate) (v0 : R) : Prop :=
  forall r w, bulk_of st r w -> 0 < r /\ fst w < r / v0 <= snd w.
