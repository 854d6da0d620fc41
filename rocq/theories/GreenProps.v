(** Property C112: the Green's functions in the inversion.  Theorems only. *)
From Coq Require Import String List Bool Reals ZArith.
From Verif Require Import Base Pyf PyfOps SmoothModel SmoothSpec RtModel RtSpec FbModel LsqfbModel LsqfbSpec GreenModel GreenSpec GreenProof GreenProof2 GreenEx.
Import ListNotations.
Open Scope string_scope.
Open Scope list_scope.
Open Scope R_scope.

(** C112: without smoothing the Green's function of a coda window behind the wave front is 0 at
    the first sample and positive, the value of [G] for a single time, at all others. *)
Theorem C112_plain ty r t c g0 window : In ty documented_types -> 0 <= r -> 0 < c -> 0 < g0 -> (2 <= List.length t)%nat ->
  increasing t -> r / c < nth 0 t 0 ->
  exists gs, Gsmooth (G_plugin ty) r t c g0 None window = Ok gs /\ List.length gs = List.length t /\ nth 0 gs 0 = 0 /\
    forall k, (0 < k < List.length t)%nat -> 0 < nth k gs 0 /\ G_scalar ty r (nth k t 0) c g0 = Ok (nth k gs 0).
Proof. exact (green_plain ty r t c g0 window). Qed.
Print Assumptions C112_plain.
Example C112_plain_ex : In "rt3d" documented_types /\ 0 <= 10 /\ 0 < 1 /\ 0 < 1 / 5 /\ (2 <= List.length t_green)%nat /\
  increasing t_green /\ 10 / 1 < nth 0 t_green 0.
Proof. exact plain_ex. Qed.

(** C112: smoothing over at most one sample changes nothing. *)
Theorem C112_short ty r t t0 dt wl n c g0 window : In ty documented_types -> 0 <= r -> 0 < c -> 0 < g0 -> (2 <= List.length t)%nat ->
  evenly_spaced t t0 dt -> 0 < dt -> nearest_int (wl / dt) n -> (n <= 1)%Z -> r / c < t0 ->
  Gsmooth (G_plugin ty) r t c g0 (Some wl) window = Gsmooth (G_plugin ty) r t c g0 None window.
Proof. exact (green_short ty r t t0 dt wl n c g0 window). Qed.
Print Assumptions C112_short.
Example C112_short_ex : In "rt3d" documented_types /\ 0 <= 10 /\ 0 < 1 /\ 0 < 1 / 5 /\ (2 <= List.length t_green)%nat /\
  evenly_spaced t_green 20 1 /\ 0 < 1 /\ nearest_int (1 / 1) 1 /\
  (exists g, green_values "rt3d" 10 1 (1 / 5) g) /\ 10 / 1 < 20 - IZR ((1 - 1) / 2) * 1.
Proof. exact (smoothed_ex 1 ltac:(discriminate)). Qed.

(** C112: with smoothing over n samples every value but the first is the weighted mean of the
    Green's function around its time; in the first one the earliest of the n samples is missing. *)
Theorem C112_smoothed ty r t t0 dt wl n c g0 window g : In ty documented_types -> 0 <= r -> 0 < c -> 0 < g0 -> (2 <= List.length t)%nat ->
  evenly_spaced t t0 dt -> 0 < dt -> nearest_int (wl / dt) n -> (3 <= n)%Z ->
  In window ["flat"; "hanning"; "hamming"; "bartlett"; "blackman"] -> green_values ty r c g0 g ->
  r / c < t0 - IZR ((n - 1) / 2) * dt ->
  exists gs w, Gsmooth (G_plugin ty) r t c g0 (Some wl) window = Ok gs /\ List.length gs = List.length t /\
    named_window window n w /\
    nth 0 gs 0 = mean_around n w g dt t0 - w 0%nat * g (t0 - IZR ((n - 1) / 2) * dt) /\
    forall k, (0 < k < List.length t)%nat -> nth k gs 0 = mean_around n w g dt (nth k t 0).
Proof. exact (green_smoothed ty r t t0 dt wl n c g0 window g). Qed.
Print Assumptions C112_smoothed.
Example C112_smoothed_ex : In "rt3d" documented_types /\ 0 <= 10 /\ 0 < 1 /\ 0 < 1 / 5 /\ (2 <= List.length t_green)%nat /\
  evenly_spaced t_green 20 1 /\ 0 < 1 /\ nearest_int (5 / 1) 5 /\
  (exists g, green_values "rt3d" 10 1 (1 / 5) g) /\ 10 / 1 < 20 - IZR ((5 - 1) / 2) * 1.
Proof. exact (smoothed_ex 5 ltac:(discriminate)). Qed.

(** C112: with a window that vanishes at its ends all values are the weighted means, and
    positive. *)
Theorem C112_exact ty r t t0 dt wl n c g0 window g : In ty documented_types -> 0 <= r -> 0 < c -> 0 < g0 -> (2 <= List.length t)%nat ->
  evenly_spaced t t0 dt -> 0 < dt -> nearest_int (wl / dt) n -> (3 <= n)%Z ->
  In window ["hanning"; "bartlett"; "blackman"] -> green_values ty r c g0 g ->
  r / c < t0 - IZR ((n - 1) / 2) * dt ->
  exists gs w, Gsmooth (G_plugin ty) r t c g0 (Some wl) window = Ok gs /\ List.length gs = List.length t /\
    named_window window n w /\
    forall k, (k < List.length t)%nat -> nth k gs 0 = mean_around n w g dt (nth k t 0) /\ 0 < nth k gs 0.
Proof. exact (green_exact ty r t t0 dt wl n c g0 window g). Qed.
Print Assumptions C112_exact.
Example C112_exact_ex : In "rt3d" documented_types /\ 0 <= 10 /\ 0 < 1 /\ 0 < 1 / 5 /\ (2 <= List.length t_green)%nat /\
  evenly_spaced t_green 20 1 /\ 0 < 1 /\ nearest_int (4 / 1) 4 /\
  (exists g, green_values "rt3d" 10 1 (1 / 5) g) /\ 10 / 1 < 20 - IZR ((4 - 1) / 2) * 1.
Proof. exact (smoothed_ex 4 ltac:(discriminate)). Qed.

(** C112: with the flat window (the default) and with hamming the first value is less than the
    weighted mean around its time. *)
Theorem C112_first_low ty r t t0 dt wl n c g0 window g : In ty documented_types -> 0 <= r -> 0 < c -> 0 < g0 -> (2 <= List.length t)%nat ->
  evenly_spaced t t0 dt -> 0 < dt -> nearest_int (wl / dt) n -> (3 <= n)%Z ->
  In window ["flat"; "hamming"] -> green_values ty r c g0 g ->
  r / c < t0 - IZR ((n - 1) / 2) * dt ->
  exists gs w, Gsmooth (G_plugin ty) r t c g0 (Some wl) window = Ok gs /\ named_window window n w /\
    nth 0 gs 0 < mean_around n w g dt t0.
Proof. exact (green_first_low ty r t t0 dt wl n c g0 window g). Qed.
Print Assumptions C112_first_low.
Example C112_first_low_ex : In "rt3d" documented_types /\ 0 <= 10 /\ 0 < 1 /\ 0 < 1 / 5 /\ (2 <= List.length t_green)%nat /\
  evenly_spaced t_green 20 1 /\ 0 < 1 /\ nearest_int (3 / 1) 3 /\
  (exists g, green_values "rt3d" 10 1 (1 / 5) g) /\ 10 / 1 < 20 - IZR ((3 - 1) / 2) * 1.
Proof. exact (smoothed_ex 3 ltac:(discriminate)). Qed.

(** C112: the Green's function of a bulk window around the arrival is the mean over num samples:
    the energy of the direct wave, spread over one step, plus the coda behind it. *)
Theorem C112_bulk ty r t1 t2 num c g0 g : In ty documented_types -> 0 < r -> 0 < c -> 0 < g0 -> (2 <= num)%nat ->
  t1 < r / c -> r / c <= t2 -> green_values ty r c g0 g ->
  let dt := (t2 - t1) / INR (num - 1) in
  exists k x, bulk_greens ty num c r (t1, t2) (FNum g0) = Ok (FNum x) /\
    (t1 + INR (k - 1) * dt < r / c <= t1 + INR k * dt /\ (0 < k < num)%nat) /\
    x * INR num = direct_energy ty (r / c) c g0 / dt / c
                  + total (num - 1 - k) (fun j => g (t1 + INR (k + 1 + j) * dt)).
Proof. exact (bulk_used ty r t1 t2 num c g0 g). Qed.
Print Assumptions C112_bulk.
Example C112_bulk_ex : In "rt3d" documented_types /\ 0 < 10 /\ 0 < 1 /\ 0 < 1 / 5 /\ (2 <= 50)%nat /\ 8 < 10 / 1 /\ 10 / 1 <= 12 /\
  exists g, green_values "rt3d" 10 1 (1 / 5) g.
Proof. exact bulk_ex. Qed.

(** C112: without smoothing the right hand side is infinite at the first coda sample of every
    pair, although the energies are positive numbers. *)
Theorem C112_infinite o st ty window v0 g0 bf bs b : LsqfbSpec.aligned st -> In ty documented_types -> 0 < v0 ->
  (forall r t g, l_gcoda o r t g = coda_greens ty None window v0 r t g) -> behind_front st v0 ->
  (forall e, In e (w_ecoda st) -> positive_numbers e) -> 0 < g0 -> (forall x, bf = Some x -> exists y, x = FNum y) ->
  rhs o st (FNum g0) bf false bs = Ok b ->
  forall i e, nth_error (w_ecoda st) i = Some e -> nth_error b (List.length (concat (firstn i (w_ecoda st)))) = Some FPInf.
Proof. exact (fun AL T V GC BF PE => rhs_infinite o st ty window v0 AL T V GC BF PE g0 bf bs b). Qed.
Print Assumptions C112_infinite.
Example C112_infinite_ex : LsqfbSpec.aligned st_green /\ behind_front st_green 1 /\
  (forall e, In e (w_ecoda st_green) -> positive_numbers e) /\
  exists b f, rhs lo_green st_green (FNum (1 / 5)) None false [] = Ok b /\
  (exists a rs, build lo_green st_green = Ok (a, [], rs) /\ solve_at lo_green st_green a [] rs (FNum (1 / 5)) None false = Ok f) /\
  exists r s, invert_band lo_green st_green 1 = Ok (r, s).
Proof. exact (conj aligned_green (conj front_green (conj positive_green green_run))). Qed.

(** C112: hence with a solver that is linear in the right hand side and with bounds for b and g0
    the inversion never gives a result without smoothing. *)
Theorem C112_no_result o st ty window v0 lo hi glo ghi r s v : LsqfbSpec.aligned st -> In ty documented_types -> 0 < v0 ->
  (forall r t g, l_gcoda o r t g = coda_greens ty None window v0 r t g) -> behind_front st v0 ->
  (forall e, In e (w_ecoda st) -> positive_numbers e) -> positive_numbers (w_ebulk st) ->
  (forall r w g x, l_gbulk o r w g = Ok x -> exists y, x = FNum y /\ 0 <= y) -> linear_solver (l_wls o) ->
  l_fix o = false -> l_b_bounds o = Some (lo, hi) -> l_g0_bounds o = Some (glo, ghi) -> 0 <= glo ->
  invert_band o st v = Ok (r, s) -> r = None.
Proof. exact (fun AL T V GC BF PE PB GB LS => no_result o st ty window v0 AL T V GC BF PE PB GB LS lo hi glo ghi r s v). Qed.
Print Assumptions C112_no_result.
Example C112_no_result_ex : linear_solver (l_wls lo_green) /\ exists s, invert_band lo_green st_green 1 = Ok (None, s).
Proof. exact (conj linear_ex_spec green_none). Qed.

(** C112: it is false that exact energies of the built-in Green's function with parameters
    inside of the bounds give a result. *)
Theorem C112_exact_data_refuted : exists o st ty v0 g0 b w s,
  In ty documented_types /\ (forall r t g, l_gcoda o r t g = coda_greens ty None "flat" v0 r t g) /\
  linear_solver (l_wls o) /\ LsqfbSpec.aligned st /\ behind_front st v0 /\ l_fix o = false /\
  inside_open (l_b_bounds o) (FNum b) /\ inside_open (l_g0_bounds o) (FNum g0) /\ 0 < w /\
  (forall i p r t e, nth_error (pairs st) i = Some p -> dget pair_eqb (w_distances st) p = Some r ->
     nth_error (w_tcoda st) i = Some t -> nth_error (w_ecoda st) i = Some e ->
     Forall2 (fun t e => exists g, G_scalar ty r t v0 g0 = Ok g /\ e = FNum (w * g * exp (- (b * t)))) t e) /\
  invert_band o st v0 = Ok (None, s).
Proof. exact exact_no_result. Qed.
Print Assumptions C112_exact_data_refuted.
