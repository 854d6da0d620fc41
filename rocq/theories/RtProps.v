(** Properties C09 - C17, C100, C101: Green's functions (/repo/qopen/rt.py). *)
From Coq Require Import String List Bool Reals Lra Lia.
From Coquelicot Require Import Coquelicot.
From Verif Require Import Base RtModel RtSpec RtProof RtProof2 RtProof3 RtProof4 RtProof9 Rt3Proof2 BesselProof3.
Import ListNotations.
Open Scope R_scope.

(** C09: before the arrival of the direct wave the Green's function is 0. *)
Theorem C09_causal : forall ty r t c g0,
  t < r / c -> G_scalar ty r t c g0 = Ok 0.
Proof. exact G_scalar_causal. Qed.
Print Assumptions C09_causal.

Example C09_causal_ex : 1 < 4000 / 3000.
Proof. lra. Qed.

(** C09: an unknown type raises - but only from the arrival on (missing: times
    before the arrival, see [C09_unknown_type_refuted]). *)
Theorem C09_unknown_type_partial : forall ty r t c g0,
  ~ In ty documented_types -> r / c <= t ->
  G_scalar ty r t c g0 = Err UnboundLocalError.
Proof. exact G_scalar_unknown. Qed.
Print Assumptions C09_unknown_type_partial.

Example C09_unknown_type_ex : ~ In "rt4d"%string documented_types /\ 4000 / 3000 <= 2.
Proof. split; [|lra]. unfold documented_types. cbn. intuition discriminate. Qed.

(** C09: full statement "an unknown type always raises" is false: rt.py:126
    does not raise, and early times never look at the type. *)
Theorem C09_unknown_type_refuted : exists ty r t c g0 v,
  ~ In ty documented_types /\ G_scalar ty r t c g0 = Ok v.
Proof.
  exact (ex_intro _ "rt4d"%string (ex_intro _ 4000 (ex_intro _ 1 (ex_intro _ 3000 (ex_intro _ 1
    (ex_intro _ 0 (conj (proj1 C09_unknown_type_ex) (G_scalar_causal _ _ _ _ _ C09_causal_ex)))))))).
Qed.
Print Assumptions C09_unknown_type_refuted.

(** C10: evaluation on a time vector starting before the onset (missing:
    vectors starting at or after the onset, see [C10_time_vector_refuted]). *)
Theorem C10_time_vector_partial : forall ty r ts c g0 d,
  In ty documented_types -> 0 < c -> (2 <= length ts)%nat -> increasing ts ->
  nth 0 ts 0 < r / c ->
  exists gs, G_times ty r ts c g0 d = Ok gs /\ length gs = length ts /\
    forall k, (k < length ts)%nat -> ~ impulse_sample ts (r / c) k ->
      G_scalar ty r (nth k ts 0) c g0 = Ok (nth k gs 0).
Proof. exact G_times_matches. Qed.
Print Assumptions C10_time_vector_partial.

Example C10_time_vector_ex :
  In "rt2d"%string documented_types /\ 0 < 2 /\ (2 <= length [1; 2; 3])%nat /\
  increasing [1; 2; 3] /\ nth 0 [1; 2; 3] 0 < 3 / 2 /\ impulse_sample [1; 2; 3] (3 / 2) 1.
Proof.
  split; [right; left; reflexivity|]. split; [lra|]. split; [cbn; lia|].
  split; [apply increasing3; lra|]. cbn. split; [lra|]. split; [cbn; lia|cbn; lra].
Qed.

(** C10: the sample of the direct wave carries its energy: value times sample
    spacing times c is the energy density on the front (0 without direct wave). *)
Theorem C10_direct_wave : forall ty r ts c g0 d k,
  In ty documented_types -> 0 < c -> 0 < g0 -> 0 < r ->
  (2 <= length ts)%nat -> increasing ts -> impulse_sample ts (r / c) k ->
  exists gs, G_times ty r ts c g0 d = Ok gs /\
    nth k gs 0 = if d then direct_energy ty (r / c) c g0 / (nth 1 ts 0 - nth 0 ts 0) / c else 0.
Proof. exact G_times_direct. Qed.
Print Assumptions C10_direct_wave.

Example C10_direct_wave_ex : increasing [1; 2; 3] /\ impulse_sample [1; 2; 3] (3 / 2) 1.
Proof. split; [apply increasing3; lra|]. split; [cbn; lia|cbn; lra]. Qed.

(** C10: full statement is false: on a vector starting behind the front the
    first value is 0. *)
Theorem C10_time_vector_refuted : exists ty r ts c g0 d gs k,
  In ty documented_types /\ 0 <= r /\ 0 < c /\ 0 < g0 /\ (2 <= length ts)%nat /\ increasing ts /\
  G_times ty r ts c g0 d = Ok gs /\ (k < length ts)%nat /\ ~ impulse_sample ts (r / c) k /\
  G_scalar ty r (nth k ts 0) c g0 <> Ok (nth k gs 0).
Proof. exact G_times_refuted. Qed.
Print Assumptions C10_time_vector_refuted.

(** C10: the defect is systematic, for every type and every such vector. *)
Theorem C10_first_sample_lost : forall ty r ts c g0 d,
  In ty documented_types -> 0 <= r -> 0 < c -> 0 < g0 -> (2 <= length ts)%nat -> increasing ts ->
  r / c < nth 0 ts 0 ->
  exists gs v, G_times ty r ts c g0 d = Ok gs /\ nth 0 gs 0 = 0 /\
    G_scalar ty r (nth 0 ts 0) c g0 = Ok v /\ 0 < v.
Proof. exact G_times_first_lost. Qed.
Print Assumptions C10_first_sample_lost.

Example C10_first_sample_lost_ex : increasing [1; 2; 3] /\ 1 / 2 < nth 0 [1; 2; 3] 0.
Proof. split; [apply increasing3; lra|cbn; lra]. Qed.

(** C11: evaluation on a distance vector starting behind the front (missing:
    vectors entirely in front of it, see [C11_distance_vector_refuted]). *)
Theorem C11_distance_vector_partial : forall ty rs t c g0 d,
  In ty documented_types -> 0 < c -> (2 <= length rs)%nat -> increasing rs ->
  nth 0 rs 0 <= c * t ->
  exists gs, G_dists ty rs t c g0 d = Ok gs /\ length gs = length rs /\
    forall k, (k < length rs)%nat -> ~ first_beyond rs (c * t) k ->
      G_scalar ty (nth k rs 0) t c g0 = Ok (nth k gs 0).
Proof. exact G_dists_matches. Qed.
Print Assumptions C11_distance_vector_partial.

Example C11_distance_vector_ex :
  increasing [1; 2; 3] /\ nth 0 [1; 2; 3] 0 <= 1 * (5 / 2) /\ first_beyond [1; 2; 3] (1 * (5 / 2)) 2.
Proof. split; [apply increasing3; lra|]. split; [cbn; lra|]. split; [cbn; lia|cbn; lra]. Qed.

(** C11: the sample of the direct wave. *)
Theorem C11_direct_wave : forall ty rs t c g0 d k,
  In ty documented_types -> 0 < c -> 0 < g0 -> 0 < t ->
  (2 <= length rs)%nat -> increasing rs -> first_beyond rs (c * t) k ->
  exists gs, G_dists ty rs t c g0 d = Ok gs /\
    nth k gs 0 = if d then direct_energy ty t c g0 / (nth 1 rs 0 - nth 0 rs 0) else 0.
Proof. exact G_dists_direct. Qed.
Print Assumptions C11_direct_wave.

Example C11_direct_wave_ex : increasing [1; 2; 3] /\ first_beyond [1; 2; 3] (1 * (5 / 2)) 2.
Proof. split; [apply increasing3; lra|]. split; [cbn; lia|cbn; lra]. Qed.

(** C11: full statement is false: energy in front of the wave front. *)
Theorem C11_distance_vector_refuted : exists ty rs t c g0 gs k,
  In ty documented_types /\ 0 < c /\ 0 < g0 /\ 0 < t /\ (2 <= length rs)%nat /\ increasing rs /\
  (forall j, (j < length rs)%nat -> c * t < nth j rs 0) /\
  G_dists ty rs t c g0 true = Ok gs /\ (k < length rs)%nat /\ ~ first_beyond rs (c * t) k /\
  G_scalar ty (nth k rs 0) t c g0 = Ok 0 /\ nth k gs 0 <> 0.
Proof. exact G_dists_refuted. Qed.
Print Assumptions C11_distance_vector_refuted.

(** C11: pairs of arrays are evaluated point by point. *)
Theorem C11_arrays : forall ty rs ts c g0,
  In ty documented_types -> 0 < c -> length rs = length ts ->
  exists gs, G_arrays ty rs ts c g0 false = Ok gs /\ length gs = length rs /\
    forall k, (k < length rs)%nat ->
      G_scalar ty (nth k rs 0) (nth k ts 0) c g0 = Ok (nth k gs 0).
Proof. exact G_arrays_matches. Qed.
Print Assumptions C11_arrays.

Example C11_arrays_ex : length [1; 2; 3] = length [3; 1; 2].
Proof. reflexivity. Qed.

(** C11: arrays of different lengths and the direct wave are refused. *)
Theorem C11_arrays_refused : forall ty rs ts c g0,
  (length rs = length ts -> G_arrays ty rs ts c g0 true = Err NotImplementedError) /\
  (forall d, length rs <> length ts -> G_arrays ty rs ts c g0 d = Err ValueError).
Proof. exact G_arrays_refused. Qed.
Print Assumptions C11_arrays_refused.

Example C11_arrays_refused_ex : length [1; 2] = length [3; 4] /\ length [1; 2] <> length [3].
Proof. split; [reflexivity|cbn; lia]. Qed.

(** C12: coda energy inside radius rho, exactly. *)
Theorem C12_rt2d_energy_inside : forall t c g0 rho,
  0 < c -> 0 < g0 -> 0 < t -> 0 <= rho < c * t ->
  is_RInt (fun r => 2 * PI * r * ok_value (G_scalar "rt2d" r t c g0)) 0 rho
    (1 - exp ((sqrt (c ^ 2 * t ^ 2 - rho ^ 2) - c * t) * g0)).
Proof. exact rt2d_integral. Qed.
Print Assumptions C12_rt2d_energy_inside.

Example C12_rt2d_energy_inside_ex : 0 <= 2000 < 3000 * 2.
Proof. lra. Qed.

(** C12: the total energy, coda inside the front plus direct wave on the
    front (circumference 2 pi c t), is 1. *)
Theorem C12_rt2d_energy_total : forall t c g0,
  0 < c -> 0 < g0 -> 0 < t ->
  filterlim (fun rho => RInt (fun r => 2 * PI * r * ok_value (G_scalar "rt2d" r t c g0)) 0 rho
                        + 2 * PI * (c * t) * rt2d_direct t c g0)
    (at_left (c * t)) (locally 1).
Proof. exact rt2d_total. Qed.
Print Assumptions C12_rt2d_energy_total.

Example C12_rt2d_energy_total_ex : 0 < 3000 /\ 0 < 1 / 1000 /\ 0 < 2.
Proof. lra. Qed.

(** C13 *)
Theorem C13_coda_positive : forall ty r t c g0,
  In ty documented_types -> 0 <= r -> 0 < c -> 0 < g0 -> r / c < t ->
  exists v, G_scalar ty r t c g0 = Ok v /\ 0 < v.
Proof. exact G_scalar_pos. Qed.
Print Assumptions C13_coda_positive.

Example C13_coda_positive_ex : In "rt1d"%string documented_types /\ 4000 / 3000 < 2.
Proof. split; [cbn; tauto|lra]. Qed.

Theorem C13_direct_positive : forall t c g0, 0 < c -> 0 < g0 -> 0 < t ->
  0 < rt1d_direct t c g0 /\ 0 < rt2d_direct t c g0 /\ 0 < rt3d_direct t c g0.
Proof. exact rt_direct_pos. Qed.
Print Assumptions C13_direct_positive.

Example C13_direct_positive_ex : 0 < 3000 /\ 0 < 1 / 1000 /\ 0 < 2.
Proof. lra. Qed.

(** C14: change of the length scale. *)
Theorem C14_similarity : forall ty k r t c g0 v,
  In ty documented_types -> 0 < k -> 0 <= r -> 0 < c -> 0 < g0 -> t <> r / c ->
  G_scalar ty r t c g0 = Ok v ->
  G_scalar ty (k * r) (k * t) c (g0 / k) = Ok (v / k ^ dimension ty).
Proof. exact G_scalar_similarity. Qed.
Print Assumptions C14_similarity.

Example C14_similarity_ex : 2 <> 4000 / 3000 /\ exists v, G_scalar "diff3d" 4000 2 3000 1 = Ok v.
Proof.
  split; [lra|]. destruct (G_scalar_pos "diff3d" 4000 2 3000 1) as (v & H & _); try lra; [cbn; tauto|].
  now exists v.
Qed.

(** C14: change of the time unit. *)
Theorem C14_time_unit : forall ty k r t c g0,
  In ty documented_types -> 0 < k -> 0 < c -> g0 <> 0 -> 0 < t ->
  G_scalar ty r (k * t) (c / k) g0 =
  G_scalar ty r t c g0.
Proof. exact G_scalar_time_unit'. Qed.
Print Assumptions C14_time_unit.

Example C14_time_unit_ex : In "rt3d"%string documented_types /\ 0 < 60 /\ 0 < 3000 /\ 1 / 1000 <> 0 /\ 0 < 2.
Proof. split; [cbn; tauto|lra]. Qed.

(** C15: the diffusion equation in dimensions 1, 2, 3, ... *)
Theorem C15_diffusion_equation : forall dim r t c g0,
  (0 < dim)%nat -> 0 < c -> 0 < g0 -> 0 < t -> 0 < r ->
  exists ut ur urr : R,
    is_derive (fun t => diff dim r t c g0) t ut /\
    is_derive (fun r => diff dim r t c g0) r ur /\
    is_derive (fun r => Derive (fun r => diff dim r t c g0) r) r urr /\
    ut = c / (INR dim * g0) * radial_laplacian dim r ur urr.
Proof. exact diffusion_equation. Qed.
Print Assumptions C15_diffusion_equation.

Example C15_diffusion_equation_ex : (0 < 3)%nat /\ 0 < 3000 /\ 0 < 1 / 1000 /\ 0 < 2 /\ 0 < 500.
Proof. split; [lia|lra]. Qed.

Theorem C15_diffapprox_bound : forall dim r t c g0,
  (0 < dim)%nat -> 0 < c -> 0 < g0 -> 0 < t ->
  diff dim r t c g0 <= diffapprox dim r t c g0.
Proof. exact diff_le_diffapprox. Qed.
Print Assumptions C15_diffapprox_bound.

Example C15_diffapprox_bound_ex : (0 < 2)%nat /\ 0 < 3000 /\ 0 < 1 / 1000 /\ 0 < 2.
Proof. split; [lia|lra]. Qed.

(** C16: late times. *)
Theorem C16_rt3d_diffusion_limit : forall r c g0, 0 < c -> 0 < g0 ->
  is_lim (fun t => rt3d_coda r t c g0 / diff 3 r t c g0) p_infty 1.
Proof. exact rt3d_late. Qed.
Print Assumptions C16_rt3d_diffusion_limit.

Theorem C16_rt2d_diffusion_limit : forall r c g0, 0 < c -> 0 < g0 ->
  is_lim (fun t => rt2d_coda r t c g0 / diff 2 r t c g0) p_infty 1.
Proof. exact rt2d_late. Qed.
Print Assumptions C16_rt2d_diffusion_limit.

Theorem C16_diffapprox_limit : forall dim r c g0, (0 < dim)%nat -> 0 < c -> 0 < g0 ->
  is_lim (fun t => diff dim r t c g0 / diffapprox dim r t c g0) p_infty 1.
Proof. exact diffapprox_late. Qed.
Print Assumptions C16_diffapprox_limit.

Theorem C16_rt1d_diffusion_limit : forall r c g0, 0 < c -> 0 < g0 ->
  is_lim (fun t => rt1d_coda r t c g0 / diff 1 r t c g0) p_infty 1.
Proof. exact rt1d_late. Qed.
Print Assumptions C16_rt1d_diffusion_limit.

Example C16_ex : (0 < 3)%nat /\ 0 < 3000 /\ 0 < 1 / 1000.
Proof. split; [lia|lra]. Qed.

(** C16: how far the radiative transfer is from diffusion: with y the square of the distance relative
    to that of the wave front, and c t g0 the number of mean free times. *)
Theorem C16_rt2d_distance : forall r t c g0, 0 < c -> 0 < g0 -> 0 <= r < c * t ->
  let y := (r / (c * t)) ^ 2 in
  exp (- (c * t * g0 * y ^ 2 / 2)) <= rt2d_coda r t c g0 / diff 2 r t c g0 <= / sqrt (1 - y).
Proof. exact rt2d_bounds. Qed.
Print Assumptions C16_rt2d_distance.

Example C16_rt2d_distance_ex : 0 < 3000 /\ 0 < 1 / 1000 /\ 0 <= 1000 < 3000 * 2.
Proof. lra. Qed.

Theorem C16_rt3d_distance : forall r t c g0, 0 < c -> 0 < g0 -> 0 < r -> r <= c * t / 2 ->
  let y := (r / (c * t)) ^ 2 in
  (1 - y) * exp (- (3 / 2 * (c * t * g0 * y ^ 2))) <= rt3d_coda r t c g0 / diff 3 r t c g0 <= 1 + 2 / (c * t * g0).
Proof. exact rt3d_bounds. Qed.
Print Assumptions C16_rt3d_distance.

Example C16_rt3d_distance_ex : 0 < 3000 /\ 0 < 1 / 1000 /\ 0 < 1000 /\ 1000 <= 3000 * 2 / 2.
Proof. lra. Qed.

(** C17: distance plots apply the absorption of their (single) time. *)
Theorem C17_plot_r_absorption : forall c g0 t r N d la ty pts0 pts,
  plot_r c g0 (Some t) r N d None ty = Ok pts0 ->
  plot_r c g0 (Some t) r N d (Some la) ty = Ok pts ->
  pts = map (fun p => (fst p, snd p * exp (- c * t / la))) pts0.
Proof. exact plot_r_absorption. Qed.
Print Assumptions C17_plot_r_absorption.

Example C17_plot_r_absorption_ex :
  exists pts, plot_r 1 1 (Some 1) (Some 2) 3 true None "rt2d" = Ok pts.
Proof. apply plot_r_ok; [cbn; tauto|lia]. Qed.

(** C17: full statement is false for time plots: the factor of the end time is
    applied to every sample. *)
Theorem C17_plot_t_absorption_refuted : exists c g0 r t N la ty pts0 pts,
  0 < c /\ 0 < g0 /\ 0 < r < c * t /\ 0 < la /\
  plot_t c g0 (Some r) (Some t) N false None ty = Ok pts0 /\
  plot_t c g0 (Some r) (Some t) N false (Some la) ty = Ok pts /\
  pts <> map (fun p => (fst p, snd p * exp (- c * fst p / la))) pts0.
Proof. exact plot_t_wrong. Qed.
Print Assumptions C17_plot_t_absorption_refuted.

(** C17: what holds is the relation at the end time only. *)
Theorem C17_plot_t_absorption_partial : forall c g0 r t N d la ty pts0 pts k,
  plot_t c g0 r (Some t) N d None ty = Ok pts0 ->
  plot_t c g0 r (Some t) N d (Some la) ty = Ok pts ->
  fst (nth k pts0 (0, 0)) = t ->
  nth k pts (0, 0) = (t, snd (nth k pts0 (0, 0)) * exp (- c * t / la)).
Proof. exact plot_t_last. Qed.
Print Assumptions C17_plot_t_absorption_partial.

Example C17_plot_t_absorption_ex : exists pts, plot_t 1 1 (Some 1) (Some 2) 3 true None "rt2d" = Ok pts.
Proof. apply plot_t_ok. cbn; tauto. Qed.

(** C100: coda energy inside the front, exactly. *)
Theorem C100_rt1d_energy_coda : forall t c g0,
  0 < c -> 0 < g0 -> 0 < t ->
  is_RInt (fun r => 2 * ok_value (G_scalar "rt1d" r t c g0)) 0 (c * t) (1 - exp (- (g0 / 2 * (c * t)))).
Proof. exact rt1d_integral. Qed.
Print Assumptions C100_rt1d_energy_coda.

Example C100_rt1d_energy_coda_ex : 0 < 3000 /\ 0 < 1 / 1000 /\ 0 < 2.
Proof. lra. Qed.

(** C100: the total energy, coda inside the front plus direct wave on both
    sides, is 1. *)
Theorem C100_rt1d_energy_total : forall t c g0,
  0 < c -> 0 < g0 -> 0 < t ->
  RInt (fun r => 2 * ok_value (G_scalar "rt1d" r t c g0)) 0 (c * t) + 2 * rt1d_direct t c g0 = 1.
Proof. exact rt1d_total. Qed.
Print Assumptions C100_rt1d_energy_total.

Example C100_rt1d_energy_total_ex : 0 < 3000 /\ 0 < 1 / 1000 /\ 0 < 2.
Proof. lra. Qed.

(** C101: energy of the 2D diffusion solution inside the distance rho. *)
Theorem C101_diff2d_energy : forall t c g0 rho,
  0 < c -> 0 < g0 -> 0 < t -> 0 <= rho <= c * t ->
  is_RInt (fun r => 2 * PI * r * ok_value (G_scalar "diff2d" r t c g0)) 0 rho
    (1 - exp (- (g0 * rho ^ 2 / (2 * c * t)))).
Proof. exact diff2d_integral. Qed.
Print Assumptions C101_diff2d_energy.

Example C101_diff2d_energy_ex : 0 < 3000 /\ 0 < 1 / 1000 /\ 0 < 2 /\ 0 <= 1000 <= 3000 * 2.
Proof. lra. Qed.

(** C101: energy is lost, more than the direct wave has. *)
Theorem C101_diff2d_lost : forall t c g0,
  0 < c -> 0 < g0 -> 0 < t ->
  RInt (fun r => 2 * PI * r * ok_value (G_scalar "diff2d" r t c g0)) 0 (c * t) = 1 - exp (- (g0 * (c * t) / 2)) /\
  RInt (fun r => 2 * PI * r * ok_value (G_scalar "diff2d" r t c g0)) 0 (c * t) <
  1 - 2 * PI * (c * t) * rt2d_direct t c g0.
Proof. exact diff2d_lost. Qed.
Print Assumptions C101_diff2d_lost.

Example C101_diff2d_lost_ex : 0 < 3000 /\ 0 < 1 / 1000 /\ 0 < 2.
Proof. lra. Qed.
