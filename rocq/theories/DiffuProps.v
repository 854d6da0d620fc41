(** Property C127: energy of the solutions of the diffusion equation.  Theorems only. *)
From Coq Require Import String Reals Lra.
From Coquelicot Require Import Coquelicot.
From Verif Require Import Base RtModel RtSpec DiffuSpec DiffuProof.
Open Scope R_scope.

(** C127: the energy inside the distance rho, as long as this is not beyond the wave front, is the
    probability that a random walk has not left it. *)
Theorem C127_inside : forall dim t c g0 rho, dimension dim -> 0 < c -> 0 < g0 -> 0 < t -> 0 <= rho <= c * t ->
  is_RInt (fun r => surface dim r * ok_value (G_scalar (diff_type dim) r t c g0)) 0 rho
    (inside dim (rho * sqrt (INR dim * g0 / (4 * c * t)))).
Proof. exact front_inside. Qed.
Print Assumptions C127_inside.

Example C127_inside_ex : dimension 3 /\ 0 < 3000 /\ 0 < 1 / 1000 /\ 0 < 2 /\ 0 <= 1000 <= 3000 * 2.
Proof. split; [right; right; reflexivity|lra]. Qed.

(** C127: without the wave front the solutions would conserve energy: the energy in the whole space
    is 1 at all times. *)
Theorem C127_conserved : forall dim t c g0, dimension dim -> 0 < c -> 0 < g0 -> 0 < t ->
  filterlim (fun rho => RInt (fun r => surface dim r * diff dim r t c g0) 0 rho) (Rbar_locally p_infty) (locally 1).
Proof. exact diff_conserved. Qed.
Print Assumptions C127_conserved.

Example C127_conserved_ex : dimension 1 /\ 0 < 3000 /\ 0 < 1 / 1000 /\ 0 < 2.
Proof. split; [left; reflexivity|lra]. Qed.

(** C127: since nothing is returned beyond the wave front energy is lost, but not more than a part
    that decreases exponentially with time, *)
Theorem C127_lost : forall dim t c g0, dimension dim -> 0 < c -> 0 < g0 -> 0 < t ->
  let E := RInt (fun r => surface dim r * ok_value (G_scalar (diff_type dim) r t c g0)) 0 (c * t) in
  let lost := exp (- (INR dim * g0 * c * t / 4)) in
  E < 1 /\ 1 - (1 + sqrt (INR dim * g0 * c * t / PI)) * lost <= E /\ (dim <> 3%nat -> 1 - lost <= E).
Proof. exact front_energy. Qed.
Print Assumptions C127_lost.

Example C127_lost_ex : dimension 2 /\ 0 < 3000 /\ 0 < 1 / 1000 /\ 0 < 2.
Proof. split; [right; left; reflexivity|lra]. Qed.

(** C127: so the energy tends to 1. *)
Theorem C127_late : forall dim c g0, dimension dim -> 0 < c -> 0 < g0 ->
  filterlim (fun t => RInt (fun r => surface dim r * ok_value (G_scalar (diff_type dim) r t c g0)) 0 (c * t))
    (Rbar_locally p_infty) (locally 1).
Proof. exact front_late. Qed.
Print Assumptions C127_late.

Example C127_late_ex : dimension 3 /\ 0 < 3000 /\ 0 < 1 / 1000.
Proof. split; [right; right; reflexivity|lra]. Qed.

(** C127: in one dimension the square of the energy is not larger than the energy of the coda of
    radiative transfer. *)
Theorem C127_coda : forall t c g0, 0 < c -> 0 < g0 -> 0 < t ->
  let E := RInt (fun r => 2 * ok_value (G_scalar "diff1d" r t c g0)) 0 (c * t) in
  1 - exp (- (g0 * c * t / 4)) <= E ^ 2 <= 1 - 2 * rt1d_direct t c g0.
Proof. exact front_1d. Qed.
Print Assumptions C127_coda.

Example C127_coda_ex : 0 < 3000 /\ 0 < 1 / 1000 /\ 0 < 2.
Proof. lra. Qed.
