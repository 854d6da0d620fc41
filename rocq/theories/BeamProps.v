(** Property C130: radiative transfer in one dimension.  Theorems only. *)
From Coq Require Import String Reals Lra.
From Coquelicot Require Import Coquelicot.
From Verif Require Import Base RtModel RtSpec BeamSpec BeamProof.
Open Scope R_scope.

(** C130: the coda in one dimension is the sum of the energies of waves to the right and to the left,
    which satisfy the equations of radiative transfer with isotropic scattering everywhere between
    the wave fronts, and whose source is the direct wave. *)
Theorem C130_rt1d_transfer : forall c g0, 0 < c -> 0 < g0 ->
  exists right left : R -> R -> R,
    (forall x t, - (c * t) < x < c * t ->
       ok_value (G_scalar "rt1d" (Rabs x) t c g0) = right x t + left x t /\ right (- x) t = left x t) /\
    transport right left c g0 /\
    sources right left (fun t => rt1d_direct t c g0) c g0.
Proof. exact rt1d_transfer. Qed.
Print Assumptions C130_rt1d_transfer.

Example C130_rt1d_transfer_ex : 0 < 3000 /\ 0 < 1 / 1000 /\ - (3000 * 2) < 1000 < 3000 * 2.
Proof. lra. Qed.

(** C130: the direct wave starts with half of the energy to each side and loses energy by scattering
    into the opposite direction. *)
Theorem C130_rt1d_direct : forall c g0, 0 < g0 -> extinction (fun t => rt1d_direct t c g0) c g0.
Proof. exact direct_extinction. Qed.
Print Assumptions C130_rt1d_direct.

Example C130_rt1d_direct_ex : 0 < 1 / 1000.
Proof. lra. Qed.
