(** Equations of radiative transfer in one dimension. *)
From Coq Require Import Reals.
From Coquelicot Require Import Coquelicot.
Open Scope R_scope.

(** [right] and [left] are the energy densities (place x, time t) of the scattered waves that run to
    the right and to the left with the velocity c, behind the wave fronts of a source at the place
    0 and the time 0.  Scattering is isotropic with the coefficient g0, i.e. half of the scattered
    energy keeps its direction, the other half changes it. *)
Definition transport (right left : R -> R -> R) (c g0 : R) : Prop :=
  forall x t, - (c * t) < x < c * t ->
  exists rt rx lt lx,
    is_derive (fun t => right x t) t rt /\ is_derive (fun x => right x t) x rx /\
    is_derive (fun t => left x t) t lt /\ is_derive (fun x => left x t) x lx /\
    let E := right x t + left x t in
    rt + c * rx = c * g0 * (E / 2 - right x t) /\
    lt - c * lx = c * g0 * (E / 2 - left x t).

(** The direct wave with the energy [direct t] at the front c t, which runs to the right, is the
    source of waves that run to the left: it loses c g0 / 2 direct t per time to them, and they fill
    a length that grows with the velocity 2 c.  The same holds for the front - c t with exchanged
    directions. *)
Definition sources (right left : R -> R -> R) (direct : R -> R) (c g0 : R) : Prop :=
  forall t, 0 < t ->
    filterlim (fun x => left x t) (at_left (c * t)) (locally (c * g0 / 2 * direct t / (2 * c))) /\
    filterlim (fun x => right x t) (at_right (- (c * t))) (locally (c * g0 / 2 * direct t / (2 * c))).

(** the energy of the direct wave, lost by scattering into the other direction only *)
Definition extinction (direct : R -> R) (c g0 : R) : Prop :=
  direct 0 = 1 / 2 /\ forall t, is_derive direct t (- (c * g0 / 2 * direct t)).
