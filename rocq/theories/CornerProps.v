(** Property C151: the source model as a function of its parameters.  Theorems only. *)
From Coq Require Import Reals Lra.
From Verif Require Import SourceModel CornerProof.
Open Scope R_scope.

(** C151: the spectrum increases with the corner frequency. *)
Theorem C151_corner : forall f M0 fc fc' n g, 0 < f -> 0 < M0 -> 0 < fc -> fc < fc' -> 0 < n -> 0 < g ->
  source_model f M0 fc n g < source_model f M0 fc' n g.
Proof. exact corner_up. Qed.
Print Assumptions C151_corner.

Example C151_corner_ex : 0 < 4 /\ 0 < 10 ^ 13 /\ 0 < 5 /\ 5 < 8 /\ 0 < 2 /\ 0 < 1.
Proof. lra. Qed.

(** C151: with a steeper fall-off it is larger below the corner frequency. *)
Theorem C151_below : forall f M0 fc n n' g, 0 < f -> f < fc -> 0 < M0 -> 0 < g -> n < n' ->
  source_model f M0 fc n g < source_model f M0 fc n' g.
Proof. exact steep_below. Qed.
Print Assumptions C151_below.

Example C151_below_ex : 0 < 4 /\ 4 < 5 /\ 0 < 10 ^ 13 /\ 0 < 1 /\ 2 < 3.
Proof. lra. Qed.

(** C151: and smaller above. *)
Theorem C151_above : forall f M0 fc n n' g, 0 < fc -> fc < f -> 0 < M0 -> 0 < g -> n < n' ->
  source_model f M0 fc n' g < source_model f M0 fc n g.
Proof. exact steep_above. Qed.
Print Assumptions C151_above.

Example C151_above_ex : 0 < 5 /\ 5 < 9 /\ 0 < 10 ^ 13 /\ 0 < 1 /\ 2 < 3.
Proof. lra. Qed.

(** C151: with a sharper corner it is larger at all frequencies. *)
Theorem C151_sharp : forall f M0 fc n g g', 0 < f -> 0 < M0 -> 0 < fc -> 0 < g -> g < g' ->
  source_model f M0 fc n g < source_model f M0 fc n g'.
Proof. exact sharp_up. Qed.
Print Assumptions C151_sharp.

Example C151_sharp_ex : 0 < 4 /\ 0 < 10 ^ 13 /\ 0 < 5 /\ 0 < 1 /\ 1 < 2.
Proof. lra. Qed.

(** C151: it is below the level M0 and the asymptote M0 (fc / f)^n, and by no more than the factor 2^(1/gamma)
    below the smaller of these. *)
Theorem C151_envelope : forall f M0 fc n g, 0 < f -> 0 < M0 -> 0 < fc -> 0 < n -> 0 < g ->
  M0 * Rmin 1 (Rpower (fc / f) n) * Rpower 2 (- (1) / g) <= source_model f M0 fc n g < M0 * Rmin 1 (Rpower (fc / f) n).
Proof. exact envelope. Qed.
Print Assumptions C151_envelope.

Example C151_envelope_ex : 0 < 9 /\ 0 < 10 ^ 13 /\ 0 < 5 /\ 0 < 2 /\ 0 < 1.
Proof. lra. Qed.

(** C151: it does not depend on the unit of frequency. *)
Theorem C151_unit : forall k f M0 fc n g, 0 < k -> 0 < f -> 0 < fc ->
  source_model (k * f) M0 (k * fc) n g = source_model f M0 fc n g.
Proof. exact source_unit. Qed.
Print Assumptions C151_unit.

Example C151_unit_ex : 0 < 1000 /\ 0 < 9 /\ 0 < 5.
Proof. lra. Qed.
