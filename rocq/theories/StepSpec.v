(** What is expected of the numbers in the main panel of plot_optimization. *)
From Coq Require Import List.
From Verif Require Import Pyf CurveModel.
Import ListNotations.

(** the place [(g, y)] is that of a cross of the plot [p]: of one of the misfits, or of a
    red one at the height [ym] *)
Definition at_cross (p : misfit_plot) (ym g y : pyf) : Prop :=
  In (g, y) (m_all p) \/ (In g (m_inf p) /\ y = ym).
