(** Independent specification for the arrangement of panels. *)
From Coq Require Import List Arith ZArith.
From Verif Require Import Base GridModel.
Import ListNotations.

(** a cell of a grid with rows and columns *)
Definition in_grid (gs : nat * nat) (c : nat * nat) : Prop := fst c < fst gs /\ snd c < snd gs.

(** [k] panels, with a colour bar or not, have a cell of their own each *)
Definition well_placed (k : nat) (bar : bool) (l : layout) : Prop :=
  let all := g_cells l ++ match g_bar l with Some c => [c] | None => [] end in
  length (g_cells l) = k /\ (g_bar l <> None <-> bar = true) /\
  NoDup all /\ Forall (in_grid (g_grid l)) all.

(** the panels are in the order of reading *)
Definition reading_order (l : layout) : Prop :=
  forall i j a b, nth_error (g_cells l) i = Some a -> nth_error (g_cells l) j = Some b -> i < j ->
    fst a < fst b \/ fst a = fst b /\ snd a < snd b.

(** a cell lies in a region *)
Definition in_region (r : region) (c : nat * nat) : Prop :=
  r1 r <= fst c < r2 r /\ c1 r <= snd c < c2 r.

(** exactly one number below [N] has a property *)
Definition exactly_one (N : nat) (P : nat -> Prop) : Prop :=
  exists i, (i < N /\ P i) /\ forall j, j < N /\ P j -> j = i.

(** the cell of panel [i] in reading order with [nx] columns *)
Definition place (nx i : nat) : nat * nat := (i / nx, i mod nx).
