(** Specification of frequency bands: a band is centred on its frequency and
    spans the given number of octaves. *)
From Coq Require Import Reals.
Open Scope R_scope.

(** lower corner positive, centre in the middle, upper/lower = 2^width *)
Definition octave_band (width f : R) (b : R * R) : Prop :=
  0 < fst b /\ (fst b + snd b) / 2 = f /\ snd b / fst b = Rpower 2 width.

(** order of bands: by the lower corner, then by the upper one *)
Definition band_le (a b : R * R) : Prop := fst a < fst b \/ fst a = fst b /\ snd a <= snd b.

(** the centre of a band *)
Definition centre (b : R * R) : R := (fst b + snd b) / 2.
